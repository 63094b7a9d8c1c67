(** Runs that panic *)
From Verif Require Import SpecCrash QueryProofs RunProofs ThreadProofs EditProofs SysProofs MapProofs CodecProofs
  SpatialProofs ArgProofs BodyProofs NodeProofs MetaProofs PanicProofs CrashProofs SafeProofs WholeProofs SpecOrder OrderProofs ToyRun.
From Verif Require Import Spec.

(** From a state in [P] the action panics, in a state in [R]. *)
Definition dies {A} (W : world) (P : sys -> Prop) (m : M A) (R : sys -> Prop) : Prop :=
  forall s, P s -> exists s', m W s = (Panicked, s') /\ R s'.

Lemma d_bind1 {A B} W P (m : M A) (f : A -> M B) R : dies W P m R -> dies W P (m ≫= f) R.
Proof.
  intros Hm s Hs. destruct (Hm s Hs) as (s' & E & HR). exists s'. split; [|done].
  unfold mbind, M_bind. by rewrite E.
Qed.
Lemma d_bind2 {A B} W P (m : M A) (f : A -> M B) Q R : hoare W P m Q never ->
  (forall a, dies W (Q a) (f a) R) -> dies W P (m ≫= f) R.
Proof.
  intros Hm Hf s Hs. specialize (Hm s Hs). unfold mbind, M_bind. destruct (m W s) as [[a| |] s']; [|done..].
  by apply Hf.
Qed.
Lemma d_pre {A} W (X : Prop) P (m : M A) R : (X -> dies W P m R) -> dies W (fun s => X /\ P s) m R.
Proof. intros H s [HX Hs]. by apply H. Qed.
Lemma d_ex {A I} W (P : I -> sys -> Prop) (m : M A) R : (forall i, dies W (P i) m R) ->
  dies W (fun s => exists i, P i s) m R.
Proof. intros H s [i Hs]. by apply (H i). Qed.
Lemma d_weaken {A} W (P P' : sys -> Prop) (m : M A) R : dies W P m R -> (forall s, P' s -> P s) -> dies W P' m R.
Proof. intros H HP s Hs. by apply H, HP. Qed.

Lemma foldM_app {A B} W (f : A -> B -> M A) l1 l2 a s :
  foldM f (l1 ++ l2) a W s = (c ← foldM f l1 a; foldM f l2 c) W s.
Proof.
  revert a s. induction l1 as [|x l1 IH]; intros a s; [done|]. cbn [foldM app].
  unfold mbind, M_bind. destruct (f a x W s) as [[c| |] s']; [|done..]. apply IH.
Qed.

Section edit.
  Context (W : world) (HW : no_faults W) (HO : world_ok W).
  Context (late : bool) (body : Z -> bytes -> out (edit * counts)).

  (** What is left behind: nothing committed, nothing logged. *)
  Definition uncommitted (d : mapdata) (t : list (log_type * msg)) (s : sys) : Prop :=
    exists m i h u, st d m i h u t s.

  Lemma d_edit_block d m i h u t c k x : m !! k = Some x -> body k x = Panic ->
    dies W (st d m i h u t) (edit_block late body c k) (uncommitted d t).
  Proof using HW.
    intros Hk Hb. unfold edit_block.
    eapply d_bind2 with (Q := fun _ s => exists u', st d m i h u' t s).
    { destruct late; [apply h_ret; intros s H; by exists u|].
      eapply h_post; [by apply h_inc_done|]. intros ? s (u' & ? & ?). by exists u'. }
    intros ?. cbn beta. apply d_ex. intros u1.
    eapply d_bind2; [by apply h_get_main|]. intros r. cbn beta. rewrite Hk.
    eapply d_weaken with (P := fun s => r = DOk x /\ st d m i h u1 t s); [|tauto].
    apply d_pre. intros ->.
    eapply d_bind2 with (Q := fun y s => y = x /\ st d m i h u1 t s); [by apply h_ret|].
    intros y. apply d_pre. intros ->. apply d_bind1. rewrite Hb. intros s Hs. exists s. split; [done|].
    by exists m, i, h, u1.
  Qed.

  Lemma first_panic (rows : list (Z * bytes)) r : r ∈ rows -> body r.1 r.2 = Panic ->
    exists l q rest, rows = l ++ q :: rest /\ body q.1 q.2 = Panic /\
      forall p, p ∈ l -> body p.1 p.2 = Ret (body_fn body p.1 p.2).
  Proof using Type.
    clear HW HO. clear W. intros Hr Hp. induction rows as [|q rows IH]; [set_solver|].
    destruct (body q.1 q.2) as [y|] eqn:Eq.
    - apply elem_of_cons in Hr as [->|Hr]; [congruence|]. destruct (IH Hr) as (l & q' & rest & -> & Hq & Hl).
      exists (q :: l), q', rest. split; [done|]. split; [done|]. intros p [->|Hp']%elem_of_cons; [|by apply Hl].
      unfold body_fn. by rewrite Eq.
    - exists [], q, rows. split; [done|]. split; [done|]. set_solver.
  Qed.

  Lemma d_edit_loop d m i h u t (rows : list (Z * bytes)) r : NoDup rows.*1 ->
    (forall r, r ∈ rows -> m !! r.1 = Some r.2) -> r ∈ rows -> body r.1 r.2 = Panic ->
    0 <= blocks_failed u < 18446744073709551616 ->
    dies W (st d m i h u t) (foldM (edit_block late body) rows.*1 (0, 0)) (uncommitted d t).
  Proof using HW HO.
    intros Hn Hm Hr Hp Hu. destruct (first_panic rows r Hr Hp) as (l & [k x] & rest & -> & Hq & Hl).
    intros s Hs. rewrite fmap_app. cbn [fmap list_fmap fst]. rewrite foldM_app. revert s Hs.
    change (dies W (st d m i h u t) (c ← foldM (edit_block late body) l.*1 (0, 0);
      foldM (edit_block late body) (k :: rest.*1) c) (uncommitted d t)).
    rewrite fmap_app in Hn. apply NoDup_app in Hn as (Hn1 & Hn2 & _).
    eapply d_bind2; [apply (h_edit_loop W HW HO late body (body_fn body) d m i h u t l); [done| |done|done]|].
    { intros q Hq'. apply Hm. set_solver. }
    intros c. cbn beta. apply d_pre. intros _. apply d_ex. intros u'. apply d_ex. intros m'.
    apply d_pre. intros _. apply d_pre. intros Hm'. cbn [foldM]. apply d_bind1. apply d_edit_block with x; [|done].
    pose proof (Hm (k, x) ltac:(set_solver)) as Hkx. simpl in Hkx. rewrite Hm', Hkx. simpl. rewrite bool_decide_false; [done|].
    intros H. apply (Hn2 k H). simpl. left.
  Qed.

  Lemma d_edit_blocks d m i h u t search a inv partial k x : m !! k = Some x ->
    row_sel search a inv partial k x = true -> body k x = Panic ->
    0 <= blocks_failed u < 18446744073709551616 ->
    dies W (st d m i h u t) (edit_blocks late search a inv partial body) (uncommitted d t).
  Proof using HW HO.
    intros Hk Hs Hp Hu. unfold edit_blocks.
    eapply d_bind2; [apply h_query with (im := ∅); [done..|by right]|]. intros keys. cbn beta.
    eapply d_weaken with (P := fun s =>
      (exists rs, row_list W m rs /\ keys = (sel_rows search a inv partial rs).*1) /\
      st d m i h (with_total u (Z.of_nat (length keys)) Ignore) t s); [|tauto].
    apply d_pre. intros (rs & [Hrs _] & ->).
    eapply d_bind2; [by apply h_set_state|]. intros ?. cbn beta. apply d_bind1.
    apply d_edit_loop with (k, x); [| | |done|done].
    - unfold sel_rows. apply NoDup_fst_filter. rewrite Hrs. apply NoDup_fst_map_to_list.
    - intros [k' x'] H. unfold sel_rows in H. apply elem_of_list_filter in H as [_ H].
      rewrite Hrs in H. by apply elem_of_map_to_list in H.
    - unfold sel_rows. apply elem_of_list_filter. split; [done|]. rewrite Hrs. by apply elem_of_map_to_list.
  Qed.
End edit.

(** The thread reaches the command. *)
Lemma thread_reaches E W g main input : no_faults W -> supplied g -> legal g -> ready W g ->
  exists s1, st main main (idb_opened g input) (has_input g) status_new (warnings g) s1 /\
    thread_main E g W (start main input) =
      (r ← (cmd_func E g ;; finish); match r with Some e => log LError (MErr e) | None => mret tt end) W s1.
Proof.
  intros HW Hs Hl (Hm & Hi & Ha).
  apply legal_iff in Hl as (Hv & v & Hcv & He); [|done].
  assert (exists s1, (e1 ← open_db Main (map_path g) EOpenMain EBadMain;
    match e1 with Some e => mret (Some e) | None => open_input g end) W (start main input) = (Done None, s1)
    /\ st main main (idb_opened g input) (has_input g) status_new [] s1) as (s1 & Eopen & Hs1).
  { unfold mbind, M_bind. rewrite open_db_ok by done. simpl.
    unfold open_input, idb_opened, has_input. destruct (input_map_path g) as [p|] eqn:Ep.
    - unfold mbind at 1, M_bind at 1. rewrite open_db_ok; [|done|by apply Hi|done]. simpl.
      eexists. split; [done|]. done.
    - eexists. split; [done|]. done. }
  set (w := match v with AWarning w => Some w | _ => None end).
  assert (hoare W (st main main (idb_opened g input) (has_input g) status_new []) (consent g w)
    (fun ok s => ok = true /\
      st main main (idb_opened g input) (has_input g) status_new (warnings g) s) never) as Hcons.
  { unfold consent. eapply h_bind with (Q1 := fun _ => st main main (idb_opened g input) (has_input g) status_new
         (if do_confirmation g then [(LWarning, MDanger)] else [])).
    { destruct (do_confirmation g); [apply h_log|by apply h_ret]. }
    intros ?. cbn beta.
    eapply h_bind with (Q1 := fun _ => st main main (idb_opened g input) (has_input g) status_new (warnings g)).
    { rewrite (verify_warning _ _ Hcv He). unfold w.
      destruct v; [apply h_ret; by rewrite app_nil_r|apply h_log|by destruct (He e)]. }
    intros ?. cbn beta. destruct (do_confirmation g); [|by apply h_ret].
    unfold get_confirmation. eapply h_bind; [apply h_send|]. intros ?. cbn beta.
    intros s H. unfold ask. rewrite Ha by done. split; [done|]. by rewrite app_nil_r in H. }
  specialize (Hcons s1 Hs1). destruct (consent g w W s1) as [[ok| |] s2] eqn:Ec; [|done..].
  destruct Hcons as [-> Hs2]. exists s2. split; [done|].
  unfold thread_main, compute_thread. rewrite Hv, Hcv.
  assert (forall k : M (option inst_error),
    (match v with AError e => mret (Some (EArg e)) | AOk | AWarning _ => k end) = k) as Hk.
  { intros k. destruct v; [done|done|by destruct (He e)]. }
  unfold mbind at 1, M_bind at 1. unfold mbind at 1, M_bind at 1. unfold lift, mret at 1, M_ret at 1.
  rewrite Hk. unfold mbind at 1, M_bind at 1.
  unfold mbind at 1, M_bind at 1 in Eopen.
  destruct (open_db Main (map_path g) EOpenMain EBadMain W (start main input)) as [[e1| |] s0]; [|done..].
  destruct e1 as [e1|]; [done|]. unfold mbind at 1, M_bind at 1. rewrite Eopen. fold w.
  unfold run_command. unfold mbind at 1, M_bind at 1. rewrite Ec.
  unfold mbind at 2, M_bind at 2. done.
Qed.

Lemma run_dies E W g main input : no_faults W -> supplied g -> legal g -> ready W g ->
  dies W (st main main (idb_opened g input) (has_input g) status_new (warnings g)) (cmd_func E g)
    (uncommitted main (warnings g)) -> crashes E W g main input.
Proof.
  intros HW Hs Hl Hr Hd. destruct (thread_reaches E W g main input HW Hs Hl Hr) as (s1 & Hs1 & Eq).
  destruct (Hd s1 Hs1) as (s' & Ec & m & i & h & u & Hst). exists s'. split.
  - rewrite Eq. unfold mbind, M_bind. by rewrite Ec.
  - destruct Hst as (Hdb & _ & _ & _ & Hlog). split; [|done]. unfold final. cbn [get_db]. by rewrite Hdb.
Qed.

(** All commands that edit in place are loops over the rows. *)
Lemma in_place_exact E W g main pos : setting E W g main pos -> in_place (acmd g) = true ->
  (acmd g = CSetParam2 -> is_Some (aparam2 g)) -> args_fit g ->
  exists late body mk,
    cmd_func E g = (c ← edit_blocks late (searched g) (aarea g) (invert g) true body; log LInfo (mk c)) /\
    forall k bp x, block_at k bp -> visit (aarea g) (invert g) true bp ->
      match deserialize E x with
      | Err _ => body k x = Ret (EFail, (0, 0))
      | Ok b => exact (fatal g bp b) (body k x)
      end.
Proof.
  intros HS Hc Hp2 [Hfit Hval]. destruct HS as [HE Hfull HW HO Hsup Hleg Hrdy Hkeys] eqn:EHS. clear EHS.
  pose proof (area_ok_args g Hsup Hleg) as Hok.
  unfold fatal, searched. destruct Hsup as [_ Hsup].
  assert (forall o, safe o -> exact False o) as Hsafe by (intros o Ho; by split).
  destruct (acmd g) eqn:Ec; try done.
  - exists false, (delmeta_body E (anode g) (aarea g) (invert g)),
      (fun c => MMeta c.1). split; [unfold cmd_func; by rewrite Ec|].
    intros k bp x Hk Hv. destruct (deserialize E x) as [b|] eqn:Ed; [|unfold delmeta_body; by rewrite Ed].
    by apply delmeta_exact.
  - exists false, (delobj_body E (obj_name g) (item_names g) (aarea g) (invert g)), (fun c => MObjects c.1). split; [unfold cmd_func; by rewrite Ec|].
    intros k bp x Hk Hv. destruct (deserialize E x) as [b|] eqn:Ed; [|unfold delobj_body; by rewrite Ed].
    apply Hsafe. eapply delobj_safe; eauto.
  - exists false, (deltimers_body E (anode g) (aarea g) (invert g)),
      (fun c => MTimers c.1). split; [unfold cmd_func; by rewrite Ec|].
    intros k bp x Hk Hv. destruct (deserialize E x) as [b|] eqn:Ed; [|unfold deltimers_body; by rewrite Ed].
    by apply deltimers_exact.
  - destruct Hsup as [[a Ha] [n Hn]]. rewrite Ha in Hok.
    exists false, (fill_body E a (invert g) n), (fun c => MFilled c.1). split.
    { unfold cmd_func, fill. by rewrite Ec, Ha, Hn. }
    intros k bp x Hk Hv. rewrite Ha in Hv |- *.
    destruct (deserialize E x) as [b|] eqn:Ed; [|unfold fill_body; by rewrite Ed].
    destruct (fill_exact E k bp x b a (invert g) n HE Hk Ed Hok Hv (Hfit n Hn)) as [H1 H2]. split.
    + intros (n' & Hn' & HF). apply H1. congruence.
    + intros HF. apply H2. intros HF'. apply HF. by exists n.
  - destruct Hsup as [[o Ho] [n Hn]]. rewrite Ho.
    exists true, (replace_body E o n (aarea g) (invert g)), (fun c => MReplaced c.1). split.
    { unfold cmd_func, replace_nodes. by rewrite Ec, Ho, Hn. }
    intros k bp x Hk Hv. destruct (deserialize E x) as [b|] eqn:Ed; [|unfold replace_body; by rewrite Ed].
    apply Hsafe. eapply replace_safe; eauto.
  - destruct Hsup as [item Hitem].
    exists false, (replinv_body E item (default (if adelete g then [] else item) (new_item g)) (delete_meta g) (anodes g) (aarea g) (invert g)),
      (fun c => MStacks c.1 c.2). split.
    { unfold cmd_func, replace_in_inv. by rewrite Ec, Hitem. }
    intros k bp x Hk Hv. destruct (deserialize E x) as [b|] eqn:Ed; [|unfold replinv_body; by rewrite Ed].
    by apply replinv_exact.
  - destruct Hsup as [key Hkey].
    exists false, (setvar_body E key (default [] (avalue g)) (adelete g) (anodes g) (aarea g) (invert g)), (fun c => MVars c.1). split.
    { unfold cmd_func, set_meta_var. by rewrite Ec, Hkey. }
    intros k bp x Hk Hv. destruct (deserialize E x) as [b|] eqn:Ed; [|unfold setvar_body; by rewrite Ed].
    apply setvar_exact; try done. destruct (avalue g) as [v|]; [by apply Hval|done].
  - destruct (Hp2 eq_refl) as [v Hv2].
    exists false, (param2_body E (anode g) v (aarea g) (invert g)),
      (fun c => MParam2 c.1). split.
    { unfold cmd_func, set_param2. by rewrite Ec, Hv2. }
    intros k bp x Hk Hv. destruct (deserialize E x) as [b|] eqn:Ed; [|unfold param2_body; by rewrite Ed].
    apply Hsafe. eapply param2_safe; eauto.
Qed.

Lemma meets_crashes E W g main input pos : setting E W g main pos -> in_place (acmd g) = true ->
  (acmd g = CSetParam2 -> is_Some (aparam2 g)) -> args_fit g -> meets_fatal E main g -> crashes E W g main input.
Proof.
  intros HS Hc Hp Hf (k & bp & x & b & Hk & Hx & Hv & Hm & Hd & HF).
  destruct (in_place_exact E W g main pos HS Hc Hp Hf) as (late & body & mk & Hcmd & Hbody).
  specialize (Hbody k bp x Hk Hv). rewrite Hd in Hbody. apply Hbody in HF as Hpan.
  pose proof (sel_iff E W g main pos HS (searched g) k x Hx) as Hsel.
  rewrite (block_at_fun k (pos k) bp) in Hsel; [|by apply (set_keys _ _ _ _ _ HS); eexists|done].
  destruct HS as [HE Hfull HW HO Hsup Hleg Hrdy Hkeys].
  apply run_dies; [done..|]. rewrite Hcmd. apply d_bind1. eapply d_edit_blocks with (k := k) (x := x); try done.
  by apply Hsel.
Qed.
Lemma avoids_skips E W g main input pos : setting E W g main pos -> in_place (acmd g) = true ->
  (acmd g = CSetParam2 -> is_Some (aparam2 g)) -> args_fit g -> ~ meets_fatal E main g -> skips E W g main input.
Proof.
  intros HS Hc Hp Hf Hno. destruct (in_place_exact E W g main pos HS Hc Hp Hf) as (late & body & mk & Hcmd & Hbody).
  apply (run_skips E W g main input pos HS late (searched g) body mk Hcmd).
  intros k bp x Hk Hx Hv Hm. specialize (Hbody k bp x Hk Hv). destruct (deserialize E x) as [b|] eqn:Ed; [|done].
  apply Hbody. intros HF. apply Hno. by exists k, bp, x, b.
Qed.

Lemma exact_run E W g main input pos : setting E W g main pos -> in_place (acmd g) = true ->
  (acmd g = CSetParam2 -> is_Some (aparam2 g)) -> args_fit g ->
  (meets_fatal E main g -> crashes E W g main input) /\ (~ meets_fatal E main g -> skips E W g main input).
Proof. intros HS Hc Hp Hf. split; intros H; [by eapply meets_crashes|by eapply avoids_skips]. Qed.

Lemma run_no_crash E W g main input main' l : run_ok E g W main input main' l -> ~ crashes E W g main input.
Proof. intros (s & H & _) (s' & H' & _). congruence. Qed.

Lemma crash_dec E W g main input : Decision (crashes E W g main input).
Proof.
  destruct (thread_main E g W (start main input)) as [r s] eqn:Er.
  destruct (decide (final Main s = main /\ logs (trace s) = warnings g)) as [Hd|Hd].
  - destruct r as [a| |].
    + right. intros (s' & H & _). congruence.
    + left. by exists s.
    + right. intros (s' & H & _). congruence.
  - right. intros (s' & H & HH). rewrite Er in H. injection H as _ <-. done.
Qed.

(** If one run crashes, so does the other. *)
Lemma crash_meets E W g main input pos : setting E W g main pos -> in_place (acmd g) = true ->
  (acmd g = CSetParam2 -> is_Some (aparam2 g)) -> args_fit g -> crashes E W g main input -> ~ ~ meets_fatal E main g.
Proof.
  intros HS Hc Hp Hf Hcr Hno. destruct (avoids_skips E W g main input pos HS Hc Hp Hf Hno) as (m' & m & n & Hr & _).
  by apply (run_no_crash _ _ _ _ _ _ _ Hr).
Qed.

Lemma rows_any E W1 W2 g main input pos : setting E W1 g main pos -> setting E W2 g main pos ->
  in_place (acmd g) = true -> (acmd g = CSetParam2 -> is_Some (aparam2 g)) -> args_fit g ->
  (crashes E W1 g main input /\ crashes E W2 g main input) \/
  exists main' l, run_ok E g W1 main input main' l /\ run_ok E g W2 main input main' l.
Proof.
  intros HS1 HS2 Hc Hp Hf. destruct (crash_dec E W1 g main input) as [H1|H1].
  - left. split; [done|]. destruct (crash_dec E W2 g main input) as [H2|H2]; [done|]. exfalso.
    apply (crash_meets E W1 g main input pos HS1 Hc Hp Hf H1). intros Hm. apply H2. by eapply meets_crashes.
  - right. assert (~ meets_fatal E main g) as Hno by (intros Hm; apply H1; by eapply meets_crashes).
    destruct (in_place_exact E W1 g main pos HS1 Hc Hp Hf) as (late & body & mk & Hcmd & Hbody).
    assert (forall k bp x, block_at k bp -> main !! k = Some x -> visit (aarea g) (invert g) true bp ->
       mentions (searched g) x ->
       match deserialize E x with
       | Err _ => body k x = Ret (EFail, (0, 0))
       | Ok b => exists e c, e <> EFail /\ body k x = Ret (e, c)
       end) as Hb.
    { intros k bp x Hk Hx Hv Hm. specialize (Hbody k bp x Hk Hv). destruct (deserialize E x) as [b|] eqn:Ed; [|done].
      apply Hbody. intros HF. apply Hno. by exists k, bp, x, b. }
    destruct (run_any E W1 g main input pos HS1 late (searched g) body mk Hcmd Hb) as (n1 & R1 & S1).
    destruct (run_any E W2 g main input pos HS2 late (searched g) body mk Hcmd Hb) as (n2 & R2 & S2).
    rewrite <-(skipped_fun _ _ _ _ _ _ _ S1 S2) in R2. eexists _, _. split; [exact R1|exact R2].
Qed.

Lemma meets_same E1 E2 main g : same_reading E1 E2 -> meets_fatal E1 main g -> meets_fatal E2 main g.
Proof.
  intros HE (k & bp & x & b & Hk & Hx & Hv & Hm & Hd & HF). exists k, bp, x, b.
  by rewrite <-(deser_same E1 E2 HE).
Qed.
Lemma crash_any E1 E2 W1 W2 g main input pos : same_reading E1 E2 -> setting E1 W1 g main pos -> setting E2 W2 g main pos ->
  in_place (acmd g) = true -> (acmd g = CSetParam2 -> is_Some (aparam2 g)) -> args_fit g ->
  crashes E1 W1 g main input -> crashes E2 W2 g main input.
Proof.
  intros HE HS1 HS2 Hc Hp Hf H1. destruct (crash_dec E2 W2 g main input) as [H2|H2]; [done|]. exfalso.
  apply (crash_meets E1 W1 g main input pos HS1 Hc Hp Hf H1). intros Hm. apply H2. eapply meets_crashes; try done.
  by eapply meets_same.
Qed.
