(** The two threads *)
From Verif Require Import Sys SysProofs Instance Ui SpecUi TameProofs ProgressProofs FaultProofs.

(** * The visible behaviour of the compute thread *)

Lemma path_before l p b : path (before l p) b = l ++ path p b.
Proof. induction l as [|[] l IH]; simpl; by f_equal. Qed.
Lemma path_straight l b : path (straight l) b = l.
Proof. unfold straight. rewrite path_before. apply app_nil_r. Qed.

(** Two lists of events that are the same up to the confirmation request *)
Definition diverge (t1 t2 : list tev) : Prop :=
  (t1 = t2 /\ Forall (fun e => is_confirm e = false) t1) \/
  exists pre s1 s2, t1 = pre ++ TConfirm :: s1 /\ t2 = pre ++ TConfirm :: s2 /\
    Forall (fun e => is_confirm e = false) pre.

Lemma find_none l : Forall (fun e => is_confirm e = false) l -> list_find (fun e => is_confirm e = true) l = None.
Proof.
  intros H. apply list_find_None. eapply Forall_impl; [exact H|]. cbn. intros x ->. done.
Qed.
Lemma find_first pre s : Forall (fun e => is_confirm e = false) pre ->
  list_find (fun e => is_confirm e = true) (pre ++ TConfirm :: s) = Some (length pre, TConfirm).
Proof.
  intros H. apply list_find_Some. split; [by rewrite list_lookup_middle|]. split; [done|].
  intros j y Hj Hlt. rewrite lookup_app_l in Hj by done.
  pose proof (Forall_lookup_1 _ _ _ _ H Hj) as Hy. cbn in Hy. by rewrite Hy.
Qed.

Lemma proc_of_ok t : diverge (t false) (t true) -> forall b, path (proc_of t) b = t b.
Proof.
  intros [[E H]|(pre & s1 & s2 & E1 & E2 & H)] b; unfold proc_of.
  - rewrite find_none by done. rewrite path_straight. by destruct b.
  - rewrite E1, find_first by done. rewrite path_before. cbn [path]. rewrite path_straight.
    rewrite take_app. destruct b; [rewrite E2|rewrite E1]; f_equal; f_equal.
    + rewrite cons_middle, app_assoc, drop_app_alt by (rewrite app_length; simpl; lia). done.
    + rewrite cons_middle, app_assoc, drop_app_alt by (rewrite app_length; simpl; lia). done.
Qed.

(** Actions whose events are the same, whatever the reply, up to the request *)
Definition splits {A} (m : M A) : Prop := forall W s, Forall (fun e => is_confirm e = false) (trace s) ->
  (m (replying true W) s = m (replying false W) s /\ Forall (fun e => is_confirm e = false) (trace (m (replying false W) s).2)) \/
  exists pre s1 s2, trace (m (replying false W) s).2 = pre ++ TConfirm :: s1 /\
    trace (m (replying true W) s).2 = pre ++ TConfirm :: s2 /\ Forall (fun e => is_confirm e = false) pre.

Lemma sp_tame {A} (m : M A) : tame m -> splits m.
Proof.
  intros H W s Hs. left. destruct (H W true s) as [E1 _], (H W false s) as [E2 (l & El & Hl)].
  rewrite E1, E2. split; [done|]. rewrite El. by apply Forall_app.
Qed.
(** Once the request is out, the rest only adds to the events. *)
Definition grows {A} (m : M A) : Prop := forall W s, exists l, trace (m W s).2 = trace s ++ l.
Lemma gr_tame {A} (m : M A) : tame m -> grows m.
Proof. intros H W s. destruct (H W true s) as [_ (l & El & _)]. eauto. Qed.
Lemma gr_bind {A B} (m : M A) (f : A -> M B) : grows m -> (forall a, grows (f a)) -> grows (m ≫= f).
Proof.
  intros Hm Hf W s. unfold mbind, M_bind. destruct (Hm W s) as [l Hl].
  destruct (m W s) as [[a| |] s']; simpl in *; [|eauto..].
  destruct (Hf a W s') as [l' Hl']. exists (l ++ l'). by rewrite Hl', Hl, app_assoc.
Qed.

Lemma sp_bind {A B} (m : M A) (f : A -> M B) :
  splits m -> (forall a, splits (f a)) -> (forall a, grows (f a)) -> splits (m ≫= f).
Proof.
  intros Hm Hf Hg W s Hs. unfold mbind, M_bind.
  destruct (Hm W s Hs) as [[-> H]|(pre & s1 & s2 & E1 & E2 & H)].
  - destruct (m (replying false W) s) as [[a| |] s']; simpl in *; [|by left..]. by apply Hf.
  - right. destruct (m (replying false W) s) as [r1 t1], (m (replying true W) s) as [r2 t2]. simpl in *.
    assert (forall r t W', (exists l, trace t = pre ++ TConfirm :: l) -> exists l, trace (match r with
       | Done a => f a W' t | Panicked => (Panicked, t) | Killed => (Killed, t) end).2 = pre ++ TConfirm :: l) as K.
    { intros [a| |] t W' [l Hl]; simpl; [|by eauto..]. destruct (Hg a W' t) as [l' Hl'].
      exists (l ++ l'). by rewrite Hl', Hl, <- app_assoc. }
    destruct (K r1 t1 (replying false W) (ex_intro _ _ E1)) as [l1 ?].
    destruct (K r2 t2 (replying true W) (ex_intro _ _ E2)) as [l2 ?].
    exists pre, l1, l2. done.
Qed.

Lemma gr_confirm : grows get_confirmation.
Proof. intros W s. exists [TConfirm]. done. Qed.
Lemma gr_ret {A} (a : A) : grows (mret a).
Proof. apply gr_tame, tm_ret. Qed.
Lemma sp_confirm : splits get_confirmation.
Proof. intros W s Hs. right. by exists (trace s), [], []. Qed.
Lemma tm_log lt m : tame (log lt m).
Proof. unfold log. by apply tm_send. Qed.

Ltac sp := repeat first [ apply sp_tame; solve [tm] | apply gr_tame; solve [tm] | apply sp_confirm | apply gr_confirm
  | apply sp_bind; [| intros ? | intros ?] | apply gr_bind; [| intros ?]
  | match goal with |- splits (match ?x with _ => _ end) => destruct x end
  | match goal with |- grows (match ?x with _ => _ end) => destruct x end ].
Lemma sp_thread E g : splits (thread_main E g).
Proof.
  unfold thread_main, compute_thread, run_command, consent.
  sp.
Qed.

Lemma events_diverge E g W main input : diverge (events E g W main input false) (events E g W main input true).
Proof.
  unfold events. destruct (sp_thread E g W (start main input)) as [[E1 H]|H]; [constructor| |].
  - left. by rewrite E1.
  - by right.
Qed.
Lemma behaves_ex E g W main input : exists p, behaves p E g W main input.
Proof. exists (proc_of (events E g W main input)). intros b. apply proc_of_ok, events_diverge. Qed.

(** * Invariant of the two threads *)
Section inv.
  Context (line : list Z) (p0 : proc).
  Notation b := (confirms line).
  Notation H := (path p0 b).
  Context (Hfull : forall x, TStatus x ∈ H -> over_full x = false).

  (** What the compute thread still has to do *)
  Definition rest (w : worker) : list tev :=
    match w with WAt q => path q b | WWait k => path (k b) b | _ => [] end.
  Definition clogs (c : list server_event) : list (log_type * msg) :=
    omap (fun e => match e with SLog lt m => Some (lt, m) | _ => None end) c.
  Definition cstates (c : list server_event) : list inst_state :=
    omap (fun e => match e with SState st => Some st | _ => None end) c.
  Definition creqs (c : list server_event) : nat :=
    length (omap (fun e => match e with SConfirm => Some tt | _ => None end) c).
  Definition plain (c : list server_event) : Prop := creqs c = 0%nat.

  Definition handshake (t : threads) : Prop :=
    match wk t with
    | WWait _ =>
      (exists pre, chan t = pre ++ [SConfirm] /\ plain pre /\ reply t = [] /\ ph t <> UPrompt) \/
      (chan t = [] /\ reply t = [] /\ ph t = UPrompt) \/
      (chan t = [] /\ reply t = [b] /\ ph t <> UPrompt)
    | _ => plain (chan t) /\ reply t = [] /\ ph t <> UPrompt
    end.

  Record tinv (t : threads) : Prop := {
    i_sane : sane t;
    i_log : logged H = printed (outs t) ++ clogs (chan t) ++ logged (rest (wk t));
    i_req : requests H = (prompts (outs t) + creqs (chan t) + requests (rest (wk t)))%nat;
    i_hand : handshake t;
    i_stat : over_full (stat t) = false;
    i_rest : forall x, TStatus x ∈ rest (wk t) -> over_full x = false;
    i_end : ph t = UEnd -> chan t = [] /\ wk t = WOver;
    i_tidy : tidy (outs t);
    i_fresh : nl t = false -> fresh (outs t) }.

  Lemma printed_app o1 o2 : printed (o1 ++ o2) = printed o1 ++ printed o2.
  Proof. apply omap_app. Qed.
  Lemma prompts_app o1 o2 : prompts (o1 ++ o2) = (prompts o1 + prompts o2)%nat.
  Proof. unfold prompts. by rewrite omap_app, app_length. Qed.
  Lemma clogs_app o1 o2 : clogs (o1 ++ o2) = clogs o1 ++ clogs o2.
  Proof. apply omap_app. Qed.
  Lemma cstates_app o1 o2 : cstates (o1 ++ o2) = cstates o1 ++ cstates o2.
  Proof. apply omap_app. Qed.
  Lemma creqs_app o1 o2 : creqs (o1 ++ o2) = (creqs o1 + creqs o2)%nat.
  Proof. unfold creqs. by rewrite omap_app, app_length. Qed.

  Lemma tidy_snoc o x : tidy o -> (match x with OLog _ _ | OPrompt => fresh o | _ => True end) -> tidy (o ++ [x]).
  Proof.
    intros Ho Hx pre y suf E. destruct (exists_last (l := y :: suf)) as (l' & z & El); [done|].
    rewrite El, app_assoc in E. apply app_inj_tail in E as [-> ->].
    destruct l' as [|y' l']; simplify_eq/=; [by rewrite app_nil_r in *|]. by eapply Ho.
  Qed.
  Lemma fresh_snoc o x : fresh (o ++ [x]) <-> match x with OQuery _ | OEdit _ _ _ => False | _ => True end.
  Proof. unfold fresh. rewrite last_snoc. by destruct x. Qed.
  Lemma tidy_two o x : tidy (o ++ [x]) -> tidy (o ++ [x; ONewline]).
  Proof. intros. change [x; ONewline] with ([x] ++ [ONewline]). rewrite app_assoc. by apply tidy_snoc. Qed.
  Lemma fresh_two o x : fresh (o ++ [x; ONewline]).
  Proof. change [x; ONewline] with ([x] ++ [ONewline]). rewrite app_assoc. by apply fresh_snoc. Qed.
  Lemma tidy_newline o n : tidy o -> tidy (o ++ newline_if n).
  Proof. destruct n; simpl; [|by rewrite app_nil_r]. intros. by apply tidy_snoc. Qed.
  Lemma fresh_newline o n : (n = false -> fresh o) -> fresh (o ++ newline_if n).
  Proof. destruct n; simpl; [|rewrite app_nil_r; auto]. intros _. by apply fresh_snoc. Qed.
  Lemma printed_newline n : printed (newline_if n) = [].
  Proof. by destruct n. Qed.
  Lemma prompts_newline n : prompts (newline_if n) = 0%nat.
  Proof. by destruct n. Qed.

  Lemma inv_launch : tinv (launch p0).
  Proof.
    constructor; try done; simpl.
    - intros pre x suf E. by destruct pre.
  Qed.

  Lemma inv_step l t t' : tinv t -> tstep line l t t' -> tinv t'.
  Proof.
    intros [[Hs1 Hs2] Hl Hr Hh Hst Hre He Ht Hf] Hstep. unfold handshake in Hh.
    destruct Hstep as [t lt m p Ew Ep|t lt m p Ew Ep|t s p Ew Ep|t s p Ew Ep|t x p Ew|t k Ew Ep|t k Ew Ep|t k b0 r Ew Er|t k Ew Er Ep|t Ew
      |t e c Ep Ec|t Ep Ec Eg|t Ep Ec Eg|t Ep Eg|t Ep Eg|t f ready Ep]; try congruence; rewrite ?Ew in *; simpl in *.
    - (* log *)
      destruct Hh as (Hp & Hrp & Hnp). constructor; simpl; try done.
      + rewrite clogs_app, Hl; simpl; by rewrite <- ?app_assoc.
      + rewrite creqs_app, Hr; unfold requests; cbn; lia.
      + unfold handshake, plain in *. simpl. split; [|done]. by rewrite creqs_app, Hp.
      + intros x Hx. apply Hre. by right.
      + intros E. by destruct (He E).
    - (* state *)
      destruct Hh as (Hp & Hrp & Hnp). constructor; simpl; try done.
      + rewrite clogs_app, Hl; simpl; by rewrite app_nil_r.
      + rewrite creqs_app, Hr; unfold requests; cbn; lia.
      + unfold handshake, plain in *. simpl. split; [|done]. by rewrite creqs_app, Hp.
      + intros x Hx. apply Hre. by right.
      + intros E. by destruct (He E).
    - (* status *)
      constructor; simpl; try done.
      + apply Hre. by left.
      + intros y Hy. apply Hre. by right.
      + intros E. by destruct (He E).
    - (* ask *)
      destruct Hh as (Hp & Hrp & Hnp). constructor; simpl; try done.
      + rewrite clogs_app, Hl. simpl. by rewrite app_nil_r.
      + rewrite creqs_app, Hr. unfold requests. cbn. lia.
      + left. by exists (chan t).
      + intros x Hx. apply Hre. by right.
      + intros E. by destruct (He E).
    - (* resume *)
      assert (chan t = [] /\ b0 = b /\ r = [] /\ ph t <> UPrompt) as (Ec & -> & -> & Hnp).
      { destruct Hh as [(pre & ? & ? & ? & ?)|[(? & ? & ?)|(? & ? & ?)]]; try congruence. split; [done|].
        rewrite Er in *. by simplify_eq. }
      constructor; simpl; try done.
      + unfold handshake. simpl. by rewrite Ec.
      + intros E. by destruct (He E).
    - (* end *)
      constructor; simpl; try done. intros E. by destruct (He E).
    - (* receive *)
      rewrite Ec in *. destruct e as [lt m|st|]; simpl in *.
      + constructor; simpl; try done.
        * rewrite !printed_app, printed_newline, Hl. simpl. by rewrite <- app_assoc.
        * rewrite !prompts_app, prompts_newline, Hr. unfold creqs. cbn. lia.
        * unfold handshake. simpl. destruct (wk t); [by destruct Hh as (? & ? & ?)| |by destruct Hh as (? & ? & ?)..].
          destruct Hh as [(pre & Epre & ? & ? & ?)|[(? & ? & ?)|(? & ? & ?)]]; [|done..].
          left. destruct pre as [|x pre]; simplify_eq/=. exists pre. repeat split; try done.
        * rewrite app_assoc. apply tidy_snoc; [by apply tidy_newline|]. by apply fresh_newline.
        * intros _. rewrite app_assoc. by apply fresh_snoc.
      + constructor; simpl; try done.
        unfold handshake. simpl. destruct (wk t); [by destruct Hh as (? & ? & ?)| |by destruct Hh as (? & ? & ?)..].
        destruct Hh as [(pre & Epre & ? & ? & ?)|[(? & ? & ?)|(? & ? & ?)]]; [|done..].
        left. destruct pre as [|x pre]; simplify_eq/=. exists pre. repeat split; try done.
      + destruct (wk t) as [q|k| |] eqn:Ew; try (by destruct Hh as [Hp _]).
        destruct Hh as [(pre & Epre & Hpre & ? & ?)|[(? & ? & ?)|(? & ? & ?)]]; [|done..].
        destruct pre as [|x pre]; simplify_eq/=.
        constructor; simpl; try done; rewrite ?Ew; simpl.
        * rewrite !printed_app, printed_newline, Hl. simpl. by rewrite app_nil_r.
        * rewrite !prompts_app, prompts_newline, Hr. unfold creqs, prompts. cbn. lia.
        * unfold handshake. simpl. rewrite ?Ew. right. by left.
        * rewrite app_assoc. apply tidy_snoc; [by apply tidy_newline|]. by apply fresh_newline.
        * intros _. rewrite app_assoc. by apply fresh_snoc.
    - (* timeout *)
      constructor; simpl; try done. unfold handshake. simpl. destruct (wk t); try done.
      + by destruct Hh as (? & ? & ?).
      + destruct Hh as [(pre & ? & ? & ? & ?)|[(? & ? & ?)|(? & ? & ?)]]; [|congruence|].
        * left. exists pre. done.
        * right. right. done.
    - (* disconnected *)
      constructor; simpl; try done.
      + unfold handshake. simpl. destruct (wk t); try done; by destruct Hh as (? & ? & ?).
      + intros _. split; [done|]. by destruct (wk t).
    - (* reply *)
      destruct (wk t) as [q|k| |] eqn:Ew; try done; [by destruct Hh as (_ & _ & ?)|].
      destruct Hh as [(pre & ? & ? & ? & ?)|[(? & Hrp & ?)|(? & ? & ?)]]; try congruence.
      constructor; simpl; rewrite ?Ew; try done.
      unfold handshake. simpl. rewrite ?Ew, Hrp. right. by right.
    - (* reply to nobody *)
      destruct (wk t); try done; by destruct Hh as (_ & _ & ?).
    - (* update *)
      unfold update. destruct (is_querying f || _).
      + destruct (is_ignore (cur t)).
        * constructor; simpl; try done.
          -- rewrite !printed_app, Hl. simpl. by rewrite app_nil_r.
          -- rewrite !prompts_app, Hr. cbn. lia.
          -- unfold handshake. simpl. rewrite Ep in Hh. destruct (wk t); try done.
             all: naive_solver.
          -- apply tidy_two. by apply tidy_snoc.
          -- intros _. apply fresh_two.
        * constructor; simpl; try done.
          -- rewrite !printed_app, Hl. simpl. by rewrite app_nil_r.
          -- rewrite !prompts_app, Hr. cbn. lia.
          -- unfold handshake. simpl. rewrite Ep in Hh. destruct (wk t); try done.
             all: naive_solver.
          -- by apply tidy_snoc.
      + destruct (is_editing f || _).
        * rewrite Hst. destruct (is_ignore (cur t)).
          -- constructor; simpl; try done.
             ++ rewrite !printed_app, Hl. simpl. by rewrite app_nil_r.
             ++ rewrite !prompts_app, Hr. cbn. lia.
             ++ unfold handshake. simpl. rewrite Ep in Hh. destruct (wk t); try done.
                all: naive_solver.
             ++ apply tidy_two. by apply tidy_snoc.
             ++ intros _. apply fresh_two.
          -- constructor; simpl; try done.
             ++ rewrite !printed_app, Hl. simpl. by rewrite app_nil_r.
             ++ rewrite !prompts_app, Hr. cbn. lia.
             ++ unfold handshake. simpl. rewrite Ep in Hh. destruct (wk t); try done.
                all: naive_solver.
             ++ by apply tidy_snoc.
        * destruct (is_ignore (cur t)).
          -- constructor; simpl; try done.
             ++ rewrite !printed_app, printed_newline, Hl. by rewrite app_nil_r.
             ++ rewrite !prompts_app, prompts_newline, Hr. lia.
             ++ unfold handshake. simpl. rewrite Ep in Hh. destruct (wk t); try done.
                all: naive_solver.
             ++ by apply tidy_newline.
             ++ intros _. by apply fresh_newline.
          -- rewrite app_nil_r. constructor; simpl; try done.
             unfold handshake. simpl. rewrite Ep in Hh. destruct (wk t); try done.
             all: naive_solver.
  Qed.

  Lemma inv_execution ls t : execution line p0 ls t -> tinv t.
  Proof. induction 1; [apply inv_launch|by eapply inv_step]. Qed.

  (** ** The state shown *)
  Record tinv2 (t : threads) : Prop := {
    i_cur : exists seen, states H = seen ++ cstates (chan t) ++ states (rest (wk t)) /\ cur t = default Ignore (last seen);
    i_quiet : (match ph t with UUpdate _ => False | _ => True end) -> cur t = Ignore -> nl t = false }.
  Lemma inv2_launch : tinv2 (launch p0).
  Proof. constructor; [|done]. by exists []. Qed.
  Lemma inv2_step l t t' : tinv t -> tinv2 t -> tstep line l t t' -> tinv2 t'.
  Proof.
    intros I [(seen & Hs & Hc) Hq] Hstep. destruct (i_sane _ I) as [Hs1 Hs2].
    pose proof (i_hand _ I) as Hh. unfold handshake in Hh. pose proof (i_stat _ I) as Hst.
    destruct Hstep as [t lt m p Ew Ep|t lt m p Ew Ep|t s p Ew Ep|t s p Ew Ep|t x p Ew|t k Ew Ep|t k Ew Ep|t k b0 r Ew Er|t k Ew Er Ep|t Ew
      |t e c Ep Ec|t Ep Ec Eg|t Ep Ec Eg|t Ep Eg|t Ep Eg|t f ready Ep]; try congruence; rewrite ?Ew in *; simpl in *.
    - constructor; simpl; [|done]. exists seen. by rewrite cstates_app, Hs, <- app_assoc.
    - constructor; simpl; [|done]. exists seen. by rewrite cstates_app, Hs, <- app_assoc.
    - constructor; simpl; [|done]. by exists seen.
    - constructor; simpl; [|done]. exists seen. by rewrite cstates_app, Hs, <- app_assoc.
    - assert (b0 = b) as -> by (destruct Hh as [(pre & ? & ? & ? & ?)|[(? & ? & ?)|(? & ? & ?)]]; congruence).
      constructor; simpl; [|done]. by exists seen.
    - constructor; simpl; [|done]. by exists seen.
    - rewrite Ec in Hs. destruct e as [lt m|st|]; simpl in *.
      + constructor; simpl; [|done]. by exists seen.
      + constructor; simpl; [|done]. exists (seen ++ [st]). rewrite last_snoc. split; [|done].
        by rewrite Hs, <- app_assoc.
      + constructor; simpl; [|done]. by exists seen.
    - constructor; simpl; [|done]. by exists seen.
    - constructor; simpl; [by exists seen|]. intros _. apply Hq. by rewrite Ep.
    - constructor; simpl; [|done]. by exists seen.
    - destruct (wk t); try done; by destruct Hh as (_ & _ & ?).
    - unfold update. rewrite Hst.
      destruct (is_querying f || _); [|destruct (is_editing f || _)]; destruct (cur t) eqn:Et;
        (constructor; simpl; [by exists seen|done]).
  Qed.
  Lemma inv2_execution ls t : execution line p0 ls t -> tinv2 t.
  Proof. induction 1; [apply inv2_launch|]. eapply inv2_step; [by eapply inv_execution|done|done]. Qed.

  (** ** No deadlock *)
  Lemma can_step t : tinv t -> ~ ended t -> exists l t', l <> LTick /\ tstep line l t t'.
  Proof.
    intros I Hne. destruct (i_sane _ I) as [Hs1 Hs2]. pose proof (i_hand _ I) as Hh. unfold handshake in Hh.
    assert (forall f, ph t = UUpdate f -> exists l t', l <> LTick /\ tstep line l t t') as Kup.
    { intros f Ef. exists LUi. eexists. split; [done|]. by apply (U_update line t f true). }
    assert (forall e c, ph t = URecv -> chan t = e :: c -> exists l t', l <> LTick /\ tstep line l t t') as Krecv.
    { intros e c E1 E2. exists LUi. eexists. split; [done|]. by eapply U_recv. }
    destruct (wk t) as [q|k| |] eqn:Ew; [| | |done].
    - exists LWorker. destruct q; eexists; (split; [done|]).
      + by apply W_end.
      + by eapply W_log.
      + by eapply W_state.
      + by eapply W_status.
      + by eapply W_ask.
    - destruct Hh as [(pre & Ec & _ & _ & Hp)|[(Ec & Er & Ep)|(Ec & Er & Ep)]].
      + destruct (ph t) eqn:Ep; try done.
        * destruct pre as [|x pre]; rewrite Ec in *; by eapply Krecv.
        * by eapply Kup.
        * destruct (i_end _ I Ep) as [? ?]. rewrite Ec in *. by destruct pre.
      + exists LUi. eexists. split; [done|]. apply U_reply; [done|by rewrite Ew].
      + exists LWorker. eexists. split; [done|]. by eapply W_resume.
    - destruct Hh as (_ & _ & Hp). destruct (ph t) eqn:Ep; try done.
      + destruct (chan t) as [|e c] eqn:Ec; [|by eapply Krecv].
        exists LUi. eexists. split; [done|]. apply U_disconnected; [done..|by rewrite Ew].
      + by eapply Kup.
      + by destruct Hne.
  Qed.

  (** ** Termination *)
  Definition wsize (w : worker) : nat :=
    match w with
    | WAt q => 5 * length (path q b) + 1
    | WWait k => 5 * length (path (k b) b) + 2
    | _ => 0
    end.
  Definition csize (c : list server_event) : nat := 2 * length c + creqs c.
  Definition psize (p : phase) : nat :=
    match p with URecv => 1 | UUpdate _ => 2 | UPrompt => 3 | _ => 0 end.
  Definition size (t : threads) : nat := wsize (wk t) + csize (chan t) + psize (ph t).

  Lemma size_step l t t' : tinv t -> tstep line l t t' ->
    match l with LTick => size t' = S (size t) | _ => (size t' < size t)%nat end.
  Proof.
    intros I Hstep. destruct (i_sane _ I) as [Hs1 Hs2]. pose proof (i_hand _ I) as Hh. unfold handshake in Hh.
    unfold size. destruct Hstep as [t lt m p Ew Ep|t lt m p Ew Ep|t s p Ew Ep|t s p Ew Ep|t x p Ew|t k Ew Ep|t k Ew Ep|t k b0 r Ew Er|t k Ew Er Ep|t Ew
      |t e c Ep Ec|t Ep Ec Eg|t Ep Ec Eg|t Ep Eg|t Ep Eg|t f ready Ep]; try congruence; rewrite ?Ew in *; simpl in *.
    - unfold csize. rewrite app_length, creqs_app. cbn. lia.
    - unfold csize. rewrite app_length, creqs_app. cbn. lia.
    - lia.
    - unfold csize. rewrite app_length, creqs_app. cbn. lia.
    - assert (b0 = b) as -> by (destruct Hh as [(pre & ? & ? & ? & ?)|[(? & ? & ?)|(? & ? & ?)]]; congruence). lia.
    - lia.
    - rewrite Ep, Ec in *. unfold csize, creqs. destruct e; cbn; lia.
    - rewrite Ep. simpl. lia.
    - rewrite Ep. simpl. lia.
    - rewrite Ep. simpl. lia.
    - destruct (wk t); try done; by destruct Hh as (_ & _ & ?).
    - rewrite Ep. unfold update. rewrite (i_stat _ I).
      destruct (is_querying f || _); [destruct (is_ignore _); simpl; lia|].
      destruct (is_editing f || _); destruct (is_ignore _); simpl; lia.
  Qed.

  Lemma gone_stays l t t' : gone (wk t) = true -> tstep line l t t' -> gone (wk t') = true /\ l <> LTick.
  Proof.
    intros Hg Hstep. destruct Hstep as [t lt m p Ew Ep|t lt m p Ew Ep|t s p Ew Ep|t s p Ew Ep|t x p Ew|t k Ew Ep|t k Ew Ep|t k b0 r Ew Er|t k Ew Er Ep|t Ew
      |t e c Ep Ec|t Ep Ec Eg|t Ep Ec Eg|t Ep Eg|t Ep Eg|t f ready Ep]; rewrite ?Ew in *; try done; try congruence.
    - split; [|done]. by destruct e.
    - split; [|done]. unfold update. destruct (is_querying f || _); [by destruct (is_ignore _)|].
      destruct (is_editing f || _); [destruct (over_full _); [done|]|]; by destruct (is_ignore _).
  Qed.

  Lemma ends_after t : tinv t -> gone (wk t) = true -> inevitably line ended t.
  Proof.
    remember (size t) as n eqn:En. revert t En. induction (lt_wf n) as [n _ IH]. intros t -> I Hg.
    assert (ended t \/ ~ ended t) as [?|Hne].
    { unfold ended. destruct (wk t), (ph t); naive_solver. }
    - by apply Now.
    - apply Later.
      + destruct (can_step t I Hne) as (l & t' & _ & Hs). eauto.
      + intros l t' Hs. destruct (gone_stays _ _ _ Hg Hs) as [Hg' Hl]. pose proof (size_step _ _ _ I Hs) as Hsz.
        destruct l; [| |done]; (eapply IH; [exact Hsz|done|by eapply inv_step|done]).
  Qed.

  Lemma steps_bound ls t : execution line p0 ls t ->
    (length ls + size t <= 5 * length H + 2 + 2 * timeouts ls)%nat.
  Proof.
    induction 1 as [|ls t l t' X IH Hs]; [unfold size, csize, creqs, timeouts; cbn; lia|].
    pose proof (size_step _ _ _ (inv_execution _ _ X) Hs) as Hsz. unfold timeouts in *.
    rewrite app_length, omap_app, app_length. destruct l; simpl; lia.
  Qed.
End inv.

(** * A run that returns ends in no state *)
Definition settled (s : sys) : Prop := default Ignore (last (states (trace s))) = Ignore.
(** [quits]: keeps this; [rests]: brings it about *)
Definition quits {A} (m : M A) : Prop := forall W s a s', m W s = (Done a, s') -> settled s -> settled s'.
Definition rests {A} (m : M A) : Prop := forall W s a s', m W s = (Done a, s') -> settled s'.

Lemma qu_rests {A} (m : M A) : rests m -> quits m.
Proof. intros H W s a s' E _. by eapply H. Qed.
Lemma qu_same {A} (m : M A) : (forall W s a s', m W s = (Done a, s') -> states (trace s') = states (trace s)) -> quits m.
Proof. intros H W s a s' E. unfold settled. by rewrite (H _ _ _ _ E). Qed.
Lemma qu_ret {A} (a : A) : quits (mret a).
Proof. apply qu_same. by intros W s a' s' [= <- <-]. Qed.
Lemma bind_done {A B} (m : M A) (f : A -> M B) W s y s' : (m ≫= f) W s = (Done y, s') ->
  exists x s1, m W s = (Done x, s1) /\ f x W s1 = (Done y, s').
Proof. unfold mbind, M_bind. destruct (m W s) as [[x| |] s1]; [|done..]. eauto. Qed.
Lemma qu_bind {A B} (m : M A) (f : A -> M B) : quits m -> (forall a, quits (f a)) -> quits (m ≫= f).
Proof. intros Hm Hf W s y s' E Hs. apply bind_done in E as (x & s1 & E1 & E2). eapply Hf; [exact E2|]. by eapply Hm. Qed.
Lemma re_bind {A B} (m : M A) (f : A -> M B) : (forall a, rests (f a)) -> rests (m ≫= f).
Proof. intros Hf W s y s' E. apply bind_done in E as (x & s1 & E1 & E2). by eapply Hf. Qed.
Lemma re_bind_l {A B} (m : M A) (f : A -> M B) : rests m -> (forall a, quits (f a)) -> rests (m ≫= f).
Proof. intros Hm Hf W s y s' E. apply bind_done in E as (x & s1 & E1 & E2). eapply Hf; [exact E2|]. by eapply Hm. Qed.
Lemma qu_panic {A} : quits (@panic A).
Proof. by intros W s a s'. Qed.
Lemma qu_gets {A} (f : sys -> A) : quits (gets f).
Proof. apply qu_same. by intros W s a s' [= <- <-]. Qed.
Lemma qu_ask {A} (f : world -> A) : quits (ask f).
Proof. apply qu_same. by intros W s a s' [= <- <-]. Qed.
Lemma qu_rows m : quits (row_order m).
Proof. apply qu_same. by intros W s a s' [= <- <-]. Qed.
Lemma qu_lift {A} (o : out A) : quits (lift o).
Proof. destruct o; [apply qu_ret|apply qu_panic]. Qed.
Lemma qu_unwrapD {A} (r : dres A) : quits (unwrapD r).
Proof. destruct r; [apply qu_ret|apply qu_panic]. Qed.
Lemma qu_exec {A} w (f : conn -> option (A * conn)) : quits (exec w f).
Proof.
  apply qu_same. intros W s a s' E. f_equal. unfold exec in E. destruct (faults W (ticks s)) as [|[]|]; [|inversion E; subst; by rewrite ?trace_put..|done].
  destruct (f _) as [[x c]|]; inversion E; subst; by rewrite ?trace_put.
Qed.
Lemma qu_modify f : (forall s, trace (f s) = trace s) -> quits (modify f).
Proof. intros H. apply qu_same. intros W s a s' [= <- <-]. by rewrite H. Qed.
Lemma qu_flag w b : quits (modify (put_flag w b)).
Proof. apply qu_modify. by destruct w. Qed.
Lemma states_app l1 l2 : states (l1 ++ l2) = states l1 ++ states l2.
Proof. apply omap_app. Qed.
Lemma qu_send e : (match e with TState _ => False | _ => True end) -> quits (send e).
Proof. intros H. apply qu_same. intros W s a s' [= <- <-]. simpl. rewrite states_app. destruct e; simpl; by rewrite ?app_nil_r. Qed.
Lemma qu_status f : quits (put_status f).
Proof. apply qu_same. intros W s a s' [= <- <-]. simpl. rewrite states_app. simpl. by rewrite app_nil_r. Qed.
Lemma re_ignore : rests (set_state Ignore).
Proof.
  intros W s a s' E. unfold set_state in E. apply bind_done in E as (x & s1 & _ & [= <- <-]).
  unfold settled. simpl. rewrite states_app. simpl. by rewrite last_snoc.
Qed.
Lemma qu_fold {A B} (f : A -> B -> M A) l a : (forall a x, quits (f a x)) -> quits (foldM f l a).
Proof. intros H. revert a. induction l; intros b; simpl; [apply qu_ret|]. apply qu_bind; auto. Qed.

Create HintDb quits.
Ltac qu :=
  repeat first
    [ solve [auto with quits nocore]
    | apply qu_ret | apply qu_panic | apply qu_exec | apply qu_status | apply qu_lift
    | apply qu_unwrapD | apply qu_gets | apply qu_ask | apply qu_rows | apply qu_flag
    | apply qu_send; exact Logic.I
    | apply qu_bind; [|intros ?] | apply qu_fold; intros ? ?
    | progress unfold stmt, log, set_total, inc_done, inc_failed, set_show_progress,
        is_in_transaction, exec_write, unwrapM
    | match goal with |- quits (match ?x with _ => _ end) => destruct x end
    | match goal with |- quits (if ?x then _ else _) => destruct x end ].
(** The last action of these ends the state. *)
Ltac re := repeat first [ exact re_ignore | apply re_bind; intros ? ].

Lemma qu_begin w : quits (begin_if_needed w). Proof. unfold begin_if_needed. qu. Qed.
Lemma qu_commit w : quits (commit_if_needed w). Proof. unfold commit_if_needed. qu. Qed.
Global Hint Resolve qu_begin qu_commit : quits.
Lemma qu_get w k : quits (get_block w k). Proof. unfold get_block. qu. Qed.
Lemma qu_set w k d : quits (set_block w k d). Proof. unfold set_block. qu. Qed.
Lemma qu_delete w k : quits (delete_block w k). Proof. unfold delete_block. qu. Qed.
Lemma qu_db_new w v : quits (db_new w v). Proof. unfold db_new. qu. Qed.
Lemma qu_dbvac w : quits (db_vacuum w). Proof. unfold db_vacuum. qu. Qed.
Global Hint Resolve qu_get qu_set qu_delete qu_db_new qu_dbvac : quits.
Lemma qu_query w names a i p : quits (query_keys w names a i p).
Proof.
  apply qu_rests. unfold query_keys. apply re_bind. intros. apply re_bind. intros. apply re_bind. intros.
  apply re_bind_l; [apply re_ignore|]. intros. apply qu_ret.
Qed.
Lemma re_edit l n a i p f : rests (edit_blocks l n a i p f).
Proof.
  unfold edit_blocks. do 3 (apply re_bind; intros). apply re_bind_l; [apply re_ignore|]. intros. apply qu_ret.
Qed.
Lemma qu_edit l n a i p f : quits (edit_blocks l n a i p f).
Proof. apply qu_rests, re_edit. Qed.
Global Hint Resolve qu_query qu_edit : quits.
Lemma qu_cmd E g : quits (cmd_func E g).
Proof.
  unfold cmd_func. destruct (acmd g);
    unfold clone, delete_blocks, delete_metadata, delete_objects, delete_timers,
      fill, replace_nodes, replace_in_inv, overlay, overlay_no_offset,
      overlay_with_offset, set_meta_var, set_param2, vacuum;
    try solve [qu]; try solve [apply qu_rests; re].
  - destruct (bool_decide _); apply qu_rests; re.
  - apply qu_rests. do 4 (apply re_bind; intros ?). apply re_bind_l; [apply re_ignore|]. intros. qu.
Qed.
Global Hint Resolve qu_cmd : quits.
Lemma qu_finish : quits finish. Proof. unfold finish. qu. Qed.
Lemma qu_open w p e1 e2 : quits (open_db w p e1 e2).
Proof. unfold open_db, open_map. qu. Qed.
Global Hint Resolve qu_finish qu_open : quits.
Lemma qu_open_input g : quits (open_input g).
Proof. unfold open_input. qu. by apply qu_modify. Qed.
Global Hint Resolve qu_open_input : quits.
Lemma qu_thread E g : quits (thread_main E g).
Proof. unfold thread_main, compute_thread, run_command, consent, get_confirmation. qu. Qed.

(** * Together *)
Section both.
  Context (E : ext) (g : args) (W : world) (main input : mapdata) (line : list Z) (p : proc)
    (Hp : behaves p E g W main input).
  Lemma not_over x : TStatus x ∈ path p (confirms line) -> over_full x = false.
  Proof.
    rewrite Hp. intros Hx. apply progress_in_range in Hx. unfold over_full.
    destruct (show_progress x); [|done]. simpl. destruct (0 <? blocks_total x); [|done]. simpl. lia.
  Qed.
  Lemma both_inv ls t : execution line p ls t -> tinv line p t.
  Proof. intros X. eapply inv_execution; [exact not_over|exact X]. Qed.

  Lemma messages_in_order ls t : execution line p ls t ->
    sane t /\ printed (outs t) `prefix_of` logged (events E g W main input (confirms line)).
  Proof.
    intros X. pose proof (both_inv _ _ X) as I. split; [by apply i_sane in I|].
    rewrite <- Hp, (i_log _ _ _ I). by eexists.
  Qed.
  Lemma messages_complete ls t : execution line p ls t -> ph t = UEnd ->
    wk t = WOver /\ printed (outs t) = logged (events E g W main input (confirms line)) /\
    prompts (outs t) = requests (events E g W main input (confirms line)).
  Proof.
    intros X Hend. pose proof (both_inv _ _ X) as I. destruct (i_end _ _ _ I Hend) as [Ec Ew].
    rewrite <- Hp, (i_log _ _ _ I), (i_req _ _ _ I), Ec, Ew. simpl. rewrite app_nil_r. cbn. split; [done|].
    split; [done|]. lia.
  Qed.
  Lemma no_deadlock ls t : execution line p ls t -> ended t \/ exists l t', l <> LTick /\ tstep line l t t'.
  Proof.
    intros X. pose proof (both_inv _ _ X) as I.
    assert (ended t \/ ~ ended t) as [?|Hne]; [|by left|right; by eapply can_step].
    unfold ended. destruct (wk t), (ph t); naive_solver.
  Qed.
  Lemma interface_ends ls t : execution line p ls t -> gone (wk t) = true -> inevitably line ended t.
  Proof. intros X. apply (ends_after line p); [exact not_over|]. by eapply both_inv. Qed.
  Lemma bounded ls t : execution line p ls t ->
    (length ls <= 5 * length (events E g W main input (confirms line)) + 2 + 2 * timeouts ls)%nat.
  Proof. intros X. pose proof (steps_bound line p not_over _ _ X) as Hb. rewrite Hp in Hb. lia. Qed.
  Lemma output_tidy ls t : execution line p ls t -> tidy (outs t) /\ (nl t = false -> fresh (outs t)).
  Proof. intros X. pose proof (both_inv _ _ X) as I. split; [by apply i_tidy in I|exact (i_fresh _ _ _ I)]. Qed.
  Lemma output_ends ls t s : execution line p ls t -> ph t = UEnd ->
    thread_main E g (replying (confirms line) W) (start main input) = (Done tt, s) -> fresh (outs t).
  Proof.
    intros X Hend Hrun. pose proof (both_inv _ _ X) as I.
    destruct (inv2_execution line p not_over _ _ X) as [(seen & Hs & Hc) Hq].
    destruct (i_end _ _ _ I Hend) as [Ec Ew]. apply (i_fresh _ _ _ I). apply Hq; [by rewrite Hend|].
    rewrite Ec, Ew in Hs. simpl in Hs. rewrite app_nil_r in Hs. rewrite Hc, <- Hs, Hp. unfold events.
    rewrite Hrun. apply (qu_thread _ _ _ _ _ _ Hrun). done.
  Qed.
End both.
