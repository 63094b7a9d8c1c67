(** The progress displays of a run *)
From Verif Require Import Sys SysProofs Instance Ui FaultProofs ProgressProofs UiProofs ShowTrace.
From Verif Require Import SpecShow.

(** * What the interface has seen *)
Section view.
  Context (line : list Z) (p0 : proc).
  Notation b := (confirms line).
  Notation H := (path p0 b).
  Context (Hfull : forall x, TStatus x ∈ H -> over_full x = false).

  Definition state_of (l : list tev) : inst_state := default Ignore (last (states l)).
  (** The events that are sent *)
  Definition sent (l : list tev) : list server_event :=
    omap (fun e => match e with TLog lt m => Some (SLog lt m) | TState st => Some (SState st) | TConfirm => Some SConfirm | TStatus _ => None end) l.

  (** A display: events received at that time, events that have happened, and what is shown *)
  Record view := View { got : list tev; past : list tev; disp : outp }.
  Definition kind (o : outp) (st : inst_state) : Prop :=
    match o, st with OQuery _, Querying | OEdit _ _ _, Editing => True | _, _ => False end.
  (** [st] is the state at [r], or has just ended. *)
  Definition during (st : inst_state) (r : list tev) : Prop :=
    state_of r = st \/ exists r0, r = r0 ++ [TState Ignore] /\ state_of r0 = st.
  Definition fair_view (v : view) : Prop :=
    got v `prefix_of` past v /\ past v `prefix_of` H /\
    match disp v with
    | OQuery n => n = blocks_total (stat_of (past v)) /\ during Querying (got v)
    | OEdit d n sp => d = blocks_done (stat_of (past v)) /\ n = blocks_total (stat_of (past v)) /\
        sp = show_progress (stat_of (past v)) /\ during Editing (got v)
    | _ => False
    end.
  Definition later (v w : view) : Prop := got v `prefix_of` got w /\ past v `prefix_of` past w.

  Definition due (t : threads) (r r0 : list tev) (st : inst_state) : Prop :=
    (r0 ++ [TState st]) `prefix_of` r /\ forced_by (state_of r0) st <> Ignore /\
    (r = r0 ++ [TState st] -> forall f, ph t = UUpdate f -> f = Ignore).

  Record seen (t : threads) (r m : list tev) (vs : list view) : Prop := {
    s_all : H = r ++ m ++ rest line (wk t);
    s_chan : sent m = chan t;
    s_cur : cur t = state_of r;
    s_stat : stat t = stat_of (r ++ m);
    s_force : forall f, ph t = UUpdate f -> f = Ignore \/ exists r0 st, r = r0 ++ [TState st] /\ f = forced_by (state_of r0) st;
    s_disp : displays (outs t) = disp <$> vs;
    s_fair : Forall fair_view vs;
    s_order : StronglySorted later vs;
    s_bound : Forall (fun v => got v `prefix_of` r /\ past v `prefix_of` r ++ m) vs;
    s_due : forall r0 st, due t r r0 st ->
      exists v, v ∈ vs /\ got v = r0 ++ [TState st] /\ kind (disp v) (forced_by (state_of r0) st) }.

  Lemma displays_app o1 o2 : displays (o1 ++ o2) = displays o1 ++ displays o2.
  Proof. apply omap_app. Qed.
  Lemma displays_newline n : displays (newline_if n) = [].
  Proof. by destruct n. Qed.
  Lemma sent_app l1 l2 : sent (l1 ++ l2) = sent l1 ++ sent l2.
  Proof. apply omap_app. Qed.
  Lemma state_snoc l e : state_of (l ++ [e]) = match e with TState st => st | _ => state_of l end.
  Proof. unfold state_of. rewrite states_snoc. destruct e; rewrite ?app_nil_r, ?last_snoc; done. Qed.

  (** The event at the head of the channel *)
  Lemma sent_cons m e c : sent m = e :: c -> exists m1 x m2, m = m1 ++ x :: m2 /\ sent m1 = [] /\ sent [x] = [e] /\ sent m2 = c.
  Proof.
    induction m as [|x m IH]; [done|]. intros Hm. destruct x as [lt msg|st| |x]; cbn in Hm.
    1-3: simplify_eq; by eexists [], _, m.
    destruct (IH Hm) as (m1 & y & m2 & -> & E1 & E2 & E3). by exists (TStatus x :: m1), y, m2.
  Qed.
  Lemma quiet_state l : sent l = [] -> states l = [].
  Proof. induction l as [|[] l IH]; cbn; try done. Qed.

  Lemma prefix_app_inv {A} (l r m : list A) : l `prefix_of` r -> l `prefix_of` r ++ m.
  Proof. intros [k ->]. exists (k ++ m). by rewrite app_assoc. Qed.

  Lemma seen_launch : seen (launch p0) [] [] [].
  Proof.
    constructor; try done; try constructor.
    intros r0 st [Hr _]. destruct Hr as [k Hk]. by destruct r0.
  Qed.

  (** Steps that change nothing that is seen *)
  Lemma seen_same t t' r m vs m' : seen t r m vs -> H = r ++ (m ++ m') ++ rest line (wk t') -> sent (m ++ m') = chan t' ->
    cur t' = cur t -> stat t' = stat_of (r ++ m ++ m') -> displays (outs t') = displays (outs t) ->
    (forall f, ph t' = UUpdate f -> f = Ignore \/ ph t = UUpdate f) ->
    (forall f, ph t = UUpdate f -> f = Ignore \/ ph t' = UUpdate f) -> seen t' r (m ++ m') vs.
  Proof.
    intros [Ha Hc Hcu Hst Hf Hd Hfv Ho Hb Hdue] Ha' Hc' Hcu' Hst' Hd' Hp Hp'. constructor; try done.
    - congruence.
    - intros f Ef. destruct (Hp f Ef) as [->|E2]; [by left|]. by apply Hf.
    - congruence.
    - eapply Forall_impl; [exact Hb|]. intros v [H1 H2]. split; [done|]. rewrite app_assoc. by apply prefix_app_inv.
    - intros r0 st (H1 & H2 & H3). apply Hdue. split; [done|]. split; [done|]. intros Er f Ef.
      destruct (Hp' f Ef) as [->|E2]; [done|]. by apply (H3 Er).
  Qed.

  Lemma seen_recv t r m vs e m1 x m2 c : seen t r m vs -> ph t = URecv -> m = m1 ++ x :: m2 -> sent m1 = [] -> sent [x] = [e] -> sent m2 = c ->
    seen (receive e (Threads (wk t) c (reply t) (stat t) (ph t) (cur t) (nl t) (outs t))) (r ++ m1 ++ [x]) m2 vs.
  Proof.
    intros [Ha Hc Hcu Hst Hf Hd Hfv Ho Hb Hdue] Hph -> E1 Ex E2.
    assert ((r ++ m1 ++ [x]) ++ m2 = r ++ m1 ++ x :: m2) as Eapp by (by rewrite <- !app_assoc).
    assert (state_of (r ++ m1) = state_of r) as Est by (unfold state_of; by rewrite states_app, (quiet_state m1), app_nil_r).
    assert (forall t', wk t' = wk t -> chan t' = c -> cur t' = state_of (r ++ m1 ++ [x]) -> stat t' = stat t ->
      displays (outs t') = displays (outs t) ->
      (forall f, ph t' = UUpdate f -> f = match x with TState st => forced_by (state_of (r ++ m1)) st | _ => Ignore end) ->
      (forall st, x = TState st -> exists f, ph t' = UUpdate f) -> seen t' (r ++ m1 ++ [x]) m2 vs) as K.
    { intros t' Ew Ec Ecu Es Ed Ep Eu. constructor; try done.
      - rewrite Ha, Ew. by rewrite <- !app_assoc.
      - by rewrite Ec.
      - by rewrite Es, Eapp.
      - intros f Ef. rewrite (Ep f Ef). destruct x; auto. right. exists (r ++ m1), st. by rewrite <- app_assoc.
      - congruence.
      - eapply Forall_impl; [exact Hb|]. intros v [H1 H2]. split; [by apply prefix_app_inv|by rewrite Eapp].
      - intros r0 st (H1 & H2 & H3).
        assert ((r0 ++ [TState st]) `prefix_of` r) as Hpre.
        { rewrite app_assoc in H1. apply prefix_snoc in H1 as [Heq|H1].
          - pose proof (app_inj_tail _ _ _ _ Heq) as [-> <-]. destruct (Eu st eq_refl) as [f Ef].
            pose proof (H3 ltac:(by rewrite <- app_assoc) f Ef) as Hig. pose proof (Ep f Ef) as Hff. congruence.
          - destruct H1 as [k Hk]. clear -Hk E1. revert k Hk. induction m1 as [|y m1 IH] using rev_ind; intros k Hk.
            + rewrite app_nil_r in Hk. by exists k.
            + destruct k as [|z k _] using rev_ind.
              * rewrite app_nil_r, app_assoc in Hk. apply app_inj_tail in Hk as [_ ->]. rewrite sent_app in E1. by apply app_eq_nil in E1 as [_ ?].
              * rewrite !app_assoc in Hk. apply app_inj_tail in Hk as [Hk _]. rewrite sent_app in E1. apply app_eq_nil in E1 as [E1 _].
                apply (IH E1 k). by rewrite Hk. }
        apply Hdue. split; [done|]. split; [done|]. intros _ f Ef. congruence. }
    destruct x as [lt msg|st| |x]; cbn in Ex; simplify_eq; cbn [receive].
    - apply K; cbn; try done.
      + rewrite app_assoc, state_snoc. congruence.
      + by rewrite !displays_app, displays_newline, app_nil_r.
      + by intros f [= <-].
    - apply K; cbn; try done.
      + by rewrite app_assoc, state_snoc.
      + intros f [= <-]. by rewrite Est, Hcu.
      + intros st' _. eauto.
    - apply K; cbn; try done.
      + rewrite app_assoc, state_snoc. congruence.
      + by rewrite !displays_app, displays_newline, app_nil_r.
  Qed.

  Lemma forced_cases cur new : forced_by cur new = Ignore \/
    (cur = Ignore /\ forced_by cur new = new) \/ (new = Ignore /\ forced_by cur new = cur).
  Proof. destruct cur, new; cbn; auto. Qed.

  Lemma seen_update t r m vs f rdy : tinv line p0 t -> seen t r m vs -> ph t = UUpdate f -> exists vs', seen (update f rdy t) r m vs'.
  Proof.
    intros I [Ha Hc Hcu Hst Hf Hd Hfv Ho Hb Hdue] Hph. pose proof (i_stat _ _ _ I) as Hof.
    assert (r ++ m `prefix_of` H) as Hpast by (rewrite Ha, app_assoc; by eexists).
    assert (forall t' o, wk t' = wk t -> chan t' = chan t -> cur t' = cur t -> stat t' = stat t -> ph t' = URecv ->
      displays (outs t') = displays (outs t) ++ o2l o ->
      (forall d, o = Some d -> fair_view (View r (r ++ m) d)) ->
      (f <> Ignore -> exists d, o = Some d /\ kind d f) -> seen t' r m (vs ++ o2l (View r (r ++ m) <$> o))) as K.
    { intros t' o Ew Ec Ecu Es Ep Ed Hv Hk. constructor.
      - by rewrite Ew.
      - by rewrite Ec.
      - by rewrite Ecu.
      - by rewrite Es.
      - by rewrite Ep.
      - rewrite Ed, Hd, fmap_app. f_equal. by destruct o.
      - apply Forall_app. split; [done|]. destruct o as [d|]; [|constructor]. constructor; [by apply Hv|constructor].
      - destruct o as [d|]; cbn; [|by rewrite app_nil_r]. clear -Ho Hb.
        induction Ho as [|v l Hl IH Hfa]; cbn; [repeat constructor|]. apply Forall_cons in Hb as [Hv Hb].
        constructor; [by apply IH|]. apply Forall_app. split; [done|]. repeat constructor; apply Hv.
      - apply Forall_app. split; [done|]. destruct o; repeat constructor; done.
      - intros r0 st (H1 & H2 & _). assert (f = Ignore \/ f <> Ignore) as [->|Hne] by (destruct f; auto).
        + destruct (Hdue r0 st) as (v & Hin & ? & ?).
          { split; [done|]. split; [done|]. intros _ f'. rewrite Hph. by intros [= <-]. }
          exists v. split; [apply elem_of_app; by left|done].
        + assert (r0 ++ [TState st] = r \/ r <> r0 ++ [TState st]) as [<-|Hr].
          { destruct H1 as [[|y k] ->]; [left; by rewrite app_nil_r|]. right. intros E. apply (f_equal length) in E. rewrite !app_length in E. cbn in E. lia. }
          { destruct (Hk Hne) as (d & -> & Hkd). exists (View (r0 ++ [TState st]) ((r0 ++ [TState st]) ++ m) d).
            split; [apply elem_of_app; right; by left|]. split; [done|]. cbn.
            destruct (Hf f Hph) as [->|(r1 & st1 & E1 & ->)]; [done|]. by apply app_inj_tail in E1 as [<- [= <-]]. }
          destruct (Hdue r0 st) as (v & Hin & ? & ?).
            { split; [done|]. split; [done|]. intros E. by destruct Hr. }
            exists v. split; [apply elem_of_app; by left|done]. }
    assert (forall st, f = st -> st <> Ignore -> during st r) as Hforce.
    { intros st -> Hne. destruct (Hf st Hph) as [->|(r0 & st' & -> & Ef)]; [done|]. 
      destruct (forced_cases (state_of r0) st') as [E|[[E1 E2]|[E1 E2]]]; [congruence|..].
      - left. rewrite state_snoc. congruence.
      - right. exists r0. split; congruence. }
    assert (f <> Ignore -> cur t = f \/ cur t = Ignore) as Hcf.
    { intros Hne. rewrite Hcu. destruct (Hf f Hph) as [->|(r0 & st' & -> & ->)]; [done|]. rewrite state_snoc.
      destruct (forced_cases (state_of r0) st') as [E|[[E1 E2]|[E1 E2]]]; [done|..]; [left; congruence|by right]. }
    unfold update. rewrite Hof.
    destruct (is_querying f || (is_querying (cur t) && rdy)) eqn:Eq; [|destruct (is_editing f || (is_editing (cur t) && rdy)) eqn:Ee].
    - eexists. apply (K _ (Some (OQuery (blocks_total (stat t))))); try (destruct (is_ignore (cur t)); done).
      + destruct (is_ignore (cur t)); cbn; by rewrite !displays_app.
      + intros d [= <-]. split; [by eexists|]. split; [done|]. cbn. split; [by rewrite Hst|].
        apply orb_true_iff in Eq as [Eq|Eq]; [apply Hforce; [by destruct f|done]|].
        apply andb_true_iff in Eq as [Eq _]. left. rewrite <- Hcu. by destruct (cur t).
      + intros Hne. eexists. split; [done|]. destruct (Hcf Hne) as [E|E]; rewrite E in Eq; destruct f; cbn in *; done.
    - eexists. apply (K _ (Some (OEdit (blocks_done (stat t)) (blocks_total (stat t)) (show_progress (stat t))))); try (destruct (is_ignore (cur t)); done).
      + destruct (is_ignore (cur t)); cbn; by rewrite !displays_app.
      + intros d [= <-]. split; [by eexists|]. split; [done|]. cbn. rewrite <- Hst. do 3 (split; [done|]).
        apply orb_true_iff in Ee as [Ee|Ee]; [apply Hforce; [by destruct f|done]|].
        apply andb_true_iff in Ee as [Ee _]. left. rewrite <- Hcu. by destruct (cur t).
      + intros Hne. eexists. split; [done|]. destruct f; cbn in *; done.
    - eexists. apply (K _ None); try (destruct (is_ignore (cur t)); done).
      + destruct (is_ignore (cur t)); cbn; by rewrite !displays_app, ?displays_newline.
      + intros Hne. destruct f; cbn in *; done.
  Qed.

  Lemma seen_step l t t' r m vs : tinv line p0 t -> seen t r m vs -> tstep line l t t' -> exists r' m' vs', seen t' r' m' vs'.
  Proof.
    intros I S Hstep. pose proof S as [Ha Hc Hcu Hst Hf Hd Hfv Ho Hb Hdue]. destruct (i_sane _ _ _ I) as [Hs1 Hs2].
    pose proof (i_hand _ _ _ I) as Hh. unfold handshake in Hh.
    assert (forall t' m', wk t' = wk t' -> H = r ++ (m ++ m') ++ rest line (wk t') -> sent (m ++ m') = chan t' -> cur t' = cur t ->
      stat t' = stat_of (r ++ m ++ m') -> outs t' = outs t -> ph t' = ph t -> exists r' m' vs', seen t' r' m' vs') as K.
    { intros u m' _ E1 E2 E3 E4 E5 E6. exists r, (m ++ m'), vs. apply (seen_same t u); try done.
      - by rewrite E5.
      - intros f. rewrite E6. auto.
      - intros f. rewrite E6. auto. }
    destruct Hstep as [t lt msg p Ew Ep|t lt msg p Ew Ep|t s p Ew Ep|t s p Ew Ep|t x p Ew|t k Ew Ep|t k Ew Ep|t k b0 rp Ew Er|t k Ew Er Ep|t Ew
      |t e c Ep Ec|t Ep Ec Eg|t Ep Ec Eg|t Ep Eg|t Ep Eg|t f ready Ep]; try congruence; rewrite ?Ew in *.
    - apply (K _ [TLog lt msg]); try done; cbn.
      + rewrite Ha. cbn. by rewrite <- app_assoc.
      + by rewrite sent_app, Hc.
      + by rewrite app_assoc, stat_app.
    - apply (K _ [TState s]); try done; cbn.
      + rewrite Ha. cbn. by rewrite <- app_assoc.
      + by rewrite sent_app, Hc.
      + by rewrite app_assoc, stat_app.
    - apply (K _ [TStatus x]); try done; cbn.
      + rewrite Ha. cbn. by rewrite <- app_assoc.
      + rewrite sent_app, Hc. apply app_nil_r.
      + by rewrite app_assoc, stat_app.
    - apply (K _ [TConfirm]); try done; cbn.
      + rewrite Ha. cbn. by rewrite <- app_assoc.
      + by rewrite sent_app, Hc.
      + by rewrite app_assoc, stat_app.
    - assert (b0 = b) as -> by (destruct Hh as [(pre & ? & ? & ? & ?)|[(? & ? & ?)|(? & ? & ?)]]; congruence).
      apply (K _ []); rewrite ?app_nil_r; done.
    - apply (K _ []); cbn in *; rewrite ?app_nil_r in *; done.
    - destruct (sent_cons m e c) as (m1 & x & m2 & -> & E1 & E2 & E3); [congruence|].
      eexists _, _, _. by eapply seen_recv.
    - exists r, (m ++ []), vs. apply (seen_same t); try done; cbn; rewrite ?app_nil_r; try done.
      + intros f [= <-]. by left.
      + rewrite Ep. done.
    - exists r, (m ++ []), vs. apply (seen_same t); try done; cbn; rewrite ?app_nil_r; try done. rewrite Ep. done.
    - exists r, (m ++ []), vs. apply (seen_same t); try done; cbn; rewrite ?app_nil_r; try done.
      + intros f [= <-]. by left.
      + rewrite Ep. done.
    - destruct (wk t); try done; by destruct Hh as (_ & _ & ?).
    - destruct (seen_update t r m vs f ready I S Ep) as [vs' ?]. by exists r, m, vs'.
  Qed.
  Lemma seen_execution ls t : execution line p0 ls t -> exists r m vs, seen t r m vs.
  Proof.
    induction 1 as [|ls t l t' X IH Hs]; [eexists _, _, _; apply seen_launch|].
    destruct IH as (r & m & vs & S). eapply seen_step; [|exact S|exact Hs]. by eapply inv_execution.
  Qed.
End view.

(** * Lists *)
Lemma sorted_fmap {A} (R : A -> A -> Prop) (P : A -> Prop) (f : A -> Z) l : (forall x y, R x y -> P y -> f x <= f y) ->
  StronglySorted R l -> Forall P l -> StronglySorted Z.le (f <$> l).
Proof.
  intros Hf. induction 1 as [|x l Hl IH Hx]; cbn; [constructor|]. intros [HP HPl]%Forall_cons. constructor; [by apply IH|].
  apply Forall_fmap. apply Forall_forall. intros y Hy. rewrite Forall_forall in Hx, HPl. apply Hf; [by apply Hx|by apply HPl].
Qed.
Lemma sorted_last l n : StronglySorted Z.le l -> n ∈ l -> Forall (fun x => x <= n) l -> last l = Some n.
Proof.
  intros Hs Hn Hle. destruct l as [|m l' _] using rev_ind; [by apply elem_of_nil in Hn|]. rewrite last_snoc. f_equal.
  apply Forall_app in Hle as [_ Hm]. apply Forall_cons in Hm as [Hm _].
  apply elem_of_app in Hn as [Hn|Hn]; [|apply elem_of_list_singleton in Hn; by subst].
  pose proof (elem_of_StronglySorted_app _ _ _ n m Hs Hn ltac:(by left)). lia.
Qed.
Lemma two_length {A} (l : list A) x y : x ∈ l -> y ∈ l -> x <> y -> (2 <= length l)%nat.
Proof.
  intros Hx Hy Hne. destruct l as [|a [|b l]]; cbn; [by apply elem_of_nil in Hx| |lia].
  apply elem_of_list_singleton in Hx, Hy. congruence.
Qed.
Lemma states_split l pre st suf : states l = pre ++ st :: suf ->
  exists r0 r1, l = r0 ++ TState st :: r1 /\ states r0 = pre /\ states r1 = suf.
Proof.
  revert pre. induction l as [|e l IH]; intros pre E; [by destruct pre|].
  destruct e as [lt m|st'| |x]; cbn in E.
  2: { destruct pre as [|st0 pre]; simplify_eq/=; [by exists [], l|]. destruct (IH pre H0) as (r0 & r1 & -> & <- & E1).
       by exists (TState st0 :: r0), r1. }
  all: destruct (IH pre E) as (r0 & r1 & -> & <- & E1); eexists (_ :: r0), r1; done.
Qed.
Lemma split_by {A} (R : A -> A -> Prop) (P : A -> Prop) `{forall x, Decision (P x)} l :
  (forall x y, R x y -> P y -> P x) -> StronglySorted R l ->
  exists q e, l = q ++ e /\ Forall P q /\ Forall (fun x => ~ P x) e.
Proof.
  intros HP. induction 1 as [|x l Hl (q & e & -> & Hq & He) Hx]; [by exists [], []|].
  destruct (decide (P x)) as [Hp|Hp]; [exists (x :: q), e; by repeat constructor|].
  exists [], (x :: q ++ e). split; [done|]. split; [done|]. constructor; [done|].
  apply Forall_forall. intros y Hy Hpy. rewrite Forall_forall in Hx. by apply Hp, (HP x y), Hpy; apply Hx.
Qed.
Lemma states_prefix l1 l2 : l1 `prefix_of` l2 -> states l1 `prefix_of` states l2.
Proof. intros [k ->]. rewrite states_app. by eexists. Qed.

(** * Whole runs *)
Section runs.
  Context (line : list Z) (p0 : proc).
  Notation H := (path p0 (confirms line)).
  Context (t : threads) (r m : list tev) (vs : list view) (S : seen line p0 t r m vs).
  Context (Hph : ph t = UEnd) (Hw : wk t = WOver) (Hc : chan t = []).

  Lemma all_states : states r = states H.
  Proof.
    assert (sent m = []) as Hq by (by rewrite (s_chan _ _ _ _ _ _ S)).
    rewrite (s_all _ _ _ _ _ _ S), Hw. cbn [rest]. by rewrite app_nil_r, states_app, (quiet_state m Hq), app_nil_r.
  Qed.
  Lemma all_due pre st suf : states H = pre ++ st :: suf -> forced_by (default Ignore (last pre)) st <> Ignore ->
    exists v, v ∈ vs /\ states (got v) = pre ++ [st] /\ kind (disp v) (forced_by (default Ignore (last pre)) st).
  Proof.
    rewrite <- all_states. intros E Hne. destruct (states_split r _ _ _ E) as (r0 & r1 & Er & E0 & _).
    destruct (s_due _ _ _ _ _ _ S r0 st) as (v & Hv & Hg & Hk).
    - split; [rewrite Er; exists r1; by rewrite <- app_assoc|]. unfold state_of. rewrite E0. split; [done|].
      intros _ f. by rewrite Hph.
    - exists v. split; [done|]. unfold state_of in Hk. rewrite E0 in Hk. split; [|done].
      by rewrite Hg, states_snoc, E0.
  Qed.

  Lemma no_displays : states H = [] -> displays (outs t) = [].
  Proof.
    intros E. rewrite (s_disp _ _ _ _ _ _ S). destruct vs as [|v vs']; [done|]. exfalso.
    pose proof (s_fair _ _ _ _ _ _ S) as [(Hg & Hp & Hd) _]%Forall_cons.
    assert (states (got v) = []) as Eg.
    { assert (states (got v) `prefix_of` []) as Hx by (rewrite <- E; apply states_prefix; by etrans). by apply prefix_nil_inv in Hx. }
    assert (forall st, during st (got v) -> st = Ignore) as K.
    { intros st [Hs|(r0 & Hr & Hs)]; [unfold state_of in Hs; by rewrite Eg in Hs|]. rewrite Hr, states_snoc in Eg.
      by apply app_eq_nil in Eg as [_ ?]. }
    destruct (disp v); try done.
    - destruct Hd as (_ & Hd). by apply K in Hd.
    - destruct Hd as (_ & _ & _ & Hd). by apply K in Hd.
  Qed.

  (** A state that is seen is the last, or the one before. *)
  Lemma during_states st v l : states H = l -> fair_view line p0 v -> during st (got v) -> st <> Ignore ->
    exists pre suf, l = pre ++ st :: suf /\ (states (got v) = pre ++ [st] \/ states (got v) = pre ++ [st; Ignore]).
  Proof.
    intros <- (Hg & Hp & _) Hd Hne. assert (states (got v) `prefix_of` states H) as [suf Hsuf] by (apply states_prefix; by etrans).
    assert (forall l, state_of l = st -> exists pre, states l = pre ++ [st]) as K.
    { intros l E. unfold state_of in E. destruct (states l) as [|x l' _] using rev_ind; [by destruct Hne|].
      rewrite last_snoc in E. cbn in E. subst. by exists l'. }
    destruct Hd as [Hs|(r0 & Hr & Hs)].
    - destruct (K _ Hs) as [pre Epre]. exists pre, suf. rewrite Hsuf, Epre, <- app_assoc. auto.
    - destruct (K _ Hs) as [pre Epre]. exists pre, (Ignore :: suf). rewrite Hsuf, Hr, states_snoc, Epre, <- !app_assoc. auto.
  Qed.

  Lemma shows_all n d : states H = [Querying; Ignore; Editing; Ignore] -> told true n d H -> shows n d (outs t).
  Proof.
    intros E [Tm Ts Tt Td]. unfold shows. rewrite (s_disp _ _ _ _ _ _ S).
    pose proof (s_fair _ _ _ _ _ _ S) as Hfair. pose proof (s_order _ _ _ _ _ _ S) as Hord.
    destruct (split_by later (fun v => (length (states (got v)) <= 2)%nat) vs) as (q & e & Evs & Hq & He).
    { intros x y [[k Hg] _] Hy. rewrite Hg, states_app, app_length in Hy. lia. }
    { exact Hord. }
    (* each display *)
    assert (forall v, fair_view line p0 v -> (length (states (got v)) <= 2)%nat /\ disp v = OQuery (blocks_total (stat_of (past v))) /\
        (states (got v) = [Querying] \/ states (got v) = [Querying; Ignore]) \/
      disp v = OEdit (blocks_done (stat_of (past v))) n true /\
        (states (got v) = [Querying; Ignore; Editing] \/ states (got v) = [Querying; Ignore; Editing; Ignore])) as Kinds.
    { intros v Hv. pose proof Hv as (Hg & Hp & Hd). destruct (disp v) as [| |x|x y sp|]; try done.
      - destruct Hd as [-> Hd]. left. destruct (during_states _ v _ E Hv Hd) as (pre & suf & El & Hs); [done|].
        assert (pre = []) as -> by (destruct pre as [|? [|? [|? [|? pre]]]]; simplify_eq/=; try done; by destruct pre).
        cbn in Hs. split; [destruct Hs as [-> | ->]; cbn; lia|]. split; done.
      - destruct Hd as (-> & -> & -> & Hd). right. destruct (during_states _ v _ E Hv Hd) as (pre & suf & El & Hs); [done|].
        assert (pre = [Querying; Ignore]) as -> by (destruct pre as [|? [|? [|? [|? pre]]]]; simplify_eq/=; try done; by destruct pre).
        cbn in Hs. split; [|done]. f_equal; [apply Tt; [done|]|apply Ts; [done|]];
        pose proof (states_prefix _ _ Hg) as [k Hk]; rewrite Hk, app_length; destruct Hs as [-> | ->]; cbn; lia. }
    assert (Forall (fair_view line p0) q /\ Forall (fair_view line p0) e) as [Hfq Hfe] by (rewrite Evs in Hfair; by apply Forall_app in Hfair).
    assert (StronglySorted later q /\ StronglySorted later e) as [Hoq Hoe].
    { rewrite Evs in Hord. split; [by eapply StronglySorted_app_inv_l|by eapply StronglySorted_app_inv_r]. }
    exists ((fun v => blocks_total (stat_of (past v))) <$> q), ((fun v => blocks_done (stat_of (past v))) <$> e).
    assert (forall x y, later x y -> fair_view line p0 y -> sle (stat_of (past x)) (stat_of (past y))) as Hmono.
    { intros x y [_ Hxy] (_ & Hp & _). by apply Tm. }
    assert (forall v, fair_view line p0 v -> sle (stat_of (past v)) (stat_of H)) as Hmax.
    { intros v (_ & Hp & _). by apply Tm. }
    assert (blocks_total (stat_of H) = n) as Hn by (apply Tt; [done|]; rewrite E; cbn; lia).
    assert (blocks_done (stat_of H) = d) as Hdn by (apply Td; [done|]; rewrite E; cbn; lia).
    assert (StronglySorted Z.le ((fun v => blocks_total (stat_of (past v))) <$> q)) as Hsq.
    { eapply sorted_fmap; [|exact Hoq|exact Hfq]. intros x y Hxy Hy. by apply (Hmono x y). }
    assert (StronglySorted Z.le ((fun v => blocks_done (stat_of (past v))) <$> e)) as Hse.
    { eapply sorted_fmap; [|exact Hoe|exact Hfe]. intros x y Hxy Hy. by apply (Hmono x y). }
    destruct (all_due [] Querying _ E) as (v1 & Hv1 & Es1 & _); [done|].
    destruct (all_due [Querying] Ignore _ E) as (v2 & Hv2 & Es2 & _); [done|].
    destruct (all_due [Querying; Ignore] Editing _ E) as (v3 & Hv3 & Es3 & _); [done|].
    destruct (all_due [Querying; Ignore; Editing] Ignore _ E) as (v4 & Hv4 & Es4 & _); [done|]. cbn in Es1, Es2, Es3, Es4.
    assert (forall v, v ∈ vs -> (length (states (got v)) <= 2)%nat -> v ∈ q) as Inq.
    { intros v Hv Hl. rewrite Evs in Hv. apply elem_of_app in Hv as [?|Hv]; [done|]. rewrite Forall_forall in He. by apply He in Hv. }
    assert (forall v, v ∈ vs -> ~ (length (states (got v)) <= 2)%nat -> v ∈ e) as Ine.
    { intros v Hv Hl. rewrite Evs in Hv. apply elem_of_app in Hv as [Hv|?]; [|done]. rewrite Forall_forall in Hq. by apply Hq in Hv. }
    apply Inq in Hv1; [|rewrite Es1; cbn; lia]. apply Inq in Hv2; [|rewrite Es2; cbn; lia].
    apply Ine in Hv3; [|rewrite Es3; cbn; lia]. apply Ine in Hv4; [|rewrite Es4; cbn; lia].
    split; [|split; [by apply StronglySorted_Sorted|split; [by apply StronglySorted_Sorted|]]].
    { rewrite Evs, fmap_app, <- !list_fmap_compose. f_equal.
      - apply Forall_fmap_ext_1. apply Forall_forall. intros v Hv. rewrite Forall_forall in Hfq, Hq.
        destruct (Kinds v (Hfq v Hv)) as [(_ & -> & _)|(_ & Hs)]; [done|]. specialize (Hq v Hv). destruct Hs as [Hs|Hs]; rewrite Hs in Hq; cbn in Hq; lia.
      - apply Forall_fmap_ext_1. apply Forall_forall. intros v Hv. rewrite Forall_forall in Hfe, He.
        destruct (Kinds v (Hfe v Hv)) as [(Hl & _)|(-> & _)]; [|done]. by apply He in Hv. }
    split; [|split; [|split]].
    - apply sorted_last; [done| |].
      + apply elem_of_list_fmap. exists v2. split; [|done]. symmetry. rewrite Forall_forall in Hfq. destruct (Hfq v2 Hv2) as (Hg & Hp & _).
        apply Tt; [done|]. pose proof (states_prefix _ _ Hg) as [k Hk]. rewrite Hk, Es2, app_length. cbn. lia.
      + apply Forall_fmap. eapply Forall_impl; [exact Hfq|]. intros v Hv. cbn. rewrite <- Hn. by apply Hmax.
    - apply sorted_last; [done| |].
      + apply elem_of_list_fmap. exists v4. split; [|done]. symmetry. rewrite Forall_forall in Hfe. destruct (Hfe v4 Hv4) as (Hg & Hp & _).
        apply Td; [done|]. pose proof (states_prefix _ _ Hg) as [k Hk]. rewrite Hk, Es4, app_length. cbn. lia.
      + apply Forall_fmap. eapply Forall_impl; [exact Hfe|]. intros v Hv. cbn. rewrite <- Hdn. by apply Hmax.
    - rewrite fmap_length. apply (two_length q v1 v2); [done..|]. intros ->. congruence.
    - rewrite fmap_length. apply (two_length e v3 v4); [done..|]. intros ->. congruence.
  Qed.

  Lemma shows_vacuum : states H = [Editing; Ignore] -> told false 0 0 H -> blocks_total (stat_of H) = 0 ->
    blocks_done (stat_of H) = 0 -> shows_time (outs t).
  Proof.
    intros E [Tm Ts Tt Td] H1 H2. exists (length vs). rewrite (s_disp _ _ _ _ _ _ S).
    pose proof (s_fair _ _ _ _ _ _ S) as Hfair.
    destruct (all_due [] Editing _ E) as (v1 & Hv1 & Es1 & _); [done|].
    destruct (all_due [Editing] Ignore _ E) as (v2 & Hv2 & Es2 & _); [done|].
    split; [apply (two_length vs v1 v2); [done..|]; intros ->; rewrite Es1 in Es2; done|].
    assert (Forall (fun v => disp v = OEdit 0 0 false) vs) as Hall.
    { eapply Forall_impl; [exact Hfair|]. intros v Hv. pose proof Hv as (Hg & Hp & Hd).
      destruct (Tm [] (past v)) as [Ha Hb]; [apply prefix_nil|done|]. destruct (Tm (past v) H) as [Hc' Hd']; [done..|].
      cbn in Ha, Hb. destruct (disp v) as [| |x|x y sp|]; try done.
      - destruct Hd as [_ Hd]. destruct (during_states _ v _ E Hv Hd) as (pre & suf & El & Hs); [done|].
        exfalso. destruct pre as [|? [|? pre]]; simplify_eq/=; by destruct pre.
      - destruct Hd as (-> & -> & -> & Hd). destruct (during_states _ v _ E Hv Hd) as (pre & suf & El & Hs); [done|].
        f_equal; [lia|lia|]. apply Ts; [done|]. pose proof (states_prefix _ _ Hg) as [k Hk]. rewrite Hk, app_length.
        destruct Hs as [-> | ->]; rewrite app_length; cbn; lia. }
    clear -Hall. induction Hall as [|v l Hv Hl IH]; cbn; [done|]. by rewrite Hv, <- IH.
  Qed.
End runs.

Lemma skipped_marks l : skipped_of (marks l) = skips (logged l).
Proof.
  unfold skipped_of, skips, marks. do 2 f_equal. induction (logged l) as [|[lt x] k IH]; [done|].
  cbn. destruct x; cbn; try (exact IH). f_equal. exact IH.
Qed.

Lemma displays_run E g W main input line p ls t s : behaves p E g W main input -> finite_tables W main input ->
  execution line p ls t -> ph t = UEnd ->
  thread_main E g (replying (confirms line) W) (start main input) = (Done tt, s) ->
  let l := logged (events E g W main input (confirms line)) in
  let ok := exists n, plan W (maps main input) g n /\ shows_run g l n (outs t) in
  (displays (outs t) = [] \/ ok) /\ (finished l -> ok).
Proof.
  cbv zeta. intros Hp HW X Hend Hrun. pose proof (both_inv E g W main input line p Hp ls t X) as I.
  destruct (i_end _ _ _ I Hend) as [Ec Ew].
  destruct (seen_execution line p (not_over E g W main input line p Hp) ls t X) as (r & m & vs & S).
  assert (path p (confirms line) = trace s) as EH by (rewrite Hp; unfold events; by rewrite Hrun).
  assert (events E g W main input (confirms line) = trace s) as Eev by (unfold events; by rewrite Hrun). rewrite Eev.
  destruct (thread_told _ _ _ _ _ _ (HW : finite_tables (replying (confirms line) W) main input) Hrun) as [(_ & _ & Hst & Hmk & _)|Hran].
  - split; [left; eapply no_displays; try done; by rewrite EH|]. intros [l' Hl']. exfalso. unfold marks in Hmk.
    rewrite Hl', omap_app in Hmk. by apply app_eq_nil in Hmk as [_ ?].
  - assert (exists n, plan W (maps main input) g n /\ shows_run g (logged (trace s)) n (outs t)) as K; [|by split; [right|]].
    unfold shows_run, ran_ in *. unfold plan in *. destruct (acmd g).
    12: { destruct Hran as (x & sk & (_ & Hx & Hst & _ & Ht) & H1 & H2). exists 0. split; [done|]. eapply shows_vacuum; try done; rewrite EH; congruence. }
    7: { destruct Hran as (n & x & sk & Hpl & (_ & Hx & Hst & Hsk & Ht) & Hn). exists n. split; [exact Hpl|]. eapply shows_all; try done; rewrite EH; [done|].
         cbn in Hn. rewrite <- skipped_marks, Hsk. replace (n - skipped_of sk) with (blocks_done x) by lia. done. }
    all: destruct Hran as (n & x & sk & Hpl & (_ & Hx & Hst & Hsk & Ht) & Hn); exists n; split; [exact Hpl|]; eapply shows_all; try done; rewrite EH; [done|];
      cbn in Hn; by replace n with (blocks_done x) at 2 by lia.
Qed.
