(** Reasoning about actions: a small program logic, and the database operations
    when nothing fails *)
From Verif Require Import Sys SpecNodes SpecRun.

(** * Triples *)

(** From a state in [P], action [m] ends in [Q] with a result, or in [R] when it
    panics or is killed. *)
Definition hoare {A} (W : world) (P : sys -> Prop) (m : M A) (Q : A -> sys -> Prop)
    (R : sys -> Prop) : Prop :=
  forall s, P s ->
  match m W s with
  | (Done a, s') => Q a s'
  | (Panicked, s') => R s'
  | (Killed, s') => R s'
  end.

Definition never : sys -> Prop := fun _ => False.

Section rules.
  Context {A B : Type} (W : world).
  Implicit Types P R : sys -> Prop.

  Lemma h_ret P R (a : A) (Q : A -> sys -> Prop) : (forall s, P s -> Q a s) -> hoare W P (mret a) Q R.
  Proof. intros H s Hs. by apply H. Qed.
  Lemma h_bind P R (m : M A) (f : A -> M B) Q1 Q :
    hoare W P m Q1 R -> (forall a, hoare W (Q1 a) (f a) Q R) -> hoare W P (m ≫= f) Q R.
  Proof.
    intros Hm Hf s Hs. specialize (Hm s Hs). unfold mbind, M_bind.
    destruct (m W s) as [[a| |] s']; [by apply Hf|done..].
  Qed.
  Lemma h_ret_bind P R (a : A) (f : A -> M B) Q : hoare W P (f a) Q R -> hoare W P (mret a ≫= f) Q R.
  Proof. done. Qed.
  Lemma h_lift_bind P R (o : out A) a (f : A -> M B) Q : o = Ret a -> hoare W P (f a) Q R ->
    hoare W P (lift o ≫= f) Q R.
  Proof. by intros ->. Qed.
  Lemma h_conseq P P' R R' (m : M A) (Q Q' : A -> sys -> Prop) :
    hoare W P m Q R -> (forall s, P' s -> P s) -> (forall a s, Q a s -> Q' a s) ->
    (forall s, R s -> R' s) -> hoare W P' m Q' R'.
  Proof.
    intros H HP HQ HR s Hs. specialize (H s (HP s Hs)).
    destruct (m W s) as [[a| |] s']; auto.
  Qed.
  Lemma h_weaken P P' R (m : M A) (Q : A -> sys -> Prop) :
    hoare W P m Q R -> (forall s, P' s -> P s) -> hoare W P' m Q R.
  Proof. intros H HP. by eapply h_conseq. Qed.
  Lemma h_post P R (m : M A) (Q Q' : A -> sys -> Prop) :
    hoare W P m Q R -> (forall a s, Q a s -> Q' a s) -> hoare W P m Q' R.
  Proof. intros H HP. by eapply h_conseq. Qed.
  Lemma h_lift P R (o : out A) a (Q : A -> sys -> Prop) : o = Ret a -> (forall s, P s -> Q a s) ->
    hoare W P (lift o) Q R.
  Proof. intros -> H. by apply h_ret. Qed.
  Lemma h_pre (X : Prop) P R (m : M A) (Q : A -> sys -> Prop) :
    (X -> hoare W P m Q R) -> hoare W (fun s => X /\ P s) m Q R.
  Proof. intros H s [HX Hs]. by apply H. Qed.
  Lemma h_ex {I} (P : I -> sys -> Prop) R (m : M A) (Q : A -> sys -> Prop) :
    (forall i, hoare W (P i) m Q R) -> hoare W (fun s => exists i, P i s) m Q R.
  Proof. intros H s [i Hs]. by apply (H i). Qed.
End rules.

Lemma h_foldM {A B} W (f : A -> B -> M A) (I : list B -> A -> sys -> Prop) R l a :
  (forall d x r b, l = d ++ x :: r -> hoare W (I d b) (f b x) (fun b' => I (d ++ [x]) b') R) ->
  hoare W (I [] a) (foldM f l a) (fun b => I l b) R.
Proof.
  intros H. enough (forall r d b, l = d ++ r -> hoare W (I d b) (foldM f r b) (fun b' => I l b') R)
    as HH by (by apply (HH l [])).
  clear a. induction r as [|x r IH]; intros d b E; simpl.
  - rewrite app_nil_r in E. subst. by apply h_ret.
  - eapply h_bind; [by eapply H|]. intros b'. apply IH. subst l. by rewrite <-app_assoc.
Qed.

(** * When nothing fails *)

(** Database [d] on disk, open transaction seeing [m]; input map [i]; status [u];
    messages logged so far [t]. *)
Definition st (d m : mapdata) (i : mapdb) (h : bool) (u : status_t) (t : list (log_type * msg))
    (s : sys) : Prop :=
  db s = MDB (Conn d (Some m)) true /\ idb s = i /\ has_idb s = h /\ status s = u /\
  logs (trace s) = t.
(** An input map ready to be read *)
Definition reading (i : mapdb) (im : mapdata) : Prop := in_tr i = true /\ view (cn i) = im.
(** What a database operation on [w] sees *)
Definition seen (w : which) (m im : mapdata) : mapdata := match w with Main => m | Input => im end.

(** The rows of a table, as returned by the database at some point. *)
Definition row_list (W : world) (m : mapdata) (rs : list (Z * bytes)) : Prop :=
  rs ≡ₚ map_to_list m /\ exists t, rs = rows W t m.

Section calm.
  Context (W : world) (HW : no_faults W).

  Lemma exec_ok {A} w (f : conn -> option (A * conn)) s :
    exec w f W s = match f (cn (get_db w s)) with
                   | Some (a, c') => (Done (Some a), put_conn w c' (tick s))
                   | None => (Done None, tick s)
                   end.
  Proof. unfold exec. by rewrite HW. Qed.

  Lemma st_in d m i h u t s : st d m i h u t s -> in_tr (get_db Main s) = true /\ cn (get_db Main s) = Conn d (Some m).
  Proof. intros (H & _). simpl. by rewrite H. Qed.

  Lemma begin_noop w s : in_tr (get_db w s) = true -> begin_if_needed w W s = (Done (DOk tt), s).
  Proof. intros H. unfold begin_if_needed, is_in_transaction, gets, mbind, M_bind, mret, M_ret. by rewrite H. Qed.

  Lemma read_ok {A} w (h : mapdata -> A) s :
    exec w (st_read h) W s = (Done (Some (h (view (cn (get_db w s))))), put_conn w (cn (get_db w s)) (tick s)).
  Proof. by rewrite exec_ok. Qed.

  Lemma seen_view d m i im h u t s w : st d m i h u t s -> reading i im ->
    in_tr (get_db w s) = true /\ view (cn (get_db w s)) = seen w m im.
  Proof. intros (H & Hi & _) [Hr Hv]. destruct w; simpl; [by rewrite H|by rewrite Hi]. Qed.
  Lemma seen_main d m i h u t s : st d m i h u t s ->
    in_tr (get_db Main s) = true /\ view (cn (get_db Main s)) = m.
  Proof. intros (H & _). simpl; by rewrite H. Qed.

  Lemma st_put d m i h u t s w : st d m i h u t s -> st d m i h u t (put_conn w (cn (get_db w s)) (tick s)).
  Proof.
    intros (H1 & H2 & H3 & H4 & H5). destruct s as [db0 idb0 hi tk stt tr]; simpl in *.
    subst. destruct w; simpl; repeat split; simpl; try done. by destruct i.
  Qed.

  Lemma get_block_view w s key : in_tr (get_db w s) = true ->
    get_block w key W s = (Done (match view (cn (get_db w s)) !! key with
      | Some x => DOk x | None => DErr MissingData end), put_conn w (cn (get_db w s)) (tick s)).
  Proof.
    intros H. unfold get_block. unfold mbind at 1, M_bind at 1. rewrite begin_noop by done.
    unfold stmt, mbind, M_bind, mret, M_ret. rewrite read_ok. by destruct (_ !! key).
  Qed.

  Lemma h_get_block d m i im h u t w key : reading i im ->
    hoare W (st d m i h u t) (get_block w key)
      (fun r s => st d m i h u t s /\
         r = match seen w m im !! key with Some x => DOk x | None => DErr MissingData end) never.
  Proof.
    intros Hr s Hs. destruct (seen_view _ _ _ _ _ _ _ _ w Hs Hr) as [Ht Hv].
    rewrite get_block_view by done. rewrite Hv. split; [by apply st_put|done].
  Qed.
  Lemma h_get_main d m i h u t key :
    hoare W (st d m i h u t) (get_block Main key)
      (fun r s => st d m i h u t s /\
         r = match m !! key with Some x => DOk x | None => DErr MissingData end) never.
  Proof.
    intros s Hs. destruct (seen_main _ _ _ _ _ _ _ Hs) as [Ht Hv].
    rewrite get_block_view by done. rewrite Hv. split; [by apply st_put|done].
  Qed.

  Lemma write_main d m i h u t s (g : mapdata -> mapdata) : st d m i h u t s ->
    exists s', (r ← begin_if_needed Main;
      match r with DErr e => mret (DErr e) | DOk _ => stmt (exec_write Main g) end) W s
      = (Done (DOk tt), s') /\ st d (g m) i h u t s'.
  Proof.
    intros Hs. destruct (st_in _ _ _ _ _ _ _ Hs) as [Ht Hc].
    unfold mbind at 1, M_bind at 1. rewrite begin_noop by done.
    unfold stmt, mbind, M_bind, mret, M_ret, exec_write. rewrite exec_ok. unfold st_write.
    rewrite Hc. simpl. eexists. split; [done|].
    destruct Hs as (H1 & H2 & H3 & H4 & H5). destruct s as [db0 idb0 hi tk stt tr]; simpl in *.
    subst. done.
  Qed.
  Lemma h_set_block d m i h u t key x :
    hoare W (st d m i h u t) (set_block Main key x)
      (fun r s => st d (<[key := x]> m) i h u t s /\ r = DOk tt) never.
  Proof.
    intros s Hs. unfold set_block. destruct (write_main _ _ _ _ _ _ _ (<[key := x]>) Hs) as (s' & E & H').
    by rewrite E.
  Qed.
  Lemma h_delete_block d m i h u t key :
    hoare W (st d m i h u t) (delete_block Main key)
      (fun r s => st d (delete key m) i h u t s /\ r = DOk tt) never.
  Proof.
    intros s Hs. unfold delete_block. destruct (write_main _ _ _ _ _ _ _ (delete key) Hs) as (s' & E & H').
    by rewrite E.
  Qed.
  Lemma h_next_row d m i h u t w : hoare W (st d m i h u t) (next_row w) (fun _ => st d m i h u t) never.
  Proof.
    intros s Hs. unfold next_row, unwrapD, stmt, mbind, M_bind, mret, M_ret. rewrite read_ok.
    by apply st_put.
  Qed.
  Lemma h_iter_rows d m i im h u t w : world_ok W -> reading i im \/ w = Main ->
    hoare W (st d m i h u t) (iter_rows w)
      (fun rs s => st d m i h u t s /\ row_list W (seen w m im) rs) never.
  Proof.
    intros Ho Hr s Hs.
    assert (in_tr (get_db w s) = true /\ view (cn (get_db w s)) = seen w m im) as [Ht Hv].
    { destruct Hr as [Hr| ->]; [by eapply seen_view|by eapply seen_main]. }
    unfold iter_rows. unfold mbind at 1, M_bind at 1. rewrite begin_noop by done.
    unfold unwrapD, stmt, mbind, M_bind, mret, M_ret. rewrite read_ok. unfold mret, M_ret, row_order.
    split; [by apply st_put|]. rewrite Hv. split; [apply Ho|by eexists].
  Qed.

  (** Status updates *)
  Lemma h_put_status d m i h u t f :
    hoare W (st d m i h u t) (put_status f) (fun _ => st d m i h (f u) t) never.
  Proof.
    intros s (H1 & H2 & H3 & H4 & H5). unfold put_status, modify. repeat split; simpl; try congruence.
    rewrite logs_app. simpl. by rewrite app_nil_r.
  Qed.
  Lemma h_send d m i h u t e :
    hoare W (st d m i h u t) (send e) (fun _ => st d m i h u (t ++ logs [e])) never.
  Proof.
    intros s (H1 & H2 & H3 & H4 & H5). unfold send, modify. repeat split; simpl; try congruence.
    rewrite logs_app. by rewrite H5.
  Qed.
  Lemma h_log d m i h u t lt x :
    hoare W (st d m i h u t) (log lt x) (fun _ => st d m i h u (t ++ [(lt, x)])) never.
  Proof. apply h_send. Qed.
  Lemma h_set_state d m i h u t x :
    hoare W (st d m i h u t) (set_state x)
      (fun _ => st d m i h (Status (show_progress u) (blocks_total u) (blocks_done u)
                              (blocks_failed u) x) t) never.
  Proof.
    unfold set_state. eapply h_bind; [apply h_put_status|]. intros ?. simpl.
    eapply h_post; [apply h_send|]. simpl. intros ? s. by rewrite app_nil_r.
  Qed.
End calm.

(** * Queries *)
From Verif Require Import Utils.

(** Row is selected by [query_keys] *)
Definition row_sel (search : list bytes) (a : option area) (inv partial : bool) (k : Z) (x : bytes) : bool :=
  (negb (query_empty a inv partial) || inv) && row_match (string16 <$> search) a inv partial k x.

Definition sel_rows search a inv partial (rs : list (Z * bytes)) : list (Z * bytes) :=
  filter (fun r => row_sel search a inv partial r.1 r.2 = true) rs.

Definition with_total (u : status_t) (n : Z) (x : inst_state) : status_t :=
  Status (show_progress u) n (blocks_done u) (blocks_failed u) x.

Section query.
  Context (W : world) (HW : no_faults W) (HO : world_ok W).

  Lemma h_set_total d m i h u t n :
    hoare W (st d m i h u t) (set_total n) (fun _ => st d m i h (with_total u n (state u)) t) never.
  Proof. apply h_put_status. Qed.

  Lemma h_query d m i im h u t w search a inv partial : reading i im \/ w = Main ->
    hoare W (st d m i h u t) (query_keys w search a inv partial)
      (fun keys s => st d m i h (with_total u (Z.of_nat (length keys)) Ignore) t s /\
         exists rs, row_list W (seen w m im) rs /\ keys = (sel_rows search a inv partial rs).*1) never.
  Proof.
    intros Hr. unfold query_keys. eapply h_bind; [by apply h_set_state|]. intros ?. cbn beta.
    eapply h_bind with (Q1 := fun keys s => (exists n, st d m i h (with_total u n Querying) t s) /\
      exists rs, row_list W (seen w m im) rs /\ keys = (sel_rows search a inv partial rs).*1).
    - destruct (negb (query_empty a inv partial) || inv) eqn:Eq.
      + eapply h_bind; [by apply h_iter_rows|]. intros rs. cbn beta.
        eapply h_weaken with (P := fun s => row_list W (seen w m im) rs /\
          st d m i h (with_total u (blocks_total u) Querying) t s);
          [|intros s [? ?]; done].
        apply h_pre. intros Hp.
        eapply h_bind with (Q1 := fun st0 s => st0.2 = (sel_rows search a inv partial rs).*1 /\
          exists n, st d m i h (with_total u n Querying) t s).
        { eapply h_conseq; [apply h_foldM with (I := fun l st0 s =>
             st0.2 = (sel_rows search a inv partial l).*1 /\
             exists n, st d m i h (with_total u n Querying) t s) (R := never)| | |].
          - intros l r rest b El. apply h_pre. intros Eb. apply h_ex. intros n. unfold query_step.
            eapply h_bind; [by apply h_next_row|]. intros ?. cbn beta.
            assert (sel_rows search a inv partial (l ++ [r]) = sel_rows search a inv partial l ++
              (if row_match (string16 <$> search) a inv partial r.1 r.2 then [r] else [])) as E2.
            { unfold sel_rows. rewrite filter_app. f_equal. unfold row_sel. rewrite Eq. simpl.
              unfold filter; simpl. by destruct (row_match _ _ _ _ _ _). }
            destruct (row_match _ _ _ _ _ _).
            + eapply h_bind with (Q1 := fun _ s => exists n, st d m i h (with_total u n Querying) t s).
              * destruct (_ =? 0).
                -- eapply h_post; [apply h_set_total|]. intros ? s H. eexists. exact H.
                -- apply h_ret. intros s H. by eexists.
              * intros ?. cbn beta. apply h_ret. intros s H. split; [|done].
                cbn [snd]. rewrite E2, fmap_app, Eb. done.
            + apply h_ret. intros s H. split; [|by eexists]. cbn [snd]. by rewrite E2, app_nil_r.
          - intros s H. split; [done|]. by eexists.
          - intros st0 s H. exact H.
          - done. }
        intros st0. cbn beta. apply h_pre. intros E0. apply h_ex. intros n.
        eapply h_bind; [by apply h_next_row|]. intros ?. cbn beta. apply h_ret.
        intros s H. split; [by eexists|]. by exists rs.
      + apply h_ret. intros s H. split; [by exists (blocks_total u)|].
        exists (rows W 0 (seen w m im)). split; [split; [apply HO|by eexists]|].
        assert (sel_rows search a inv partial (rows W 0 (seen w m im)) = []) as ->; [|done].
        unfold sel_rows, row_sel. rewrite Eq. simpl. clear.
        induction (rows _ _ _) as [|r l IH]; [done|]. unfold filter; simpl. done.
    - intros keys. cbn beta. eapply h_weaken with (P := fun s =>
        (exists rs, row_list W (seen w m im) rs /\ keys = (sel_rows search a inv partial rs).*1) /\
        exists n, st d m i h (with_total u n Querying) t s); [|tauto].
      apply h_pre. intros Hk. apply h_ex. intros n.
      eapply h_bind; [apply h_set_total|]. intros ?. cbn beta. eapply h_bind; [apply h_set_state|]. intros ?. cbn beta.
      apply h_ret. intros s H. by split.
  Qed.
End query.
