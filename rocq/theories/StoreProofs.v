(** The database wrapper and the block cache *)
From Verif Require Import SpecStore SysProofs CodecProofs.
From Verif Require Import Spec.

(** ** Cache *)
Lemma assoc_None {V} (l : list (Z * V)) k : assoc l k = None <-> k ∉ l.*1.
Proof.
  unfold assoc. induction l as [|[j v] l IH]; simpl; [split; [intros _; apply not_elem_of_nil|done]|].
  rewrite not_elem_of_cons. destruct (Z.eqb_spec j k) as [->|Hne]; simpl.
  - split; [done|]. by intros [[] _].
  - rewrite IH. split; [by split|tauto].
Qed.
Lemma assoc_app {V} (l l' : list (Z * V)) k :
  assoc (l ++ l') k = match assoc l k with Some v => Some v | None => assoc l' k end.
Proof.
  unfold assoc. induction l as [|[j v] l IH]; simpl; [done|]. by destruct (Z.eqb_spec j k).
Qed.

Definition mirrors {V} (n : Z) (c : cache_map V) (l : list (Z * V)) : Prop :=
  cap c = n /\ key_queue c = l.*1 /\ NoDup l.*1 /\ (forall k, cmap c !! k = assoc l k) /\
  Z.of_nat (length l) <= Z.max n 1.
Lemma mirrors_new {V} n : mirrors n (cache_new (V := V) n) [].
Proof. repeat split; [constructor|simpl; lia]. Qed.
Lemma mirrors_request {V} n (c : cache_map V) l kv : mirrors n c l -> mirrors n (request c kv) (fifo n l kv).
Proof.
  intros (Hn & Hq & Hnd & Hm & Hl). unfold request, fifo, cache_get. rewrite Hm.
  destruct (assoc l kv.1) eqn:Ea; [done|]. apply assoc_None in Ea. destruct kv as [k v]; simpl in Ea.
  unfold cache_insert. rewrite Hn, Hq, fmap_length.
  destruct (Z.leb_spec n (Z.of_nat (length l))) as [Hge|Hlt].
  - destruct l as [|[j x] l]; simpl.
    + repeat split; simpl; [constructor; [set_solver|constructor]| |lia].
      intros k'. unfold assoc. simpl. destruct (Z.eqb_spec k k') as [->|Hne]; [apply lookup_insert|].
      rewrite lookup_insert_ne by done. apply Hm.
    + apply NoDup_cons in Hnd as [Hj Hnd]. apply not_elem_of_cons in Ea as [Hkj Hk].
      repeat split; simpl.
      * by rewrite fmap_app.
      * rewrite fmap_app. apply NoDup_app. split; [done|]. split; [set_solver|]. apply NoDup_singleton.
      * intros k'. rewrite assoc_app. unfold assoc at 2. simpl. destruct (Z.eqb_spec k k') as [->|Hne].
        -- rewrite lookup_insert. apply assoc_None in Hk. by rewrite Hk.
        -- rewrite lookup_insert_ne by done. destruct (decide (j = k')) as [->|Hjk].
           ++ rewrite lookup_delete. simpl in Hj. apply assoc_None in Hj. by rewrite Hj.
           ++ rewrite lookup_delete_ne by done. rewrite Hm. unfold assoc. simpl.
              destruct (Z.eqb_spec j k'); [done|]. by destruct (List.find _ l) as [[]|].
      * rewrite app_length. simpl in *. lia.
  - repeat split; simpl.
    + by rewrite fmap_app.
    + rewrite fmap_app. apply NoDup_app. split; [done|]. split; [set_solver|]. apply NoDup_singleton.
    + intros k'. rewrite assoc_app. unfold assoc at 2. simpl. destruct (Z.eqb_spec k k') as [->|Hne].
      * rewrite lookup_insert. apply assoc_None in Ea. by rewrite Ea.
      * rewrite lookup_insert_ne by done. rewrite Hm. by destruct (assoc l k').
    + rewrite app_length. simpl. lia.
Qed.
Lemma mirrors_requests {V} n (l : list (Z * V)) : mirrors n (requests n l) (foldl (fifo n) [] l).
Proof.
  unfold requests. assert (forall c e, mirrors n c e -> mirrors n (foldl request c l) (foldl (fifo n) e l)) as H.
  { induction l as [|kv l IH]; intros c e Hc; simpl; [done|]. by apply IH, mirrors_request. }
  apply H, mirrors_new.
Qed.
Lemma cache_fifo {V} n (l : list (Z * V)) k : cache_get (requests n l) k = assoc (foldl (fifo n) [] l) k.
Proof. destruct (mirrors_requests n l) as (_ & _ & _ & H & _). apply H. Qed.
Lemma mirrors_size {V} n (c : cache_map V) l : mirrors n c l -> size (cmap c) = length l.
Proof.
  intros (_ & _ & Hnd & Hm & _). assert (cmap c = list_to_map l) as ->.
  { apply map_eq. intros k. rewrite Hm. destruct (list_to_map l !! k) eqn:Ek.
    - apply elem_of_list_to_map_2 in Ek. unfold assoc. clear Hm. induction l as [|[j x] l IH]; [by apply elem_of_nil in Ek|].
      simpl in *. apply NoDup_cons in Hnd as [Hj Hnd]. destruct (Z.eqb_spec j k) as [->|Hne].
      + simpl. apply elem_of_cons in Ek as [[= ->]|Ek]; [done|]. destruct Hj. by apply (elem_of_list_fmap_1 fst) in Ek.
      + apply elem_of_cons in Ek as [[= -> ->]|Ek]; [done|]. by apply IH.
    - apply assoc_None. by apply not_elem_of_list_to_map. }
  unfold size, map_size. by rewrite map_to_list_to_map.
Qed.
Lemma cache_bounded {V} n (l : list (Z * V)) :
  let c := requests n l in
  Z.of_nat (size (cmap c)) <= Z.max n 1 /\ NoDup (key_queue c) /\ length (key_queue c) = size (cmap c).
Proof.
  pose proof (mirrors_requests n l) as H. cbv zeta. rewrite (mirrors_size _ _ _ H).
  destruct H as (_ & Hq & Hnd & _ & Hl). rewrite Hq, fmap_length. done.
Qed.
Lemma fifo_incl {V} n (l e : list (Z * V)) : foldl (fifo n) e l ⊆ e ++ l.
Proof.
  revert e. induction l as [|kv l IH]; intros e; simpl; [by rewrite app_nil_r|].
  etrans; [apply IH|]. unfold fifo. destruct (assoc e kv.1); [set_solver|].
  destruct (n <=? _); [|set_solver]. destruct e; set_solver.
Qed.
Lemma cache_transparent {V} n (l : list (Z * V)) k v : cache_get (requests n l) k = Some v -> (k, v) ∈ l.
Proof.
  rewrite cache_fifo. unfold assoc. destruct (List.find _ _) as [[j x]|] eqn:Ef; [|done]. simpl. intros [= <-].
  apply List.find_some in Ef as [Hin Hj]. simpl in Hj. apply Z.eqb_eq in Hj. subst j.
  apply elem_of_list_In in Hin. apply (fifo_incl n l []) in Hin. done.
Qed.

(** ** Wrapper *)
Section calls.
  Context (W : world) (HW : no_faults W) (HO : world_ok W).
  Lemma exec_main {A} (f : conn -> option (A * conn)) s : exec Main f W s =
    match f (cn (db s)) with
    | Some (a, c) => (Done (Some a), put_conn Main c (tick s))
    | None => (Done None, tick s)
    end.
  Proof. unfold exec. by rewrite HW. Qed.
  Lemma begin_open d m s : db s = MDB (Conn d (Some m)) true -> begin_if_needed Main W s = (Done (DOk tt), s).
  Proof.
    intros H. unfold begin_if_needed, is_in_transaction, gets, mbind, M_bind, mret, M_ret. simpl. by rewrite H.
  Qed.
  Lemma next_one d m s : db s = MDB (Conn d (Some m)) true ->
    exists s', next_row Main W s = (Done tt, s') /\ db s' = db s.
  Proof.
    intros Hs. unfold next_row, stmt, mbind, M_bind, mret, M_ret. rewrite exec_main, Hs. simpl.
    eexists. split; [done|]. simpl. by rewrite Hs.
  Qed.
  Lemma next_rows d m s (l : list (Z * bytes)) u : db s = MDB (Conn d (Some m)) true ->
    exists s', foldM (fun (_ : unit) (_ : Z * bytes) => next_row Main) l u W s = (Done tt, s') /\ db s' = db s.
  Proof.
    revert s u. induction l as [|x l IH]; intros s [] Hs; simpl; [by exists s|].
    destruct (next_one d m s Hs) as (s1 & Hr1 & Hd1).
    unfold mbind, M_bind. rewrite Hr1. destruct (IH s1 tt ltac:(congruence)) as (s' & Hr & Hd).
    exists s'. split; [done|congruence].
  Qed.
  Lemma call_ok d m s o : db s = MDB (Conn d (Some m)) true -> o <> OCommit ->
    exists r s', call o W s = (Done r, s') /\ answers m o r /\ db s' = MDB (Conn d (Some (after m o))) true.
  Proof.
    intros Hs Ho. destruct o as [k|k x|k| |]; simpl; [..|done].
    - unfold get_block. unfold mbind at 1, M_bind at 1. unfold mbind at 1, M_bind at 1. rewrite (begin_open d m) by done.
      unfold stmt, mbind, M_bind, mret, M_ret. rewrite exec_main, Hs. unfold st_read, view. cbn [work cn default]. unfold id.
      destruct (m !! k); simpl; (eexists _, _; split; [done|]; split; [done|]); unfold put_conn; simpl; by rewrite Hs.
    - unfold set_block. unfold mbind at 1, M_bind at 1. unfold mbind at 1, M_bind at 1. rewrite (begin_open d m) by done.
      unfold stmt, exec_write, mbind, M_bind, mret, M_ret. rewrite exec_main, Hs. simpl.
      eexists _, _. split; [done|]. split; [done|]. unfold put_conn. simpl. by rewrite Hs.
    - unfold delete_block. unfold mbind at 1, M_bind at 1. unfold mbind at 1, M_bind at 1. rewrite (begin_open d m) by done.
      unfold stmt, exec_write, mbind, M_bind, mret, M_ret. rewrite exec_main, Hs. simpl.
      eexists _, _. split; [done|]. split; [done|]. unfold put_conn. simpl. by rewrite Hs.
    - unfold read_rows, iter_rows.
      assert (exists s1 t, (r ← begin_if_needed Main; unwrapD r ;; r2 ← stmt (exec Main (st_read id)); m ← unwrapD r2; row_order m) W s
        = (Done (rows W t m), s1) /\ db s1 = db s) as (s1 & t & Hr & Hd).
      { unfold mbind at 1, M_bind at 1. rewrite (begin_open d m) by done.
        unfold unwrapD, stmt, mbind, M_bind, mret, M_ret. rewrite exec_main, Hs. simpl. unfold row_order.
        eexists _, _. split; [done|]. unfold put_conn. simpl. by rewrite Hs. }
      unfold mbind at 1, M_bind at 1. unfold mbind at 1, M_bind at 1. rewrite Hr.
      destruct (next_rows d m s1 (rows W t m) tt ltac:(congruence)) as (s2 & Hr2 & Hd2).
      unfold mbind at 1, M_bind at 1. rewrite Hr2.
      destruct (next_one d m s2 ltac:(congruence)) as (s3 & Hr3 & Hd3).
      unfold mbind at 1, M_bind at 1. rewrite Hr3. simpl.
      eexists _, _. split; [done|]. split; [|congruence]. eexists. split; [done|]. apply HO.
  Qed.
  Lemma calls_ok d os : forall m s, db s = MDB (Conn d (Some m)) true -> Forall (fun o => o <> OCommit) os ->
    exists rs s', calls os W s = (Done rs, s') /\ all_answer m os rs /\ db s' = MDB (Conn d (Some (after_all m os))) true.
  Proof.
    induction os as [|o os IH]; intros m s Hs Hos; simpl.
    - by exists [], s.
    - apply Forall_cons in Hos as [Ho Hos]. destruct (call_ok d m s o Hs Ho) as (r & s1 & Hr & Ha & Hd).
      destruct (IH (after m o) s1 Hd Hos) as (rs & s2 & Hrs & Has & Hds).
      unfold mbind at 1, M_bind at 1. rewrite Hr. unfold mbind at 1, M_bind at 1. rewrite Hrs.
      exists (r :: rs), s2. split; [done|]. split; [by split|done].
  Qed.
  Lemma calls_app os1 os2 s rs1 s1 rs2 s2 : calls os1 W s = (Done rs1, s1) -> calls os2 W s1 = (Done rs2, s2) ->
    calls (os1 ++ os2) W s = (Done (rs1 ++ rs2), s2).
  Proof.
    revert s rs1. induction os1 as [|o os1 IH]; intros s rs1 H1 H2; simpl in *; [by inv H1|].
    unfold mbind, M_bind in H1 |- *. destruct (call o W s) as [[r| |] s3]; [|done..].
    destruct (calls os1 W s3) as [[rs| |] s4] eqn:E; [|done..]. inv H1. by rewrite (IH _ _ E H2).
  Qed.
  Lemma all_answer_app m os1 os2 rs1 rs2 : all_answer m os1 rs1 -> all_answer (after_all m os1) os2 rs2 ->
    all_answer m (os1 ++ os2) (rs1 ++ rs2).
  Proof.
    revert m rs1. induction os1 as [|o os1 IH]; intros m [|r rs1] H1 H2; simpl in *; try done.
    destruct H1. split; [done|]. by apply IH.
  Qed.
  Lemma store_ok m s os : opened m s -> Forall (fun o => o <> OCommit) os ->
    exists rs s', calls (os ++ [OCommit]) W s = (Done rs, s') /\ all_answer m (os ++ [OCommit]) rs /\
      final Main s' = after_all m os.
  Proof.
    intros Hs Hos. destruct (calls_ok m os m s Hs Hos) as (rs & s1 & Hr & Ha & Hd).
    assert (exists s2, calls [OCommit] W s1 = (Done [Stored], s2) /\ final Main s2 = after_all m os) as (s2 & Hc & Hf).
    { simpl. unfold commit_if_needed, is_in_transaction, gets, stmt, mbind, M_bind, mret, M_ret. simpl. rewrite Hd. simpl.
      rewrite exec_main, Hd. simpl. eexists. split; [done|]. unfold final, put_flag, put_conn. simpl. done. }
    eexists _, s2. split; [by eapply calls_app|]. split; [|done]. apply all_answer_app; [done|]. by split.
  Qed.
End calls.

(** After a commit, the second call fails. *)
Definition store_world : world :=
  World (fun _ => FOk) (fun _ m => map_to_list m) true (fun _ => true) (fun _ => true) (fun _ => true).
Definition store_start : sys := Sys (MDB (Conn ∅ (Some ∅)) true) (MDB (Conn ∅ None) false) false 0 status_new [].
Lemma store_fails : exists W m s os rs s', no_faults W /\ world_ok W /\ opened m s /\
  calls os W s = (Done rs, s') /\ ~ all_answer m os rs /\ Failed ∈ rs /\ final Main s' <> after_all m os.
Proof.
  set (os := [OSet 1 []; OCommit; OSet 2 []; OSet 3 []; OCommit]).
  exists store_world, ∅, store_start, os.
  destruct (calls os store_world store_start) as [[rs| |] s'] eqn:Er; [|by vm_compute in Er..].
  exists rs, s'. split; [by intros t|]. split; [by intros t m|]. split; [done|]. split; [done|].
  assert (rs = [Stored; Stored; Stored; Failed; Stored] /\ bool_decide (final Main s' = {[ 1 := [] ]}) = true) as [-> Hf].
  { vm_compute in Er. inv Er. by vm_compute. }
  apply bool_decide_eq_true in Hf. rewrite Hf. split; [simpl; intros H; by destruct H as (_ & _ & _ & ? & _)|].
  split; [set_solver|]. intros H. apply (f_equal (fun m => m !! 2)) in H. by vm_compute in H.
Qed.
