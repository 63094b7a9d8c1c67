(** Proofs about BlockUtils.v *)
From Verif Require Import MapProofs SpatialProofs BlockUtils SpecNodes.

(** *** Loops *)

Lemma foldO_inv {A B} (f : A -> B -> out A) (P : list B -> A -> Prop) l a :
  P [] a ->
  (forall d x r b, l = d ++ x :: r -> P d b -> exists b', f b x = Ret b' /\ P (d ++ [x]) b') ->
  exists b, foldO f l a = Ret b /\ P l b.
Proof.
  intros H0 Hs.
  assert (H : forall r d b, l = d ++ r -> P d b -> exists b', foldO f r b = Ret b' /\ P l b').
  { intros r. induction r as [|x r IH]; intros d b E Hd.
    - rewrite app_nil_r in E. subst. by exists b.
    - destruct (Hs d x r b E Hd) as (b' & Hf & HP). simpl. rewrite Hf. simpl.
      apply (IH (d ++ [x])); [by rewrite <-app_assoc|done]. }
  by apply (H l []).
Qed.

Lemma mapO_Ret {A B} (f : A -> out B) (g : A -> B) l :
  (forall x, x ∈ l -> f x = Ret (g x)) -> mapO f l = Ret (g <$> l).
Proof.
  induction l as [|x l IH]; intros H; [done|]. simpl.
  rewrite H by set_solver. simpl. rewrite IH by set_solver. done.
Qed.

Lemma vget_Ret {A} (v : list A) i x : 0 <= i -> v !! Z.to_nat i = Some x -> vget v i = Ret x.
Proof. intros Hi E. unfold vget. destruct (i <? 0) eqn:?; [lia|]. by rewrite E. Qed.
Lemma vget_inv {A} (v : list A) i x : vget v i = Ret x -> 0 <= i /\ v !! Z.to_nat i = Some x.
Proof.
  unfold vget. destruct (i <? 0) eqn:?; [done|]. destruct (v !! Z.to_nat i) eqn:E; simpl; [|done].
  intros [= ->]. split; [lia|done].
Qed.
Lemma vset_Ret {A} (v : list A) i x : 0 <= i < Z.of_nat (length v) ->
  vset v i x = Ret (<[Z.to_nat i := x]> v).
Proof. intros. unfold vset. destruct (_ || _) eqn:?; [lia|done]. Qed.

(** *** Name lookups *)

Lemma StronglySorted_filter {A} (R : relation A) (P : A -> Prop) `{forall x, Decision (P x)} l :
  StronglySorted R l -> StronglySorted R (filter P l).
Proof.
  induction 1 as [|x l Hl IH Hx]; [constructor|]. rewrite filter_cons. case_decide; [|done].
  constructor; [done|]. apply Forall_forall. intros y Hy.
  apply elem_of_list_filter in Hy as [_ Hy]. rewrite Forall_forall in Hx. auto.
Qed.

Lemma get_id_Some m name k : get_id m name = Some k <->
  m !! k = Some name /\ forall k', m !! k' = Some name -> k <= k'.
Proof.
  unfold get_id. split.
  - intros H. apply fmap_Some in H as ([k0 n0] & Hh & ->). simpl.
    assert (Hin : (k0, n0) ∈ filter (fun e : Z * bytes => e.2 = name) (sorted_list m)).
    { destruct (filter _ _); [done|]. simpl in Hh. injection Hh as ->. set_solver. }
    apply elem_of_list_filter in Hin as [E Hin]. simpl in E. subst n0.
    apply elem_of_sorted_list in Hin. split; [done|]. intros k' Hk'.
    pose proof (StronglySorted_filter key_lt (fun e : Z * bytes => e.2 = name) _ (sorted_list_lt m))
      as Hs.
    assert (Hin' : (k', name) ∈ filter (fun e : Z * bytes => e.2 = name) (sorted_list m)).
    { apply elem_of_list_filter. split; [done|]. by apply elem_of_sorted_list. }
    destruct (filter _ _) as [|x l]; [done|]. simpl in Hh. injection Hh as ->.
    apply elem_of_cons in Hin' as [E|Hin']; [injection E; lia|].
    inversion Hs as [|? ? ? Hf]; subst. rewrite Forall_forall in Hf.
    apply Hf in Hin'. unfold key_lt in Hin'. simpl in Hin'. lia.
  - intros [Hk Hmin].
    assert (Hin : (k, name) ∈ filter (fun e : Z * bytes => e.2 = name) (sorted_list m)).
    { apply elem_of_list_filter. split; [done|]. by apply elem_of_sorted_list. }
    pose proof (StronglySorted_filter key_lt (fun e : Z * bytes => e.2 = name) _ (sorted_list_lt m))
      as Hs.
    destruct (filter _ _) as [|[k0 n0] l] eqn:E; [by apply elem_of_nil in Hin|]. simpl. f_equal.
    assert (H0 : (k0, n0) ∈ filter (fun e : Z * bytes => e.2 = name) (sorted_list m))
      by (rewrite E; set_solver).
    apply elem_of_list_filter in H0 as [E0 H0]. simpl in E0. subst n0.
    apply elem_of_sorted_list in H0. apply Hmin in H0.
    apply elem_of_cons in Hin as [E1|Hin]; [by injection E1|].
    inversion Hs as [|? ? ? Hf]; subst. rewrite Forall_forall in Hf.
    apply Hf in Hin. unfold key_lt in Hin. simpl in Hin. lia.
Qed.

Lemma get_id_None m name : get_id m name = None <-> forall k, m !! k <> Some name.
Proof.
  split.
  - intros H k Hk. unfold get_id in H. apply fmap_None in H.
    assert (Hin : (k, name) ∈ filter (fun e : Z * bytes => e.2 = name) (sorted_list m)).
    { apply elem_of_list_filter. split; [done|]. by apply elem_of_sorted_list. }
    destruct (filter _ _); [by apply elem_of_nil in Hin|done].
  - intros H. destruct (get_id m name) as [k|] eqn:E; [|done].
    apply get_id_Some in E as [E _]. by apply H in E.
Qed.

Lemma get_max_id_upto m k : get_max_id m = Some k -> forall id, is_Some (m !! id) -> id <= k.
Proof. intros H. by apply max_key_Some in H as [_ H]. Qed.

(** *** Removing an ID *)

Lemma shift_loop (m : nimap_t) n a : 0 <= a -> a + Z.of_nat n <= 65536 ->
  forall x, foldl shift_down (delete a m) (seqZ (a + 1) (Z.of_nat n)) !! x =
    (if decide (x < a) then m !! x
     else if decide (x < a + Z.of_nat n) then m !! (x + 1)
     else if decide (x = a + Z.of_nat n) then None else m !! x).
Proof.
  intros Ha. induction n as [|n IH]; intros Hb x.
  - simpl. replace (a + Z.of_nat 0) with a by lia. repeat case_decide; try lia.
    + by rewrite lookup_delete_ne by lia.
    + subst. by rewrite lookup_delete.
    + by rewrite lookup_delete_ne by lia.
  - replace (Z.of_nat (S n)) with (Z.of_nat n + 1) by lia.
    specialize (IH ltac:(lia)).
    rewrite seqZ_app by lia. rewrite foldl_app. simpl seqZ.
    set (s := foldl shift_down (delete a m) (seqZ (a + 1) (Z.of_nat n))) in *.
    replace (seqZ (a + 1 + Z.of_nat n) 1) with [a + 1 + Z.of_nat n].
    2:{ rewrite seqZ_cons by lia. by rewrite seqZ_nil by lia. }
    simpl. unfold shift_down.
    pose proof (IH (a + 1 + Z.of_nat n)) as Hk.
    rewrite !decide_False in Hk by lia. rewrite Hk.
    rewrite w16_id by (unfold u16_ok; lia).
    destruct (m !! (a + 1 + Z.of_nat n)) as [nm|] eqn:E.
    + destruct (decide (x = a + Z.of_nat n)) as [->|Hx].
      * replace (a + 1 + Z.of_nat n - 1) with (a + Z.of_nat n) by lia.
        rewrite lookup_insert. repeat case_decide; try lia. rewrite <-E. f_equal. lia.
      * rewrite lookup_insert_ne by lia.
        destruct (decide (x = a + 1 + Z.of_nat n)) as [->|Hx'].
        -- rewrite lookup_delete. repeat case_decide; try lia; done.
        -- rewrite lookup_delete_ne by lia. rewrite IH. repeat case_decide; try lia; done.
    + rewrite IH. repeat case_decide; try lia; try done.
      * subst x. rewrite <-E. f_equal. lia.
      * subst x. rewrite <-E. f_equal. lia.
Qed.

Lemma remove_shift_spec m id : map_Forall (fun k _ => u16_ok k) m -> 0 <= id < 65535 ->
  forall k, remove_shift m id !! k = if decide (k < id) then m !! k else m !! (k + 1).
Proof.
  intros Hm Hid k. unfold remove_shift.
  rewrite w16_id by (unfold u16_ok; lia). unfold zrange.
  set (mx := default 0 (get_max_id (delete id m))).
  assert (Hmx : mx < 65536 /\ forall x, mx < x -> x <> id -> m !! x = None).
  { unfold mx. destruct (get_max_id (delete id m)) as [j|] eqn:E; simpl.
    - apply max_key_Some in E as [[v Hj] Hmax]. split.
      + apply lookup_delete_Some in Hj as [_ Hj]. apply Hm in Hj. unfold u16_ok in Hj. lia.
      + intros x Hx Hne. destruct (m !! x) eqn:Ex; [|done]. exfalso.
        specialize (Hmax x). rewrite lookup_delete_ne in Hmax by done.
        rewrite Ex in Hmax. specialize (Hmax ltac:(by eexists)). lia.
    - apply max_key_None in E. split; [lia|]. intros x Hx Hne.
      rewrite <-(lookup_delete_ne m id x) by done. by rewrite E. }
  destruct Hmx as [Hmx Hout].
  replace (seqZ (id + 1) (mx - (id + 1) + 1))
    with (seqZ (id + 1) (Z.of_nat (Z.to_nat (mx - (id + 1) + 1)))).
  2:{ destruct (decide (0 <= mx - (id + 1) + 1)); [f_equal; lia|].
      rewrite !seqZ_nil by lia. done. }
  rewrite shift_loop by lia.
  repeat case_decide; try lia; try done.
  - symmetry. apply Hout; lia.
  - rewrite !Hout by lia. done.
Qed.

(** *** Cleaning the name table *)

Lemma mark_used l n : Forall (fun id => 0 <= id < Z.of_nat n) l ->
  exists used, foldO (fun u id => vset u id true) l (replicate n false) = Ret used /\
    length used = n /\ forall j, 0 <= j < Z.of_nat n -> used !! Z.to_nat j = Some (bool_decide (j ∈ l)).
Proof.
  intros Hl.
  destruct (foldO_inv (fun u id => vset u id true)
    (fun d u => length u = n /\
       forall j, 0 <= j < Z.of_nat n -> u !! Z.to_nat j = Some (bool_decide (j ∈ d))) l
    (replicate n false)) as (u & Hu & HP).
  - rewrite replicate_length. split; [done|]. intros j Hj.
    by rewrite lookup_replicate_2 by lia.
  - intros d x r u E [Hlen Hu].
    assert (Hx : 0 <= x < Z.of_nat n).
    { rewrite Forall_forall in Hl. apply Hl. subst l. set_solver. }
    rewrite vset_Ret by lia. eexists. split; [done|]. rewrite insert_length. split; [done|].
    intros j Hj. destruct (decide (j = x)) as [->|Hne].
    + rewrite list_lookup_insert by lia. f_equal. symmetry. apply bool_decide_eq_true. set_solver.
    + rewrite list_lookup_insert_ne by lia. rewrite Hu by done. f_equal.
      apply bool_decide_ext. set_solver.
  - exists u. done.
Qed.

Section Clean.
  Context (used : list bool) (n : nat) (inn : Z -> Prop) (dec : forall j, Decision (inn j)).
  Hypothesis Hlen : length used = n.
  Hypothesis Hused : forall j, 0 <= j < Z.of_nat n -> used !! Z.to_nat j = Some (bool_decide (inn j)).

  Definition clean_inv (d : list (Z * bytes)) (st : nimap_t * list Z) : Prop :=
    (forall id, is_Some (st.1 !! id) <-> 0 <= id < Z.of_nat (size st.1)) /\
    (size st.1 <= length d)%nat /\
    (forall i j v, st.1 !! i = Some v -> st.1 !! j = Some v -> i = j) /\
    length st.2 = n /\
    (forall id v, (id, v) ∈ d -> inn id ->
       exists k, st.2 !! Z.to_nat id = Some k /\ st.1 !! k = Some v) /\
    (forall k v, st.1 !! k = Some v -> exists id, (id, v) ∈ d /\ inn id /\
       st.2 !! Z.to_nat id = Some k).

  Lemma clean_loop (l : list (Z * bytes)) :
    NoDup l.*1 -> Forall (fun e => 0 <= e.1 < Z.of_nat n) l -> Z.of_nat n < 65536 ->
    (length l <= n)%nat ->
    exists st, foldO (clean_step used) l (∅, replicate n 0) = Ret st /\ clean_inv l st.
  Proof.
    intros Hnd Hl Hn Hll. apply foldO_inv.
    - unfold clean_inv. simpl. rewrite replicate_length, map_size_empty. split_and!; try done.
      + intros id. rewrite lookup_empty. split; [by intros [? ?]|]. lia.
      + intros id v H. by apply elem_of_nil in H.
    - intros d [id v] r [nm tbl] E (Hdom & Hsz & Hinj & Htl & Hfwd & Hbwd). simpl in *.
      assert (Hid : 0 <= id < Z.of_nat n).
      { rewrite Forall_forall in Hl. apply (Hl (id, v)). subst l. set_solver. }
      assert (Hfresh : forall w, (id, w) ∉ d).
      { intros w Hw. subst l. rewrite fmap_app in Hnd. apply NoDup_app in Hnd as (_ & Hno & _).
        apply (Hno id); [|csimpl; set_solver]. apply elem_of_list_fmap. by exists (id, w). }
      assert (Hdn : (length d < n)%nat).
      { subst l. rewrite app_length in Hll. simpl in Hll. lia. }
      unfold clean_step. simpl. rewrite (vget_Ret used id (bool_decide (inn id))) by (auto; lia).
      simpl. destruct (bool_decide (inn id)) eqn:Eu; simpl.
      + apply bool_decide_eq_true in Eu.
        destruct (get_id nm v) as [f|] eqn:Eg.
        * apply get_id_Some in Eg as [Hf _]. rewrite vset_Ret by lia. simpl.
          eexists. split; [done|]. unfold clean_inv. simpl. rewrite insert_length, app_length.
          simpl. split_and!; try done; try lia.
          -- intros id' v' Hin Hi'. apply elem_of_app in Hin as [Hin|Hin].
             ++ destruct (Hfwd id' v' Hin Hi') as (k & Hk1 & Hk2). exists k. split; [|done].
                assert (id' <> id) by (intros ->; by apply (Hfresh v')).
                assert (0 <= id' < Z.of_nat n).
                { rewrite Forall_forall in Hl. apply (Hl (id', v')). subst l. set_solver. }
                rewrite list_lookup_insert_ne by lia. done.
             ++ apply elem_of_list_singleton in Hin. injection Hin as -> ->. exists f.
                rewrite list_lookup_insert by lia. done.
          -- intros k v' Hk. destruct (Hbwd k v' Hk) as (id' & Hin & Hi' & Ht).
             exists id'. split; [set_solver|]. split; [done|].
             assert (id' <> id) by (intros ->; by apply (Hfresh v')).
             assert (0 <= id' < Z.of_nat n).
             { rewrite Forall_forall in Hl. apply (Hl (id', v')). subst l. set_solver. }
             rewrite list_lookup_insert_ne by lia. done.
        * pose proof (proj1 (get_id_None _ _) Eg) as Hnone.
          rewrite (w16_id (Z.of_nat (size nm))) by (unfold u16_ok; lia).
          set (sz := Z.of_nat (size nm)) in *.
          assert (Hnew : nm !! sz = None).
          { destruct (nm !! sz) eqn:Es; [|done]. exfalso.
            assert (0 <= sz < sz) by (apply Hdom; by eexists). lia. }
          rewrite map_size_insert_None by done.
          replace (w16 (w16 (Z.of_nat (S (size nm))) - 1)) with sz.
          2:{ rewrite !w16_id; unfold u16_ok, w16; lia. }
          rewrite vset_Ret by lia. simpl.
          eexists. split; [done|]. unfold clean_inv. simpl.
          rewrite insert_length, app_length, map_size_insert_None by done. simpl.
          split_and!; try done; try lia.
          -- intros i. destruct (decide (i = sz)) as [->|Hi].
             ++ rewrite lookup_insert. split; [lia|]. by eexists.
             ++ rewrite lookup_insert_ne by done. rewrite Hdom. lia.
          -- intros i j w Hi Hj. apply lookup_insert_Some in Hi, Hj.
             destruct Hi as [[<- <-]|[Hi1 Hi2]], Hj as [[<- Hj]|[Hj1 Hj2]]; try done.
             ++ by apply Hnone in Hj2.
             ++ subst w. by apply Hnone in Hi2.
             ++ by eapply Hinj.
          -- intros id' v' Hin Hi'. apply elem_of_app in Hin as [Hin|Hin].
             ++ destruct (Hfwd id' v' Hin Hi') as (k & Hk1 & Hk2). exists k.
                assert (id' <> id) by (intros ->; by apply (Hfresh v')).
                assert (0 <= id' < Z.of_nat n).
                { rewrite Forall_forall in Hl. apply (Hl (id', v')). subst l. set_solver. }
                rewrite list_lookup_insert_ne by lia. split; [done|].
                rewrite lookup_insert_ne; [done|]. intros <-. congruence.
             ++ apply elem_of_list_singleton in Hin. injection Hin as -> ->. exists sz.
                rewrite list_lookup_insert, lookup_insert by lia. done.
          -- intros k v' Hk. apply lookup_insert_Some in Hk as [[<- <-]|[Hne Hk]].
             ++ exists id. split; [set_solver|]. split; [done|].
                by rewrite list_lookup_insert by lia.
             ++ destruct (Hbwd k v' Hk) as (id' & Hin & Hi' & Ht).
                exists id'. split; [set_solver|]. split; [done|].
                assert (id' <> id) by (intros ->; by apply (Hfresh v')).
                assert (0 <= id' < Z.of_nat n).
                { rewrite Forall_forall in Hl. apply (Hl (id', v')). subst l. set_solver. }
                rewrite list_lookup_insert_ne by lia. done.
      + apply bool_decide_eq_false in Eu. eexists. split; [done|]. unfold clean_inv. simpl.
        rewrite app_length. simpl. split_and!; try done; try lia.
        * intros id' v' Hin Hi'. apply elem_of_app in Hin as [Hin|Hin]; [by apply Hfwd|].
          apply elem_of_list_singleton in Hin. injection Hin as -> ->. done.
        * intros k v' Hk. destruct (Hbwd k v' Hk) as (id' & Hin & Hi' & Ht).
          exists id'. split; [set_solver|]. done.
  Qed.
End Clean.

Lemma NoDup_bounded (l : list Z) n : NoDup l -> Forall (fun x => 0 <= x < Z.of_nat n) l ->
  (length l <= n)%nat.
Proof.
  intros Hn Hl. transitivity (length (seqZ 0 (Z.of_nat n))).
  - apply submseteq_length. apply NoDup_submseteq; [done|]. intros x Hx.
    rewrite Forall_forall in Hl. apply elem_of_seqZ. apply Hl in Hx. lia.
  - rewrite seqZ_length. lia.
Qed.

Lemma sorted_list_Forall {V} (P : Z -> V -> Prop) (m : gmap Z V) :
  map_Forall P m -> Forall (fun e => P e.1 e.2) (sorted_list m).
Proof.
  intros H. apply Forall_forall. intros [k v] Hk%elem_of_sorted_list. by apply H.
Qed.

Lemma named_ids b : ids_upto 65534 (nimap b) -> named b -> nodes (ndata b) <> [] ->
  exists mx, get_max_id (nimap b) = Some mx /\ 0 <= mx <= 65534 /\
    map_Forall (fun id _ => 0 <= id < Z.of_nat (Z.to_nat (mx + 1))) (nimap b) /\
    Forall (fun id => 0 <= id < Z.of_nat (Z.to_nat (mx + 1))) (nodes (ndata b)).
Proof.
  intros Hup Hnm Hne. destruct (get_max_id (nimap b)) as [mx|] eqn:E.
  - exists mx. apply max_key_Some in E as [[v Hv] Hmax].
    pose proof (Hup _ _ Hv) as Hb. simpl in Hb. split; [done|]. split; [lia|].
    assert (Hall : map_Forall (fun id _ => 0 <= id < Z.of_nat (Z.to_nat (mx + 1))) (nimap b)).
    { intros id w Hid. pose proof (Hup _ _ Hid) as H1. simpl in H1.
      specialize (Hmax id ltac:(by eexists)). lia. }
    split; [done|]. apply Forall_forall. intros id Hid. apply Hnm in Hid as [w Hw].
    by apply Hall in Hw.
  - apply max_key_None in E. exfalso. destruct (nodes (ndata b)) as [|x l] eqn:El; [done|].
    destruct (Hnm x) as [v Hv]; [rewrite El; set_solver|]. rewrite E in Hv. done.
Qed.

Lemma clean_ok b : named b -> nodes (ndata b) <> [] -> ids_upto 65534 (nimap b) ->
  exists ns nm, clean_name_id_map b
      = Ret (with_nodes b (ND ns (param1 (ndata b)) (param2 (ndata b))) nm) /\
    length ns = length (nodes (ndata b)) /\
    (forall i, (ns !! i ≫= fun id => nm !! id)
       = (nodes (ndata b) !! i ≫= fun id => nimap b !! id)) /\
    (forall id, is_Some (nm !! id) <-> 0 <= id < Z.of_nat (size nm)) /\
    (forall id, is_Some (nm !! id) <-> id ∈ ns) /\
    (forall i j n, nm !! i = Some n -> nm !! j = Some n -> i = j) /\
    (forall id n, nm !! id = Some n -> exists i, nodes (ndata b) !! i ≫= (fun k => nimap b !! k) = Some n).
Proof.
  intros Hnm Hne Hup. destruct (named_ids b Hup Hnm Hne) as (mx & Emx & Hmx & Hkeys & Hnodes).
  unfold clean_name_id_map. rewrite Emx. cbn [unwrap bindO].
  rewrite w16_id by (unfold u16_ok; lia).
  set (n := Z.to_nat (mx + 1)) in *. assert (Hn : Z.of_nat n < 65536) by lia.
  clearbody n.
  destruct (mark_used (nodes (ndata b)) n Hnodes) as (used & Hu & Hlen & Hused).
  rewrite Hu. cbn [bindO].
  destruct (clean_loop used n (fun j => j ∈ nodes (ndata b)) _ Hlen Hused (sorted_list (nimap b)))
    as ([nm tbl] & Hst & Hinv).
  - apply sorted_list_NoDup.
  - by apply sorted_list_Forall in Hkeys.
  - done.
  - rewrite <-(fmap_length fst). apply NoDup_bounded; [apply sorted_list_NoDup|].
    apply Forall_fmap. apply sorted_list_Forall in Hkeys. done.
  - rewrite Hst. cbn [bindO]. destruct Hinv as (Hdom & _ & Hinj & Htl & Hfwd & Hbwd). cbn [fst snd] in *.
    rewrite (mapO_Ret _ (fun id => default 0 (tbl !! Z.to_nat id))).
    2:{ intros id Hid. destruct (Hnm id Hid) as [v Hv].
        destruct (Hfwd id v ltac:(by apply elem_of_sorted_list) Hid) as (k & Hk & _).
        rewrite (vget_Ret tbl id k); [by rewrite Hk| |done].
        rewrite Forall_forall in Hnodes. apply Hnodes in Hid. lia. }
    cbn [bindO]. eexists _, nm. split; [done|].
    assert (Hname : forall i, ((fun id : Z => default 0 (tbl !! Z.to_nat id)) <$> nodes (ndata b)) !! i
        ≫= (fun id => nm !! id) = (nodes (ndata b) !! i ≫= fun id => nimap b !! id)).
    { intros i. rewrite list_lookup_fmap. destruct (nodes (ndata b) !! i) as [id|] eqn:Ei; simpl; [|done].
      assert (Hid : id ∈ nodes (ndata b)) by (by eapply elem_of_list_lookup_2).
      destruct (Hnm id Hid) as [v Hv].
      destruct (Hfwd id v ltac:(by apply elem_of_sorted_list) Hid) as (k & Hk & Hk2).
      rewrite Hk. simpl. by rewrite Hv. }
    split_and!; try done.
    + by rewrite fmap_length.
    + intros id. split.
      * intros [v Hv]. destruct (Hbwd id v Hv) as (id' & _ & Hin & Ht).
        apply elem_of_list_fmap. exists id'. split; [by rewrite Ht|done].
      * intros Hin. apply elem_of_list_fmap in Hin as (id' & -> & Hid').
        destruct (Hnm id' Hid') as [v Hv].
        destruct (Hfwd id' v ltac:(by apply elem_of_sorted_list) Hid') as (k & Hk & Hk2).
        rewrite Hk. simpl. by eexists.
    + intros id v Hv. destruct (Hbwd id v Hv) as (id' & Hl & Hin & Ht).
      apply elem_of_list_lookup in Hin as [i Hi]. exists i. rewrite Hi. simpl.
      by apply elem_of_sorted_list.
Qed.

(** A tidy block is left as it is. *)
Lemma sorted_keys_tidy {V} (m : gmap Z V) :
  (forall id, is_Some (m !! id) <-> 0 <= id < Z.of_nat (size m)) ->
  (sorted_list m).*1 = seqZ 0 (Z.of_nat (size m)).
Proof.
  intros H. apply (StronglySorted_unique Z.le).
  - pose proof (sorted_list_lt m) as Hs. induction Hs as [|x l Hl IH Hx]; [constructor|].
    csimpl. constructor; [done|]. apply Forall_fmap. eapply Forall_impl; [exact Hx|].
    intros y. unfold key_lt. simpl. lia.
  - pose proof (zrange_sorted 0 (Z.of_nat (size m) - 1)) as Hz. unfold zrange in Hz.
    replace (Z.of_nat (size m) - 1 - 0 + 1) with (Z.of_nat (size m)) in Hz by lia.
    induction Hz as [|x l Hl IH Hx]; constructor; [done|].
    eapply Forall_impl; [exact Hx|]. simpl. lia.
  - apply NoDup_Permutation; [apply sorted_list_NoDup|apply NoDup_seqZ|].
    intros x. rewrite elem_of_seqZ. rewrite elem_of_list_fmap. specialize (H x). split.
    + intros ([k v] & -> & Hin%elem_of_sorted_list). simpl. 
      assert (0 <= k < Z.of_nat (size m)) by (apply H; by eexists). lia.
    + intros Hx. destruct (proj2 H ltac:(lia)) as [v Hv]. exists (x, v).
      split; [done|]. by apply elem_of_sorted_list.
Qed.

Lemma clean_tidy b : named b -> nodes (ndata b) <> [] -> ids_upto 65534 (nimap b) -> tidy b ->
  clean_name_id_map b = Ret b.
Proof.
  intros Hnm Hne Hup (Hdom & Hall & Hinj).
  destruct (named_ids b Hup Hnm Hne) as (mx & Emx & Hmx & Hkeys & Hnodes).
  unfold clean_name_id_map. rewrite Emx. cbn [unwrap bindO].
  rewrite w16_id by (unfold u16_ok; lia).
  assert (Hsz : mx + 1 = Z.of_nat (size (nimap b))).
  { apply max_key_Some in Emx as [Hm1 Hm2]. apply Hdom in Hm1.
    destruct (decide (mx + 1 = Z.of_nat (size (nimap b)))); [done|].
    assert (mx + 1 <= mx); [|lia]. apply Hm2. apply Hdom. lia. }
  rewrite Hsz. rewrite Hsz in Hkeys, Hnodes. rewrite Nat2Z.id in *.
  set (n := size (nimap b)) in *. assert (Hn : Z.of_nat n < 65536) by lia.
  destruct (mark_used (nodes (ndata b)) n Hnodes) as (used & Hu & Hlen & Hused).
  rewrite Hu. cbn [bindO].
  pose proof (sorted_keys_tidy (nimap b) Hdom) as Hk. fold n in Hk.
  destruct (foldO_inv (clean_step used)
    (fun d (st : nimap_t * list Z) => length st.2 = n /\ size st.1 = length d /\
      (forall k, st.1 !! k = if decide (k < Z.of_nat (length d)) then nimap b !! k else None) /\
      (forall k : nat, (k < length d)%nat -> st.2 !! k = Some (Z.of_nat k)))
    (sorted_list (nimap b)) (∅, replicate n 0)) as ([nm tbl] & Hst & Htl & Hsz' & Hnm' & Htbl).
  - simpl. rewrite replicate_length, map_size_empty. split_and!; try done; [|intros; lia].
    intros k. rewrite lookup_empty. case_decide; [|done]. symmetry.
    destruct (nimap b !! k) eqn:E; [|done]. exfalso.
    assert (0 <= k < Z.of_nat n) by (apply Hdom; by eexists). lia.
  - intros d [id v] r [nm tbl] E (Htl & Hs & Hl & Ht). simpl in *.
    assert (Hid : id = Z.of_nat (length d) /\ (length d < n)%nat).
    { rewrite E in Hk. rewrite fmap_app in Hk. csimpl in Hk.
      assert (Hi : (d.*1 ++ id :: r.*1) !! length d = Some id).
      { rewrite lookup_app_r by (rewrite fmap_length; lia). by rewrite fmap_length, Nat.sub_diag. }
      rewrite Hk in Hi. apply lookup_seqZ in Hi as [-> Hi]. lia. }
    destruct Hid as [-> Hd]. set (k := length d) in *.
    assert (Hv : nimap b !! Z.of_nat k = Some v).
    { apply elem_of_sorted_list. rewrite E. set_solver. }
    unfold clean_step. simpl.
    rewrite (vget_Ret used (Z.of_nat k) true).
    2: lia.
    2:{ rewrite Hused by lia. f_equal. apply bool_decide_eq_true. apply Hall. by eexists. }
    simpl.
    assert (Hg : get_id nm v = None).
    { apply get_id_None. intros j Hj. rewrite Hl in Hj. case_decide; [|done].
      assert (j = Z.of_nat k) by (by eapply Hinj). lia. }
    rewrite Hg.
    assert (Hnone : nm !! Z.of_nat k = None).
    { rewrite Hl. case_decide; [lia|done]. }
    rewrite Hs. fold k. rewrite (w16_id (Z.of_nat k)) by (unfold u16_ok; lia).
    rewrite map_size_insert_None by done. rewrite Hs. fold k.
    replace (w16 (w16 (Z.of_nat (S k)) - 1)) with (Z.of_nat k).
    2:{ rewrite !w16_id; unfold u16_ok, w16; lia. }
    rewrite vset_Ret by lia. simpl. eexists. split; [done|]. simpl.
    rewrite insert_length, app_length, map_size_insert_None by done. simpl.
    split_and!; try lia.
    + intros j. destruct (decide (j = Z.of_nat k)) as [->|Hj].
      * rewrite lookup_insert. case_decide; [done|lia].
      * rewrite lookup_insert_ne by done. rewrite Hl. fold k. repeat case_decide; try lia; done.
    + intros j Hj. rewrite Nat2Z.id. destruct (decide (j = k)) as [->|Hne'].
      * by rewrite list_lookup_insert by lia.
      * rewrite list_lookup_insert_ne by done. apply Ht. lia.
  - rewrite Hst. cbn [bindO fst snd] in *. rewrite sorted_list_length in Hsz', Hnm', Htbl. fold n in Hsz', Hnm', Htbl.
    rewrite (mapO_Ret _ id).
    2:{ intros id Hid. rewrite Forall_forall in Hnodes. apply Hnodes in Hid.
        apply vget_Ret; [lia|]. rewrite Htbl by lia. simpl. f_equal. lia. }
    rewrite list_fmap_id. cbn [bindO].
    assert (nm = nimap b) as ->.
    { apply map_eq. intros k. rewrite Hnm'. case_decide; [done|]. symmetry.
      destruct (nimap b !! k) eqn:E; [|done]. exfalso.
      assert (0 <= k < Z.of_nat n) by (apply Hdom; by eexists). lia. }
    destruct b as [? ? ? ? ? [] ? ? ? ? ?]. done.
Qed.

(** *** Copying boxes *)

Lemma box_ok_corners a : box_ok a <-> nonempty a /\
  (0 <= vx (amin a) /\ 0 <= vy (amin a) /\ 0 <= vz (amin a)) /\
  (vx (amax a) < 16 /\ vy (amax a) < 16 /\ vz (amax a) < 16).
Proof.
  unfold box_ok. split.
  - intros [Hne H]. split; [done|]. pose proof (H (amin a)) as H1. pose proof (H (amax a)) as H2.
    unfold inside, nonempty in *. lia.
  - intros (Hne & H1 & H2). split; [done|]. intros p. unfold inside. lia.
Qed.

Lemma box_ok_cube a p : box_ok a -> inside a p -> in_cube p.
Proof. intros [_ H] Hp. apply H in Hp. unfold in_cube. lia. Qed.

Lemma parts_valid a b : box_ok a -> box_ok b -> same_size a b -> block_parts_valid a b = true.
Proof.
  rewrite !box_ok_corners. intros (Ha & Ha1 & Ha2) (Hb & Hb1 & Hb2) Hs.
  unfold block_parts_valid, part_valid. unfold nonempty in *.
  unfold same_size, Spec.minus in Hs. injection Hs as Hx Hy Hz.
  rewrite bool_decide_eq_true_2.
  - lia.
  - unfold vsub. congruence.
Qed.

Definition diff_of (sa da : area) : Z := pos_idx (amin da) - pos_idx (amin sa).

Lemma idx_diff_eq sa da : box_ok sa -> box_ok da -> idx_diff sa da = diff_of sa da.
Proof.
  rewrite !box_ok_corners. unfold nonempty. intros Ha Hb. unfold idx_diff, diff_of, pos_idx, vsub. simpl.
  rewrite !(w32_id (_ - _)) by (unfold i32_ok; lia).
  rewrite !(w32_id (_ * _)) by (unfold i32_ok; lia).
  rewrite (w32_id (_ - _ + _ * 16)) by (unfold i32_ok; lia).
  rewrite !w32_id by (unfold i32_ok; lia). lia.
Qed.

Lemma box_shift sa da j : box_ok sa -> box_ok da -> same_size sa da ->
  (exists p, inside sa p /\ j - diff_of sa da = pos_idx p) <->
  (0 <= j < 4096 /\ inside da (idx_pos j)).
Proof.
  intros Hs Hd Hz. unfold diff_of. split.
  - intros (p & Hp & E).
    assert (Hq : inside da (Spec.plus (amin da) (Spec.minus p (amin sa)))).
    { unfold same_size, Spec.minus in Hz. injection Hz as Hx Hy Hzz.
      unfold inside, Spec.plus, Spec.minus in *. simpl. lia. }
    assert (j = pos_idx (Spec.plus (amin da) (Spec.minus p (amin sa)))) as ->.
    { unfold pos_idx, Spec.plus, Spec.minus in *. simpl. lia. }
    pose proof (box_ok_cube _ _ Hd Hq) as Hc. split; [by apply pos_idx_range|].
    by rewrite idx_pos_idx.
  - intros [Hj Hin]. exists (Spec.plus (amin sa) (Spec.minus (idx_pos j) (amin da))). split.
    + unfold same_size, Spec.minus in Hz. injection Hz as Hx Hy Hzz.
      unfold inside, Spec.plus, Spec.minus in *. simpl. simpl in Hin. lia.
    + pose proof (pos_idx_pos j ltac:(lia)) as E.
      unfold pos_idx, Spec.plus, Spec.minus in *. cbn [vx vy vz] in *. lia.
Qed.

Lemma matching_eq sa da j : 0 <= j -> j - diff_of sa da = matching sa da (idx_pos j).
Proof.
  intros Hj. unfold diff_of, matching. pose proof (pos_idx_pos j Hj) as E.
  unfold pos_idx, Spec.plus, Spec.minus in *. cbn [vx vy vz] in *. lia.
Qed.

Lemma elem_of_area_idx a i : i ∈ area_idx a <-> exists p, inside a p /\ i = pos_idx p.
Proof.
  unfold area_idx. rewrite elem_of_list_bind. split.
  - intros (z & Hz & Hzr%elem_of_zrange). apply elem_of_list_bind in Hz as (y & Hy & Hyr%elem_of_zrange).
    apply elem_of_list_bind in Hy as (x & Hx & Hxr%elem_of_zrange).
    apply elem_of_list_singleton in Hx. exists (V3 x y z). unfold inside, pos_idx. simpl.
    split; [lia|]. lia.
  - intros ([x y z] & Hin & ->). unfold inside, pos_idx in *. simpl in *.
    exists z. rewrite elem_of_zrange. split; [|lia].
    apply elem_of_list_bind. exists y. rewrite elem_of_zrange. split; [|lia].
    apply elem_of_list_bind. exists x. rewrite elem_of_zrange. split; [|lia].
    apply elem_of_list_singleton. lia.
Qed.

Lemma elem_of_area_rows a i : (exists r, r ∈ area_rows a /\ r.1 <= i <= r.2) <->
  exists p, inside a p /\ i = pos_idx p.
Proof.
  unfold area_rows. split.
  - intros (r & Hr & Hi). apply elem_of_list_bind in Hr as (z & Hz & Hzr%elem_of_zrange).
    apply elem_of_list_bind in Hz as (y & Hy & Hyr%elem_of_zrange).
    apply elem_of_list_singleton in Hy. subst r. simpl in Hi.
    exists (V3 (i - (y * 16 + z * 256)) y z). unfold inside, pos_idx. simpl. lia.
  - intros ([x y z] & Hin & ->). unfold inside, pos_idx in *. simpl in *.
    exists (y * 16 + z * 256 + vx (amin a), y * 16 + z * 256 + vx (amax a)). simpl. split; [|lia].
    apply elem_of_list_bind. exists z. rewrite elem_of_zrange. split; [|lia].
    apply elem_of_list_bind. exists y. rewrite elem_of_zrange. split; [|lia].
    by apply elem_of_list_singleton.
Qed.

Lemma set_loop (f : Z -> Z) (src dst : list Z) diff l :
  (forall i, i ∈ l -> 0 <= i < Z.of_nat (length src) /\ 0 <= i + diff < Z.of_nat (length dst)) ->
  exists ns, foldO (fun acc idx => let* id := vget src idx in vset acc (idx + diff) (f id)) l dst = Ret ns /\
    length ns = length dst /\
    forall j, 0 <= j -> ns !! Z.to_nat j =
      if decide (j - diff ∈ l) then f <$> src !! Z.to_nat (j - diff) else dst !! Z.to_nat j.
Proof.
  intros Hl. set (P := fun (d : list Z) (ns : list Z) => length ns = length dst /\
    forall j, 0 <= j -> ns !! Z.to_nat j =
      if decide (j - diff ∈ d) then f <$> src !! Z.to_nat (j - diff) else dst !! Z.to_nat j).
  apply (foldO_inv _ P); unfold P; clear P.
  - split; [done|]. intros j Hj. destruct (decide _) as [H|]; [by apply elem_of_nil in H|done].
  - intros d x r ns E [Hlen Hns]. destruct (Hl x) as [Hx1 Hx2]; [rewrite E; set_solver|].
    destruct (src !! Z.to_nat x) as [v|] eqn:Ev.
    2:{ apply lookup_ge_None in Ev. lia. }
    rewrite (vget_Ret src x v) by (done || lia). cbn [bindO]. rewrite vset_Ret by lia.
    eexists. split; [done|]. rewrite insert_length. split; [done|]. intros j Hj.
    destruct (decide (j = x + diff)) as [->|Hne].
    + rewrite list_lookup_insert by lia. replace (x + diff - diff) with x by lia.
      rewrite decide_True by set_solver. by rewrite Ev.
    + rewrite list_lookup_insert_ne by lia. rewrite Hns by done.
      destruct (decide (j - diff ∈ d)).
      * rewrite decide_True by set_solver. done.
      * rewrite decide_False; [done|]. rewrite elem_of_app, elem_of_list_singleton. intros []; [done|lia].
Qed.

Lemma copy_row_spec (src dst : bytes) s e d : 0 <= s -> 0 <= d -> s <= e + 1 ->
  e < Z.of_nat (length src) -> d + (e - s + 1) <= Z.of_nat (length dst) ->
  exists r, copy_row src s e d dst = Ret r /\ length r = length dst /\
    forall j, 0 <= j -> r !! Z.to_nat j =
      if decide (d <= j < d + (e - s + 1)) then src !! Z.to_nat (s + (j - d)) else dst !! Z.to_nat j.
Proof.
  intros Hs Hd Hse He Hde. unfold copy_row.
  destruct (_ || _ || _ || _ || _) eqn:E; [lia|]. clear E. eexists. split; [done|].
  assert (L1 : length (take (Z.to_nat d) dst) = Z.to_nat d) by (rewrite take_length; lia).
  assert (L2 : length (take (Z.to_nat (e - s + 1)) (drop (Z.to_nat s) src)) = Z.to_nat (e - s + 1)).
  { rewrite take_length, drop_length. lia. }
  split.
  - rewrite !app_length, L1, L2, drop_length. lia.
  - intros j Hj. case_decide.
    + rewrite lookup_app_r by lia. rewrite L1. rewrite lookup_app_l by lia.
      rewrite lookup_take by lia. rewrite lookup_drop. f_equal. lia.
    + destruct (decide (j < d)).
      * rewrite lookup_app_l by lia. by rewrite lookup_take by lia.
      * rewrite lookup_app_r by lia. rewrite L1. rewrite lookup_app_r by lia. rewrite L2.
        rewrite lookup_drop. f_equal. lia.
Qed.

Definition covered (l : list (Z * Z)) (i : Z) : Prop := exists r, r ∈ l /\ r.1 <= i <= r.2.
Global Instance covered_dec l i : Decision (covered l i).
Proof.
  destruct (decide (Exists (fun r : Z * Z => r.1 <= i <= r.2) l)) as [H|H]; [left|right].
  - apply Exists_exists in H as (r & ? & ?). by exists r.
  - intros (r & ? & ?). apply H. apply Exists_exists. by exists r.
Defined.

Lemma rows_loop (src dst : bytes) diff l :
  (forall r, r ∈ l -> 0 <= r.1 <= r.2 /\ r.2 < Z.of_nat (length src) /\
    0 <= r.1 + diff /\ r.2 + diff < Z.of_nat (length dst)) ->
  exists ns, copy_rows src l diff dst = Ret ns /\ length ns = length dst /\
    forall j, 0 <= j -> ns !! Z.to_nat j =
      if decide (covered l (j - diff)) then src !! Z.to_nat (j - diff) else dst !! Z.to_nat j.
Proof.
  intros Hl. unfold copy_rows.
  set (P := fun (d : list (Z * Z)) (ns : bytes) => length ns = length dst /\
    forall j, 0 <= j -> ns !! Z.to_nat j =
      if decide (covered d (j - diff)) then src !! Z.to_nat (j - diff) else dst !! Z.to_nat j).
  apply (foldO_inv _ P); unfold P; clear P.
  - split; [done|]. intros j Hj. rewrite decide_False; [done|]. intros (r & Hr & _).
    by apply elem_of_nil in Hr.
  - intros d [s e] r ns E [Hlen Hns]. destruct (Hl (s, e)) as (H1 & H2 & H3 & H4); [rewrite E; set_solver|].
    cbn [fst snd] in *.
    destruct (copy_row_spec src ns s e (s + diff)) as (r' & Hr & Hr1 & Hr2); try lia.
    exists r'. split; [done|]. split; [congruence|]. intros j Hj. rewrite Hr2 by done.
    case_decide as Hc.
    + rewrite decide_True. { f_equal. lia. }
      exists (s, e). split; [set_solver|]. simpl. lia.
    + rewrite Hns by done. destruct (decide (covered d (j - diff))) as [Hd|Hd].
      * rewrite decide_True; [done|]. destruct Hd as (r0 & ? & ?). exists r0. split; [set_solver|done].
      * rewrite decide_False; [done|]. intros (r0 & Hin & Hr0).
        apply elem_of_app in Hin as [Hin|Hin]; [apply Hd; by exists r0|].
        apply elem_of_list_singleton in Hin. subst r0. simpl in Hr0. lia.
Qed.

(** Merging name tables *)
Lemma nimap_shift (src dst : nimap_t) nd : 0 <= nd ->
  ids_upto (nd - 1) dst -> ids_upto (65535 - nd) src ->
  let nm := foldl (fun m e => <[w16 (e.1 + nd) := e.2]> m) dst (sorted_list src) in
  (forall id, id < nd -> nm !! id = dst !! id) /\
  (forall id, nd <= id -> nm !! id = src !! (id - nd)).
Proof.
  intros Hnd Hd Hs.
  assert (H : forall l, NoDup l.*1 -> Forall (fun e => 0 <= e.1 <= 65535 - nd) l ->
    forall id, foldl (fun (m : nimap_t) e => <[w16 (e.1 + nd) := e.2]> m) dst l !! id =
      (if decide (id < nd) then dst !! id else
        match (list_to_map l : nimap_t) !! (id - nd) with Some v => Some v | None => dst !! id end)).
  { intros l. induction l as [|[k v] l IH] using rev_ind; intros Hn Hl id.
    - simpl. case_decide; [done|]. by rewrite lookup_empty.
    - rewrite foldl_app. cbn [foldl fst snd].
      apply Forall_app in Hl as [Hl1 Hl2]. inversion Hl2 as [|? ? Hk]; subst. simpl in Hk.
      rewrite fmap_app in Hn. apply NoDup_app in Hn as (Hn1 & Hn2 & _).
      rewrite w16_id by (unfold u16_ok; lia).
      destruct (decide (id = k + nd)) as [->|Hne].
      + rewrite lookup_insert. rewrite decide_False by lia.
        replace (k + nd - nd) with k by lia.
        rewrite list_to_map_app. rewrite lookup_union_r.
        * simpl. by rewrite lookup_insert.
        * apply not_elem_of_list_to_map. intros Hin. apply (Hn2 k Hin). csimpl. set_solver.
      + rewrite lookup_insert_ne by done. rewrite IH by done. case_decide; [done|].
        rewrite list_to_map_app. simpl. rewrite insert_empty.
        destruct ((list_to_map l : nimap_t) !! (id - nd)) as [w|] eqn:E.
        * by rewrite (lookup_union_Some_l _ _ _ _ E).
        * rewrite lookup_union_r by done. rewrite lookup_singleton_ne by lia. done. }
  simpl. pose proof (H (sorted_list src) (sorted_list_NoDup src)) as H1.
  specialize (H1 ltac:(by apply sorted_list_Forall in Hs)). split; intros id Hid; rewrite H1.
  - by rewrite decide_True.
  - rewrite decide_False by lia.
    assert (list_to_map (sorted_list src) = src) as ->.
    { rewrite <-insert_all_NoDup by apply sorted_list_NoDup. apply insert_all_sorted. }
    destruct (src !! (id - nd)); [done|]. destruct (dst !! id) eqn:E; [|done].
    apply Hd in E. simpl in E. lia.
Qed.

Lemma get_max_id_ex b kd : ids_upto kd (nimap b) -> named b -> nodes (ndata b) <> [] ->
  exists mx, get_max_id (nimap b) = Some mx /\ 0 <= mx <= kd /\ ids_upto mx (nimap b).
Proof.
  intros Hup Hnm Hne. destruct (get_max_id (nimap b)) as [mx|] eqn:E.
  - exists mx. apply max_key_Some in E as [[v Hv] Hmax].
    pose proof (Hup _ _ Hv) as Hb. simpl in Hb. split; [done|]. split; [lia|].
    intros id w Hid. pose proof (Hup _ _ Hid) as H1. simpl in H1.
    specialize (Hmax id ltac:(by eexists)). lia.
  - apply max_key_None in E. exfalso. destruct (nodes (ndata b)) as [|x l] eqn:El; [done|].
    destruct (Hnm x) as [v Hv]; [rewrite El; set_solver|]. rewrite E in Hv. done.
Qed.


Lemma lens_nonempty b : node_lens b -> nodes (ndata b) <> [].
Proof. intros (H & _) E. rewrite E in H. simpl in H. lia. Qed.

Lemma lookup_4096 {A} (l : list A) i : Z.of_nat (length l) = 4096 -> 0 <= i < 4096 ->
  exists x, l !! Z.to_nat i = Some x.
Proof.
  intros Hl Hi. destruct (l !! Z.to_nat i) as [x|] eqn:E; [by exists x|].
  apply lookup_ge_None in E. lia.
Qed.

Lemma merge_ok src dst sa da ks kd :
  box_ok sa -> box_ok da -> same_size sa da -> node_lens src -> node_lens dst ->
  named src -> named dst -> ids_upto ks (nimap src) -> ids_upto kd (nimap dst) ->
  ks + kd + 1 <= 65535 ->
  exists ns p1 p2 nm, let b' := with_nodes dst (ND ns p1 p2) nm in
    merge_blocks src dst sa da = Ret b' /\ node_lens b' /\ named b' /\
    ids_upto (ks + kd + 1) nm /\
    (forall id n, nm !! id = Some n -> (exists k, nimap src !! k = Some n) \/
                                       (exists k, nimap dst !! k = Some n)) /\
    forall i, 0 <= i < 4096 ->
      if decide (inside da (idx_pos i)) then
        node_name b' i = node_name src (matching sa da (idx_pos i)) /\
        node_param1 b' i = node_param1 src (matching sa da (idx_pos i)) /\
        node_param2 b' i = node_param2 src (matching sa da (idx_pos i))
      else node_name b' i = node_name dst i /\ node_param1 b' i = node_param1 dst i /\
           node_param2 b' i = node_param2 dst i.
Proof.
  intros Hsa Hda Hsz Hls Hld Hns Hnd Hks Hkd Hk.
  destruct (get_max_id_ex dst kd Hkd Hnd (lens_nonempty _ Hld)) as (mx & Emx & Hmx & Hmxu).
  destruct (get_max_id_ex src ks Hks Hns (lens_nonempty _ Hls)) as (ms & Ems & Hms & Hmsu).
  unfold merge_blocks. rewrite parts_valid by done. cbn [negb]. rewrite Emx. cbn [unwrap bindO].
  rewrite idx_diff_eq by done. rewrite w16_id by (unfold u16_ok; lia).
  set (nd := mx + 1). set (diff := diff_of sa da).
  destruct (nimap_shift (nimap src) (nimap dst) nd) as [Hlo Hhi]; [lia| | |].
  { replace (nd - 1) with mx by lia. done. }
  { intros id v Hid. apply Hmsu in Hid. simpl in Hid. lia. }
  set (nm := foldl _ (nimap dst) _) in *. clearbody nm. 
  assert (Hpos : forall j, (exists p, inside sa p /\ j - diff = pos_idx p) ->
    0 <= j - diff < 4096 /\ 0 <= j < 4096).
  { intros j Hj. pose proof Hj as (p & Hp & E). split.
    - rewrite E. apply pos_idx_range. exact (box_ok_cube _ _ Hsa Hp).
    - apply box_shift in Hj; try done. lia. }
  destruct Hls as (Ls0 & Ls1 & Ls2), Hld as (Ld0 & Ld1 & Ld2).
  destruct (set_loop (fun id => w16 (id + nd)) (nodes (ndata src)) (nodes (ndata dst)) diff
    (area_idx sa)) as (ns & Ens & Lns & Hnsl).
  { intros i Hi. rewrite Ls0, Ld0. apply elem_of_area_idx in Hi as (p & Hp & E).
    destruct (Hpos (i + diff)) as [H1 H2]; [exists p; split; [done|lia]|]. lia. }
  rewrite Ens. cbn [bindO].
  assert (Hrows : forall r, r ∈ area_rows sa -> 0 <= r.1 <= r.2 /\ r.2 < 4096 /\
    0 <= r.1 + diff /\ r.2 + diff < 4096).
  { intros r Hr. 
    assert (Hle : r.1 <= r.2).
    { unfold area_rows in Hr. apply elem_of_list_bind in Hr as (z & Hz & _).
      apply elem_of_list_bind in Hz as (y & Hy & _).
      apply elem_of_list_singleton in Hy. subst r. simpl. destruct Hsa as [Hne _].
      unfold nonempty in Hne. lia. }
    assert (H1 : exists p, inside sa p /\ r.1 = pos_idx p)
      by (apply elem_of_area_rows; exists r; split; [done|lia]).
    assert (H2 : exists p, inside sa p /\ r.2 = pos_idx p)
      by (apply elem_of_area_rows; exists r; split; [done|lia]).
    destruct (Hpos (r.1 + diff)). { replace (r.1 + diff - diff) with r.1 by lia. done. }
    destruct (Hpos (r.2 + diff)). { replace (r.2 + diff - diff) with r.2 by lia. done. }
    lia. }
  destruct (rows_loop (param1 (ndata src)) (param1 (ndata dst)) diff (area_rows sa))
    as (p1 & Ep1 & Lp1 & Hp1).
  { intros r Hr. apply Hrows in Hr. rewrite Ls1, Ld1. lia. }
  destruct (rows_loop (param2 (ndata src)) (param2 (ndata dst)) diff (area_rows sa))
    as (p2 & Ep2 & Lp2 & Hp2).
  { intros r Hr. apply Hrows in Hr. rewrite Ls2, Ld2. lia. }
  rewrite Ep1. cbn [bindO]. rewrite Ep2. cbn [bindO].
  exists ns, p1, p2, nm. cbn zeta.
  assert (Hcore : forall i, 0 <= i < 4096 ->
      if decide (inside da (idx_pos i)) then
        (ns !! Z.to_nat i ≫= fun id => nm !! id) = node_name src (matching sa da (idx_pos i)) /\
        p1 !! Z.to_nat i = node_param1 src (matching sa da (idx_pos i)) /\
        p2 !! Z.to_nat i = node_param2 src (matching sa da (idx_pos i))
      else (ns !! Z.to_nat i ≫= fun id => nm !! id) = node_name dst i /\
        p1 !! Z.to_nat i = node_param1 dst i /\ p2 !! Z.to_nat i = node_param2 dst i).
  { intros i Hi. rewrite Hnsl, Hp1, Hp2 by lia.
    pose proof (box_shift sa da i Hsa Hda Hsz) as Hbs. fold diff in Hbs.
    case_decide as Hin.
    - assert (Hex : exists p, inside sa p /\ i - diff = pos_idx p) by (by apply Hbs).
      rewrite !decide_True by (first [by apply elem_of_area_idx | by apply elem_of_area_rows]).
      unfold diff. rewrite matching_eq by lia. rewrite <-matching_eq by lia. fold diff.
      split; [|done]. unfold node_name.
      destruct (Hpos i Hex) as [Hr _].
      destruct (lookup_4096 _ _ Ls0 Hr) as [id Hid]. rewrite Hid. simpl.
      destruct (Hns id) as [v Hv]; [by eapply elem_of_list_lookup_2|].
      pose proof (Hmsu _ _ Hv) as Hb. simpl in Hb.
      rewrite w16_id by (unfold u16_ok; lia). rewrite Hhi by lia. f_equal. lia.
    - assert (Hex : ~ exists p, inside sa p /\ i - diff = pos_idx p).
      { intros He. apply Hbs in He as [_ He]. done. }
      rewrite !decide_False by (first [by rewrite elem_of_area_idx
        | intros Hcov; by apply elem_of_area_rows in Hcov]).
      split; [|done]. unfold node_name.
      destruct (lookup_4096 _ _ Ld0 Hi) as [id Hid]. rewrite Hid. simpl.
      destruct (Hnd id) as [v Hv]; [by eapply elem_of_list_lookup_2|].
      pose proof (Hmxu _ _ Hv) as Hb. simpl in Hb. apply Hlo. lia. }
  split_and!.
  - done.
  - unfold node_lens, with_nodes. cbn [ndata nodes param1 param2]. rewrite Lns, Lp1, Lp2. done.
  - intros id Hid. unfold with_nodes in *. cbn [ndata nodes nimap] in *.
    apply elem_of_list_lookup in Hid as [j Hj].
    assert (Hjr : 0 <= Z.of_nat j < 4096).
    { apply lookup_lt_Some in Hj. lia. }
    specialize (Hcore (Z.of_nat j) Hjr). rewrite Nat2Z.id, Hj in Hcore. simpl in Hcore.
    case_decide.
    + destruct Hcore as (E & _). rewrite E. unfold node_name.
      destruct (box_shift sa da (Z.of_nat j) Hsa Hda Hsz) as [_ Hb].
      specialize (Hb ltac:(done)). apply Hpos in Hb as [Hb _].
      unfold diff in Hb. rewrite matching_eq in Hb by lia.
      destruct (lookup_4096 _ _ Ls0 Hb) as [k Hk']. rewrite Hk'. simpl.
      apply Hns. by eapply elem_of_list_lookup_2.
    + destruct Hcore as (E & _). rewrite E. unfold node_name.
      destruct (lookup_4096 _ _ Ld0 Hjr) as [k Hk']. rewrite Hk'. simpl.
      apply Hnd. by eapply elem_of_list_lookup_2.
  - intros id v Hid. destruct (decide (id < nd)).
    + rewrite Hlo in Hid by done. apply Hmxu in Hid. simpl in *. lia.
    + rewrite Hhi in Hid by lia. apply Hmsu in Hid. simpl in *. lia.
  - intros id v Hid. destruct (decide (id < nd)).
    + rewrite Hlo in Hid by done. right. by exists id.
    + rewrite Hhi in Hid by lia. left. by eexists.
  - exact Hcore.
Qed.

Lemma delete_loop {V} (m : gmap Z V) l k :
  foldl (fun m idx => delete idx m) m l !! k = if decide (k ∈ l) then None else m !! k.
Proof.
  revert m. induction l as [|x l IH]; intros m; simpl.
  - done.
  - rewrite IH. destruct (decide (k ∈ l)).
    + by rewrite decide_True by set_solver.
    + destruct (decide (k = x)) as [->|].
      * rewrite lookup_delete. by rewrite decide_True by set_solver.
      * rewrite lookup_delete_ne by done. by rewrite decide_False by set_solver.
Qed.

Lemma merge_metadata_ok (src dst : metadata_t) sa da :
  box_ok sa -> box_ok da -> same_size sa da ->
  map_Forall (fun k _ => 0 <= k < 4096) src -> map_Forall (fun k _ => 0 <= k < 4096) dst ->
  exists m, merge_metadata src dst sa da = Ret m /\
    forall i, m !! i = if decide (0 <= i < 4096 /\ inside da (idx_pos i))
      then src !! matching sa da (idx_pos i) else dst !! i.
Proof.
  intros Hsa Hda Hsz Hs Hd. unfold merge_metadata. rewrite parts_valid by done. cbn [negb].
  rewrite idx_diff_eq by done. set (diff := diff_of sa da).
  eexists. split; [done|].
  set (dl := filter _ (sorted_list dst).*1). set (d1 := foldl _ dst dl).
  assert (Hd1 : forall i, d1 !! i = if decide (0 <= i < 4096 /\ inside da (idx_pos i)) then None else dst !! i).
  { intros i. unfold d1. rewrite delete_loop. unfold dl. case_decide as Hin.
    - apply elem_of_list_filter in Hin as [Hc Hin]. apply contains_iff in Hc.
      apply elem_of_list_fmap in Hin as ([k v] & -> & Hin%elem_of_sorted_list). simpl in *.
      apply Hd in Hin. simpl in Hin. rewrite from_u16_key_idx in Hc by done.
      by rewrite decide_True.
    - case_decide as Hi; [|done]. destruct (dst !! i) as [v|] eqn:E; [|done]. exfalso. apply Hin.
      apply elem_of_list_filter. split.
      + apply contains_iff. rewrite from_u16_key_idx by lia. apply Hi.
      + apply elem_of_list_fmap. exists (i, v). split; [done|]. by apply elem_of_sorted_list. }
  clearbody d1.
  assert (H : forall l, NoDup l.*1 -> Forall (fun e => 0 <= e.1 < 4096) l -> forall i,
    foldl (fun (m : metadata_t) (e : Z * node_meta) =>
      if contains sa (from_u16_key e.1) then <[w16 (e.1 + diff) := e.2]> m else m) d1 l !! i =
    if decide (0 <= i < 4096 /\ inside da (idx_pos i))
    then (list_to_map l : metadata_t) !! (i - diff) else d1 !! i).
  { intros l. induction l as [|[k v] l IH] using rev_ind; intros Hn Hl i.
    - simpl. rewrite lookup_empty, Hd1. by case_decide.
    - rewrite foldl_app. cbn [foldl fst snd].
      apply Forall_app in Hl as [Hl1 Hl2]. inversion Hl2 as [|? ? Hk]; subst. simpl in Hk.
      rewrite fmap_app in Hn. apply NoDup_app in Hn as (Hn1 & Hn2 & _).
      specialize (IH Hn1 Hl1). rewrite from_u16_key_idx by done.
      rewrite contains_bool. 
      assert (Hkl : (list_to_map l : metadata_t) !! k = None).
      { apply not_elem_of_list_to_map. intros Hin. apply (Hn2 k Hin). csimpl. set_solver. }
      rewrite list_to_map_app. cbn [list_to_map fold_right].
      case_bool_decide as Hc.
      + assert (Hkd : 0 <= k + diff < 4096 /\ inside da (idx_pos (k + diff))).
        { apply (box_shift sa da); try done. exists (idx_pos k). split; [done|].
          rewrite pos_idx_pos by lia. fold diff. lia. }
        rewrite w16_id by (unfold u16_ok; lia).
        destruct (decide (i = k + diff)) as [->|Hne].
        * rewrite lookup_insert, decide_True by done.
          replace (k + diff - diff) with k by lia. rewrite lookup_union_r by done.
          simpl. by rewrite lookup_insert.
        * rewrite lookup_insert_ne by done. rewrite IH. case_decide; [|done].
          destruct ((list_to_map l : metadata_t) !! (i - diff)) eqn:E.
          -- symmetry. by apply lookup_union_Some_l.
          -- rewrite lookup_union_r by done. simpl. rewrite lookup_insert_ne by lia.
             by rewrite lookup_empty.
      + rewrite IH. case_decide as Hi; [|done].
        assert (k <> i - diff).
        { intros ->. apply Hc. destruct Hi as [Hi1 Hi2].
          destruct (proj2 (box_shift sa da i Hsa Hda Hsz) (conj Hi1 Hi2)) as (p & Hp & E).
          fold diff in E. rewrite E. rewrite idx_pos_idx; [done|]. exact (box_ok_cube _ _ Hsa Hp). }
        destruct ((list_to_map l : metadata_t) !! (i - diff)) eqn:E.
        -- symmetry. by apply lookup_union_Some_l.
        -- rewrite lookup_union_r by done. simpl. rewrite lookup_insert_ne by lia.
           by rewrite lookup_empty. }
  intros i. rewrite (H _ (sorted_list_NoDup src)) by (by apply sorted_list_Forall in Hs).
  assert (list_to_map (sorted_list src) = src) as ->.
  { rewrite <-insert_all_NoDup by apply sorted_list_NoDup. apply insert_all_sorted. }
  case_decide as Hi.
  - f_equal. unfold diff. apply matching_eq. lia.
  - rewrite Hd1. by rewrite decide_False.
Qed.

(** *** Statements of the properties *)

Lemma clean_keeps b : node_lens b -> named b -> ids_upto 65534 (nimap b) ->
  exists b', clean_name_id_map b = Ret b' /\
    (exists ns nm, b' = with_nodes b (ND ns (param1 (ndata b)) (param2 (ndata b))) nm) /\
    node_lens b' /\ named b' /\ (forall i, node_name b' i = node_name b i) /\ tidy b'.
Proof.
  intros Hl Hn Hu. destruct (clean_ok b Hn (lens_nonempty _ Hl) Hu)
    as (ns & nm & E & Hlen & Hnames & Hdom & Hused & Hinj & Hprov).
  eexists. split; [exact E|]. split; [by eexists _, _|]. unfold node_lens, named, tidy, node_name.
  unfold with_nodes. cbn [ndata nodes param1 param2 nimap].
  split; [rewrite Hlen; exact Hl|]. split; [intros id Hid; by apply Hused|].
  split; [intros i; apply Hnames|]. split; [done|]. split; [intros id Hid; by apply Hused|done].
Qed.

Lemma tidy_small b : named b -> node_lens b -> tidy b -> ids_upto 4095 (nimap b).
Proof.
  intros Hn (Hl & _) (Hdom & Hall & _) id v Hid. simpl.
  assert (H1 : 0 <= id < Z.of_nat (size (nimap b))) by (apply Hdom; by eexists).
  enough (size (nimap b) <= Z.to_nat 4096)%nat by lia.
  assert (Hs : (sorted_list (nimap b)).*1 ⊆+ nodes (ndata b)).
  { apply NoDup_submseteq; [apply sorted_list_NoDup|]. intros k Hk.
    apply elem_of_list_fmap in Hk as ([k' w] & -> & Hk%elem_of_sorted_list). apply Hall. by eexists. }
  apply submseteq_length in Hs. rewrite fmap_length, sorted_list_length in Hs. lia.
Qed.
Lemma tidy_upto b : named b -> node_lens b -> tidy b -> ids_upto 65534 (nimap b).
Proof. intros Hn Hl Ht id v Hid. apply (tidy_small b Hn Hl Ht) in Hid. simpl in *. lia. Qed.

Lemma clean_idempotent b b' : node_lens b -> named b -> ids_upto 65534 (nimap b) ->
  clean_name_id_map b = Ret b' -> clean_name_id_map b' = Ret b'.
Proof.
  intros Hl Hn Hu E. destruct (clean_keeps b Hl Hn Hu) as (b1 & E1 & _ & Hl1 & Hn1 & _ & Ht).
  rewrite E in E1. injection E1 as <-.
  apply clean_tidy; [done|by apply lens_nonempty|by apply tidy_upto|done].
Qed.
