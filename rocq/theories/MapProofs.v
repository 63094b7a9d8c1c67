(** Lemmas about the finite maps of Base.v *)
From Verif Require Import Codec.

Lemma sorted_list_perm {V} (m : gmap Z V) : sorted_list m ≡ₚ map_to_list m.
Proof. apply merge_sort_Permutation. Qed.

Lemma elem_of_sorted_list {V} (m : gmap Z V) k v : (k, v) ∈ sorted_list m <-> m !! k = Some v.
Proof. rewrite sorted_list_perm. apply elem_of_map_to_list. Qed.

Lemma sorted_list_length {V} (m : gmap Z V) : length (sorted_list m) = size m.
Proof. by rewrite sorted_list_perm. Qed.

Lemma sorted_list_NoDup {V} (m : gmap Z V) : NoDup (sorted_list m).*1.
Proof. rewrite sorted_list_perm. apply NoDup_fst_map_to_list. Qed.

Lemma key_le_trans {V} : Transitive (@key_le V).
Proof. intros x y z. unfold key_le. lia. Qed.
Lemma key_le_total {V} : Total (@key_le V).
Proof. intros x y. unfold key_le. lia. Qed.

Lemma sorted_list_le {V} (m : gmap Z V) : StronglySorted key_le (sorted_list m).
Proof.
  apply StronglySorted_merge_sort; [apply key_le_trans|apply key_le_total].
Qed.

Definition key_lt {V} (x y : Z * V) : Prop := x.1 < y.1.

Lemma sorted_list_lt {V} (m : gmap Z V) : StronglySorted key_lt (sorted_list m).
Proof.
  pose proof (sorted_list_le m) as H. pose proof (sorted_list_NoDup m) as Hn.
  induction H as [|x l Hl IH Hx]; [constructor|].
  csimpl in Hn. apply NoDup_cons in Hn as [Hnot Hn].
  constructor; [by apply IH|]. apply Forall_forall. intros y Hy.
  rewrite Forall_forall in Hx. apply Hx in Hy as Hle. unfold key_lt, key_le in *.
  assert (x.1 <> y.1); [|lia]. intros E. apply Hnot. rewrite E.
  apply elem_of_list_fmap. by exists y.
Qed.

(** *** Collecting pairs *)

Lemma insert_all_snoc `{Countable K} {V} (l : list (K * V)) x :
  insert_all (l ++ [x]) = <[x.1 := x.2]> (insert_all l).
Proof. unfold insert_all. by rewrite foldl_app. Qed.

Lemma insert_all_reverse `{Countable K} {V} (l : list (K * V)) :
  insert_all l = list_to_map (reverse l).
Proof.
  induction l as [|x l IH] using rev_ind; [done|].
  rewrite insert_all_snoc, reverse_snoc, IH. by destruct x.
Qed.

Lemma insert_all_NoDup `{Countable K} {V} (l : list (K * V)) :
  NoDup l.*1 -> insert_all l = list_to_map l.
Proof.
  intros Hn. rewrite insert_all_reverse. apply list_to_map_proper.
  - rewrite fmap_reverse. by rewrite reverse_Permutation.
  - by rewrite reverse_Permutation.
Qed.

Lemma insert_all_perm `{Countable K} {V} (m : gmap K V) l :
  l ≡ₚ map_to_list m -> insert_all l = m.
Proof.
  intros Hp. rewrite insert_all_NoDup.
  - rewrite <-(list_to_map_to_list m). symmetry. apply list_to_map_proper.
    + apply NoDup_fst_map_to_list.
    + done.
  - rewrite Hp. apply NoDup_fst_map_to_list.
Qed.

Lemma insert_all_sorted {V} (m : gmap Z V) : insert_all (sorted_list m) = m.
Proof. apply insert_all_perm, sorted_list_perm. Qed.

Lemma insert_all_elem `{Countable K} {V} (l : list (K * V)) k v :
  insert_all l !! k = Some v -> (k, v) ∈ l.
Proof.
  rewrite insert_all_reverse. intros H1. apply elem_of_list_to_map_2 in H1.
  by rewrite elem_of_reverse in H1.
Qed.

Lemma insert_all_Forall `{Countable K} {V} (P : K -> V -> Prop) (l : list (K * V)) :
  Forall (fun e => P e.1 e.2) l -> map_Forall P (insert_all l).
Proof.
  intros Hl k v Hk. apply insert_all_elem in Hk.
  rewrite Forall_forall in Hl. by apply (Hl (k, v)).
Qed.

Lemma insert_all_size `{Countable K} {V} (l : list (K * V)) :
  (size (insert_all l) <= length l)%nat.
Proof.
  induction l as [|x l IH] using rev_ind.
  - unfold insert_all. simpl. rewrite map_size_empty. lia.
  - rewrite insert_all_snoc, app_length. simpl.
    destruct (insert_all l !! x.1) eqn:E.
    + rewrite map_size_insert_Some by (by eexists). lia.
    + rewrite map_size_insert_None by done. lia.
Qed.

Lemma NoDup_fst_filter {A B} (P : A * B -> Prop) `{forall x, Decision (P x)} (l : list (A * B)) :
  NoDup l.*1 -> NoDup (filter P l).*1.
Proof.
  induction l as [|x l IH]; [done|]. csimpl. intros [Hx Hl]%NoDup_cons.
  rewrite filter_cons. case_decide; [|auto]. csimpl. apply NoDup_cons. split; [|auto].
  intros Hin. apply Hx. apply elem_of_list_fmap in Hin as (y & E & Hy).
  apply elem_of_list_filter in Hy as [_ Hy]. apply elem_of_list_fmap. by exists y.
Qed.

(** Filtering entries commutes with collecting. *)
Lemma insert_all_filter {V} (m : gmap Z V) (P : Z * V -> Prop) `{forall x, Decision (P x)} :
  insert_all (filter P (sorted_list m)) = filter P m.
Proof.
  apply map_eq. intros k. 
  assert (Hn : NoDup (filter P (sorted_list m)).*1).
  { apply NoDup_fst_filter, sorted_list_NoDup. }
  rewrite insert_all_NoDup by done.
  apply option_eq. intros v. rewrite <-elem_of_list_to_map by done.
  rewrite elem_of_list_filter, elem_of_sorted_list, map_filter_lookup_Some. naive_solver.
Qed.

(** *** Greatest key *)

Lemma StronglySorted_last {A} (R : relation A) (l : list A) x y :
  StronglySorted R l -> last l = Some x -> y ∈ l -> y = x \/ R y x.
Proof.
  intros Hs. induction Hs as [|a l Hl IH Ha]; [done|].
  intros Hx Hy. apply elem_of_cons in Hy as [->|Hy].
  - destruct l as [|b l]; [left; simpl in Hx; congruence|].
    right. rewrite Forall_forall in Ha. apply Ha.
    rewrite last_cons_cons in Hx. by apply last_Some_elem_of in Hx.
  - destruct l as [|b l]; [by apply elem_of_nil in Hy|].
    rewrite last_cons_cons in Hx. auto.
Qed.

Lemma max_key_Some {V} (m : gmap Z V) k : max_key m = Some k <->
  is_Some (m !! k) /\ forall k', is_Some (m !! k') -> k' <= k.
Proof.
  unfold max_key. split.
  - intros H. apply fmap_Some in H as ([k0 v] & Hl & ->). simpl. split.
    + exists v. apply elem_of_sorted_list. by apply last_Some_elem_of.
    + intros k' [v' Hk']. apply elem_of_sorted_list in Hk'.
      eapply StronglySorted_last in Hk'; [|apply sorted_list_lt|exact Hl].
      destruct Hk' as [E|Hlt]; [inversion E; lia|unfold key_lt in Hlt; simpl in Hlt; lia].
  - intros ([v Hk] & Hmax). destruct (last (sorted_list m)) as [[k0 v0]|] eqn:E.
    + simpl. f_equal. pose proof E as E1. apply last_Some_elem_of in E1.
      apply elem_of_sorted_list in E1. apply elem_of_sorted_list in Hk.
      eapply StronglySorted_last in Hk; [|apply sorted_list_lt|exact E].
      specialize (Hmax k0 ltac:(by eexists)).
      destruct Hk as [E2|Hlt]; [inversion E2; lia|unfold key_lt in Hlt; simpl in Hlt; lia].
    + apply last_None in E. apply elem_of_sorted_list in Hk. rewrite E in Hk.
      by apply elem_of_nil in Hk.
Qed.

Lemma max_key_None {V} (m : gmap Z V) : max_key m = None <-> m = ∅.
Proof.
  unfold max_key. rewrite fmap_None, last_None. split.
  - intros E. apply map_to_list_empty_iff. apply Permutation_nil_r.
    by rewrite <-sorted_list_perm, E.
  - intros ->. unfold sorted_list. by rewrite map_to_list_empty.
Qed.
