(** Proofs about calls that are refused *)
From Verif Require Import Block Spec SpatialProofs.

Lemma unordered a b : (nonempty (Area a b) -> area_new a b = Ret (Area a b)) /\
  (~ nonempty (Area a b) -> area_new a b = Panic).
Proof.
  unfold area_new, area_valid, nonempty. destruct a as [ax ay az], b as [bx by' bz]. cbn.
  destruct (Z.leb_spec ax bx), (Z.leb_spec ay by'), (Z.leb_spec az bz); cbn; split; intros H'; try done; try lia; destruct H'; lia.
Qed.
Lemma other_versions E b : ~ 25 <= version b <= 29 -> serialize E b = Panic.
Proof.
  intros H. unfold serialize, MIN_BLOCK_VER, MAX_BLOCK_VER.
  destruct (Z.ltb_spec (version b) 25), (Z.ltb_spec 29 (version b)); try done. lia.
Qed.
