(** Calls that are refused *)
From Verif Require Import Block Spec Toy.
From Verif Require EdgeProofs.

(** ** C08 *)

(** Corners that are not in order are refused where they are not put in order first. *)
Theorem C08_unordered : forall a b, (nonempty (Area a b) -> area_new a b = Ret (Area a b)) /\
  (~ nonempty (Area a b) -> area_new a b = Panic).
Proof. exact EdgeProofs.unordered. Qed.
Print Assumptions C08_unordered.

Example C08_unordered_example : area_new (V3 0 0 0) (V3 0 2 1) = Ret (Area (V3 0 0 0) (V3 0 2 1)) /\
  area_new (V3 0 3 0) (V3 0 2 1) = Panic /\ from_unsorted (V3 0 3 0) (V3 0 2 1) = Area (V3 0 2 0) (V3 0 3 1).
Proof. done. Qed.

(** ** C12 *)

(** Blocks of other versions are never written; C12_loaded_wf excludes them. *)
Theorem C12_versions : forall E b, ~ 25 <= version b <= 29 -> serialize E b = Panic.
Proof. exact EdgeProofs.other_versions. Qed.
Print Assumptions C12_versions.

Definition ex_old : block :=
  Block 24 x00 0 x02 x02 (ND [] [] []) ∅ [] 0 ∅ [].
Example C12_versions_example : ~ 25 <= version ex_old <= 29 /\ serialize toy_full ex_old = Panic.
Proof. split; [cbn; lia|done]. Qed.
