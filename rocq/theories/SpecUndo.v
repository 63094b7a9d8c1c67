(** Specification of edits that undo or override others. *)
From Verif Require Export SpecAdd.
From Verif Require Import Spec.

(** Replacements of nodes in the same area *)
Definition replaces (g : args) (a : option area) (inv : bool) (old new : bytes) : Prop :=
  acmd g = CReplaceNodes /\ aarea g = a /\ invert g = inv /\ anode g = Some old /\ new_node g = Some new.
(** No node in the area has that name. *)
Definition absent (E : ext) (main : mapdata) (a : option area) (inv : bool) (name : bytes) : Prop :=
  forall k bp x b i, block_at k bp -> main !! k = Some x -> deserialize E x = Ok b -> 0 <= i < 4096 ->
    selected a inv (abs_pos bp i) -> node_name b i <> Some name.

(** What [g1] did does not show after [g2]: it applies to all those nodes, and sets or
    deletes what [g1] has changed. *)
Definition overrides (g2 g1 : args) : Prop :=
  (forall p, selected (aarea g1) (invert g1) p -> selected (aarea g2) (invert g2) p) /\
  (searched g2 = [] \/ searched g2 = searched g1) /\
  match acmd g1, acmd g2 with
  | CFill, CFill | CReplaceNodes, CFill | CSetParam2, CSetParam2 => True
  | CDeleteMeta, CDeleteMeta | CSetMetaVar, CDeleteMeta | CReplaceInInv, CDeleteMeta => True
  | CSetMetaVar, CSetMetaVar => akey g1 = akey g2 /\ is_Some (avalue g1)
  | _, _ => False
  end.

(** Whether [g2] applies to a node does not depend on what [g1] does to names. *)
Definition keeps_names (g1 g2 : args) : Prop :=
  match acmd g1 with
  | CFill => searched g2 = [] \/ acmd g2 = CDeleteObjects
  | CReplaceNodes => acmd g2 = CDeleteObjects \/
    Forall (fun name => anode g1 <> Some name /\ new_node g1 <> Some name) (searched g2)
  | _ => True
  end.
(** They change different things, or both change them alike; or one deletes what the
    other changes. *)
Definition independent (g1 g2 : args) : Prop :=
  keeps_names g1 g2 /\ keeps_names g2 g1 /\
  match acmd g1, acmd g2 with
  | CFill, CFill => new_node g1 = new_node g2
  | CSetParam2, CSetParam2 => aparam2 g1 = aparam2 g2
  | CSetMetaVar, CSetMetaVar => akey g1 = akey g2 -> avalue g1 = avalue g2
  | CReplaceInInv, CReplaceInInv => False
  | _, _ => True
  end.

(** What [g2] counts is not changed by [g1]. *)
Definition unrelated (g1 g2 : args) : Prop :=
  keeps_names g1 g2 /\
  match acmd g2, acmd g1 with
  | CDeleteTimers, CDeleteTimers | CDeleteObjects, CDeleteObjects => False
  | CDeleteMeta, CDeleteMeta | CDeleteMeta, CReplaceInInv => False
  | CDeleteMeta, CSetMetaVar => is_Some (avalue g1)
  | CSetMetaVar, CDeleteMeta => False
  | CSetMetaVar, CSetMetaVar => akey g1 <> akey g2 \/ is_Some (avalue g1)
  | CReplaceInInv, CDeleteMeta | CReplaceInInv, CReplaceInInv => False
  | _, _ => True
  end.

(** Every block with a node to which [g] applies is deleted by [gd]. *)
Definition covers (gd g : args) : Prop := forall bp,
  visit (aarea g) (invert g) true bp -> visit (aarea gd) (invert gd) false bp.
