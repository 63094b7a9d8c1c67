(** Specification of the nodes that a command with names acts on, in blocks whose name table
    may register a name more than once. *)
From Verif Require Export SpecCmd.
From Verif Require Import Spec.

(** The lowest ID registered for the name. *)
Definition lowest (b : block) (name : bytes) (id : Z) : Prop :=
  nimap b !! id = Some name /\ map_Forall (fun id' n => n = name -> id <= id') (nimap b).

(** The node with index [i] has the lowest ID that is registered for the name. *)
Definition has_lowest (b : block) (i : Z) (name : bytes) : Prop :=
  match nodes (ndata b) !! Z.to_nat i with
  | Some id => lowest b name id
  | None => False
  end.

(** The node with index [i] is in the selected area and has the lowest ID of one of the
    names, if names are given. *)
Definition picked (a : option area) (inv : bool) (names : list bytes) (bp : vec3) (b : block)
    (i : Z) : Prop :=
  selected a inv (abs_pos bp i) /\ (names = [] \/ Exists (has_lowest b i) names).

Global Instance has_lowest_dec b i name : Decision (has_lowest b i name).
Proof. unfold has_lowest, lowest. destruct (_ !! _); apply _. Defined.
Global Instance picked_dec a inv names bp b i : Decision (picked a inv names bp b i).
Proof. unfold picked. apply _. Defined.
