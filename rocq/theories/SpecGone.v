(** What is claimed of the objects that are left after deleteobjects *)
From Verif Require Export SpecRun SpecCmd.
From Verif Require Import Spec.

(** The user wants the object deleted: it is nearest to a selected position and has
    the name and one of the items, if given.  In which block it is stored does not matter. *)
Definition wanted (g : args) (o : static_object) : Prop :=
  (exists p, nearest o p /\ selected (aarea g) (invert g) p) /\
  match wanted_object g with
  | None => True
  | Some n => exists d, entity o n d /\ (default [] (aitems g) = [] \/ exists i, i ∈ default [] (aitems g) /\ item_of d i)
  end.

(** The object is stored in the block in which it is. *)
Definition home (bp : vec3) (o : static_object) : Prop := exists p, nearest o p /\ node_in_block bp p.

(** All objects of readable blocks have the property. *)
Definition all_objects (E : ext) (main : mapdata) (P : vec3 -> static_object -> Prop) : Prop :=
  forall k bp x b, block_at k bp -> main !! k = Some x -> deserialize E x = Ok b -> Forall (P bp) (objects b).

(** Of the objects exactly those that are not wanted are left, block by block; blocks
    stay readable or unreadable. *)
Definition objects_gone (E : ext) (g : args) (main main' : mapdata) : Prop :=
  forall k bp x, block_at k bp -> main !! k = Some x -> exists y, main' !! k = Some y /\
    match deserialize E x with
    | Err _ => y = x
    | Ok b => exists b', deserialize E y = Ok b' /\
        objects b' `sublist_of` objects b /\
        forall o, o ∈ objects b' <-> o ∈ objects b /\ ~ wanted g o
    end.
