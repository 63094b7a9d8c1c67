(** Specification of what stays true of a map from run to run. *)
From Verif Require Export SpecCopy.
From Verif Require Import Spec.

(** A block without contradictions: every node has a name, IDs are at most [n], no
    name is registered twice, metadata and timers belong to nodes, and inventories
    end with the line "EndInventory". *)
Record healthy (n : Z) (b : block) : Prop := {
  hl_sound : sound n b;
  hl_names : unique_names b;
  hl_inv : map_Forall (fun _ m => plain_inv (inv m)) (metadata b) }.

(** The names of items do not end like inventories. *)
Definition tame (g : args) : Prop :=
  forall n, aitem g = Some n \/ new_item g = Some n -> plain_name n.

(** Circumstances of a run on some map: like [setting], without the map. *)
Record fair (E : ext) (W : world) (g : args) (input : mapdata) : Prop := {
  fair_ext : ext_ok E;
  fair_full : full_writes E;
  fair_calm : no_faults W;
  fair_world : world_ok W;
  fair_supplied : supplied g;
  fair_legal : legal g;
  fair_ready : ready W g;
  fair_param2 : acmd g = CSetParam2 -> is_Some (aparam2 g);
  fair_fit : args_fit g;
  fair_tame : tame g;
  fair_input : keys_ok input }.

(** Only replacenodes leaves names behind that no node uses any more: it can use up one
    more ID. *)
Definition growth (g : args) : Z := match acmd g with CReplaceNodes => 1 | _ => 0 end.
Fixpoint growths (runs : list (world * args * mapdata)) : Z :=
  match runs with
  | [] => 0
  | (_, g, _) :: rest => growth g + growths rest
  end.

(** The runs, each in a world of its own, with arguments and an input map of its own,
    take the map [main] to [main'] one after the other; each ends normally. *)
Fixpoint session (E : ext) (runs : list (world * args * mapdata)) (main main' : mapdata) : Prop :=
  match runs with
  | [] => main' = main
  | (W, g, input) :: rest =>
    exists m l, run_ok E g W main input m l /\ last l = Some (LInfo, MDone) /\ session E rest m main'
  end.
