(** What an error message claims, and why a run is refused *)
From Verif Require Export SpecRun SpecCmd.
From Verif Require Import Spec.

(** What each complaint about the arguments says. *)
Definition at_fault (g : args) (e : arg_error) : Prop :=
  match e with
  | InvertNoArea => invert g = true /\ aarea g = None
  | CornerOutside p => exists a, aarea g = Some a /\ (p = amin a \/ p = amax a) /\ ~ within 31000 p
  | OffsetTooLarge => exists o, offset g = Some o /\ ~ within 62000 o
  | BadNodeName n => ~ name_ok n /\ (anode g = Some n \/ n ∈ anodes g \/ new_node g = Some n)
  | BadObjectName n => ~ name_ok n /\ aobject g = Some n
  | BadItemName n => ~ name_ok n /\ (aitem g = Some n \/ n ∈ default [] (aitems g) \/ new_item g = Some n)
  | SameNode => acmd g = CReplaceNodes /\ anode g = new_node g
  | NeedAreaOrNode => acmd g = CSetParam2 /\ aarea g = None /\ anode g = None
  | ObjAndItems => acmd g = CDeleteObjects /\ is_Some (aobject g) /\ is_Some (aitems g)
  | ValueRequired => acmd g = CSetMetaVar /\ avalue g = None /\ adelete g = false
  | ValueForbidden => acmd g = CSetMetaVar /\ is_Some (avalue g) /\ adelete g = true
  | ValueEmpty => acmd g = CSetMetaVar /\ avalue g = Some []
  | NewItemRequired => acmd g = CReplaceInInv /\ new_item g = None /\ adelete g = false /\ delete_meta g = false
  | NewItemForbidden => acmd g = CReplaceInInv /\ is_Some (new_item g) /\ adelete g = true
  | SameItem => acmd g = CReplaceInInv /\ aitem g = new_item g /\ delete_meta g = false
  | InvertedOffset => acmd g = COverlay /\ invert g = true /\ exists o, offset g = Some o /\ o <> V3 0 0 0
  | DestOutside => (acmd g = CClone \/ acmd g = COverlay) /\
      ~ dest_in_map (default (Area (V3 (-31000) (-31000) (-31000)) (V3 31000 31000 31000)) (aarea g))
          (default (V3 0 0 0) (offset g))
  end.

(** The path leads to a file that can be opened, whatever is in it. *)
Definition opens (W : world) (p : bytes) : Prop :=
  exists f, is_file W f = true /\ (f = p \/ is_file W p = false /\ f = path_join p (bstr "map.sqlite")) /\
    can_open W f = true.
(** Some database statement fails. *)
Definition trouble (W : world) : Prop := ~ no_faults W.

(** The situation that an error message describes.  Arguments are checked before the
    main map, the main map before the input map. *)
Definition blame (W : world) (g : args) (e : inst_error) : Prop :=
  match e with
  | EArg a => ~ legal g /\ at_fault g a
  | EOpenMain => legal g /\ ~ opens W (map_path g)
  | EBadMain => legal g /\ opens W (map_path g) /\ (~ map_found W (map_path g) \/ trouble W)
  | EOpenInput => legal g /\ map_found W (map_path g) /\
      exists p, input_map_path g = Some p /\ ~ opens W p
  | EBadInput => legal g /\ map_found W (map_path g) /\
      exists p, input_map_path g = Some p /\ opens W p /\ (~ map_found W p \/ trouble W)
  | ECommit => legal g /\ ready W g /\ trouble W
  end.

(** The run cannot start. *)
Definition hopeless (W : world) (g : args) : Prop :=
  ~ (legal g /\ map_found W (map_path g) /\ forall p, input_map_path g = Some p -> map_found W p).
