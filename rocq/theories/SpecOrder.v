(** Specification vocabulary for runs that differ in row order and hash order. *)
From Verif Require Export SpecCmd SpecCopy.
From Verif Require Import Spec.

(** The same decompression.  Compression, buffers and the iteration order of hash
    maps may differ. *)
Record same_reading (E1 E2 : ext) : Prop := {
  same_zl : forall s, zl_dec E1 s = zl_dec E2 s;
  same_zs : forall s, zs_dec E1 s = zs_dec E2 s;
  same_first : forall s, zs_first E1 s = zs_first E2 s }.

(** Blocks with the same contents: everything but the numbering of names is the
    same, as far as the format can express it. *)
Definition alike (b1 b2 : block) : Prop :=
  same_but_nodes b1 b2 /\
  forall i, 0 <= i < 4096 -> node_name b1 i = node_name b2 i /\
    node_param1 b1 i = node_param1 b2 i /\ node_param2 b1 i = node_param2 b2 i.

(** Maps with the same keys and contents; unreadable data is the same. *)
Definition same_contents (E : ext) (m1 m2 : mapdata) : Prop :=
  forall k, match m1 !! k, m2 !! k with
    | None, None => True
    | Some y1, Some y2 => y1 = y2 \/
        exists b1 b2, deserialize E y1 = Ok b1 /\ deserialize E y2 = Ok b2 /\ alike b1 b2
    | _, _ => False
    end.

(** Maps and arguments without the contradictions described at the single commands. *)
Definition plausible (E : ext) (g : args) (main input : mapdata) : Prop :=
  match acmd g with
  | CVacuum | CDeleteBlocks | CDeleteObjects => True
  | CClone => roomy E g main main
  | COverlay => keys_ok input /\ roomy E g main input
  | CFill | CReplaceNodes | CDeleteMeta | CDeleteTimers | CSetMetaVar =>
    args_fit g /\ blocks E main consistent
  | CSetParam2 => is_Some (aparam2 g) /\ blocks E main consistent
  | CReplaceInInv =>
    blocks E main consistent /\ (forall n, aitem g = Some n \/ new_item g = Some n -> plain_name n) /\
    blocks E main (fun b => forall i m, metadata b !! i = Some m -> plain_inv (inv m))
  end.

(** Both runs end normally, log the same, and leave the same contents. *)
Definition same_outcome (E1 E2 : ext) (W1 W2 : world) (g : args) (main input : mapdata) : Prop :=
  exists main1 main2 l, run_ok E1 g W1 main input main1 l /\ run_ok E2 g W2 main input main2 l /\
    same_contents E1 main1 main2.
