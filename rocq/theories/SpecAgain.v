(** Specification of runs that are repeated. *)
From Verif Require Export SpecKeep SpecOrder.
From Verif Require Import Spec.

(** Two runs with the same arguments and input map, one after the other; the second
    starts with the map that the first left, in a world of its own. *)
Definition twice (E : ext) (W1 W2 : world) (g : args) (main input : mapdata)
    (main1 : mapdata) (l1 : list (log_type * msg)) (main2 : mapdata) (l2 : list (log_type * msg)) : Prop :=
  run_ok E g W1 main input main1 l1 /\ run_ok E g W2 main1 input main2 l2.

(** The nodes that clone copies are not among those that it overwrites. *)
Definition apart (g : args) : Prop :=
  forall a off p, aarea g = Some a -> offset g = Some off -> inside a p -> ~ inside a (minus p off).

(** Variables are marked private only where the version knows of it. *)
Definition no_early_private (b : block) : Prop :=
  version b < 28 -> map_Forall (fun _ m => map_Forall (fun _ v => v.2 = false) (vars m)) (metadata b).

(** The command takes away what it looks for. *)
Definition removes (g : args) : Prop :=
  match acmd g with
  | CReplaceNodes | CDeleteMeta | CDeleteTimers | CDeleteObjects => True
  | CSetMetaVar => avalue g = None
  | CReplaceInInv => adelete g = true \/ exists n, new_item g = Some n /\ aitem g <> Some n
  | _ => False
  end.
(** What it says when it has found nothing. *)
Definition found_nothing (g : args) : msg :=
  match acmd g with
  | CReplaceNodes => MReplaced 0
  | CDeleteMeta => MMeta 0
  | CDeleteTimers => MTimers 0
  | CDeleteObjects => MObjects 0
  | CSetMetaVar => MVars 0
  | _ => MStacks 0 0
  end.
(** The second run does not write anything. *)
Definition idle (g : args) : Prop :=
  acmd g = CDeleteBlocks \/ acmd g = CVacuum \/ (removes g /\ acmd g <> CReplaceNodes).
