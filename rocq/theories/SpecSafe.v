(** Blocks on which a command does not crash *)
From Verif Require Export SpecCmd.

(** Every node ID used is at most as large as some ID that has a name. *)
Definition no_high_ids (b : block) : Prop :=
  forall id, id ∈ nodes (ndata b) -> exists id', id <= id' /\ is_Some (nimap b !! id').

(** What a readable block has to satisfy so that the command does not crash on it.
    Consistent blocks satisfy this. *)
Definition harmless (g : args) (b : block) : Prop :=
  match acmd g with
  | CFill => ids_upto 65533 (nimap b) /\ no_high_ids b
  | CDeleteMeta => is_Some (anode g) -> meta_in b
  | CDeleteTimers => is_Some (anode g) -> timers_in b
  | CSetMetaVar | CReplaceInInv => anodes g <> [] -> meta_in b
  | _ => True
  end.

(** Commands that do not crash on any readable block *)
Definition sturdy (g : args) : Prop :=
  match acmd g with
  | CReplaceNodes | CSetParam2 | CDeleteObjects | CDeleteBlocks | CVacuum => True
  | CDeleteMeta | CDeleteTimers => anode g = None
  | CSetMetaVar | CReplaceInInv => anodes g = []
  | _ => False
  end.

(** What vacuum says about itself: success only if all its four statements (two to open
    the map, a commit, VACUUM) have worked, failure only if one has failed, and one of
    the two if it has been started and ends normally. *)
Definition tells_vacuum (W : world) (r : run unit * sys) : Prop :=
  let l := logs (trace r.2) in
  ((LInfo, MVacDone) ∈ l -> forall t, (t < 4)%nat -> faults W t = FOk) /\
  ((LError, MVacFailed) ∈ l -> exists t rb, (t < 4)%nat /\ faults W t = FFail rb) /\
  ((LInfo, MVacStart) ∈ l -> r.1 = Done tt -> (LInfo, MVacDone) ∈ l \/ (LError, MVacFailed) ∈ l).
