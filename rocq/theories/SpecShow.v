(** What is claimed of the progress displays of a run *)
From Verif Require Import Ui SpecRun SpecCmd SpecCopy.
From Verif Require Export SpecUi.
From Verif Require Import Spec.

(** The displays among what is written to the terminal *)
Definition displays (o : list outp) : list outp :=
  omap (fun x => match x with OQuery _ | OEdit _ _ _ => Some x | _ => None end) o.

(** How many blocks the run reports as skipped *)
Definition skips (l : list (log_type * msg)) : Z :=
  default 0 (head (omap (fun x => match x.2 with MSkipped n => Some n | _ => None end) l)).

(** First at least two displays of how many blocks were found, the last of which has
    the number [n] of blocks to work on; then at least two displays of how many of
    these [n] were worked on, the last of which has [d].  Numbers never decrease. *)
Definition shows (n d : Z) (o : list outp) : Prop :=
  exists qs ds, displays o = (OQuery <$> qs) ++ ((fun d => OEdit d n true) <$> ds) /\
    Sorted Z.le qs /\ Sorted Z.le ds /\ last qs = Some n /\ last ds = Some d /\
    (2 <= length qs)%nat /\ (2 <= length ds)%nat.
(** Displays without numbers *)
Definition shows_time (o : list outp) : Prop :=
  exists k, (2 <= k)%nat /\ displays o = replicate k (OEdit 0 0 false).

(** What the displays of a whole run with [n] blocks are, given what it logs *)
Definition shows_run (g : args) (l : list (log_type * msg)) (n : Z) (o : list outp) : Prop :=
  match acmd g with
  | CVacuum => shows_time o
  | CReplaceNodes => shows n (n - skips l) o
  | _ => shows n n o
  end.

(** [n] is the number of stored blocks with property [P]. *)
Definition stored (m : mapdata) (P : vec3 -> bytes -> Prop) (n : Z) : Prop :=
  exists l : list Z, NoDup l /\ n = Z.of_nat (length l) /\
    forall k, k ∈ l <-> exists bp x, block_at k bp /\ m !! k = Some x /\ P bp x.
(** [n] is the number of blocks that the command has to look at: those with a selected
    node, which mention the name that is searched for; for deleteblocks those with
    only selected nodes; for clone and overlay with an offset, those where something
    may be copied to; for overlay without, those of the input map. *)
Definition workload (g : args) (main input : mapdata) (n : Z) : Prop :=
  let copied := stored main (fun bp _ => target (aarea g) (default (V3 0 0 0) (offset g)) bp) n in
  match acmd g with
  | CVacuum => True
  | CDeleteBlocks => stored main (fun bp _ => visit (aarea g) (invert g) false bp) n
  | CClone => copied
  | COverlay =>
    (default (V3 0 0 0) (offset g) = V3 0 0 0 ->
      stored input (fun bp _ => visit (aarea g) (invert g) true bp) n) /\
    (default (V3 0 0 0) (offset g) <> V3 0 0 0 -> copied)
  | _ => stored main (fun bp x => visit (aarea g) (invert g) true bp /\ mentions (searched g) x) n
  end.

(** Tables have less than 2^64 rows, as their keys have 64 bits. *)
Definition finite_tables (W : world) (main input : mapdata) : Prop := forall t,
  Z.of_nat (length (rows W t main)) < 2 ^ 64 /\ Z.of_nat (length (rows W t input)) < 2 ^ 64.

(** The command was run: the last message is that of a finished run. *)
Definition finished (l : list (log_type * msg)) : Prop :=
  exists l', l = l' ++ [(LInfo, MDone)].
