(** The blocks on which a command that edits blocks in place crashes *)
From Verif Require Export SpecSafe.
From Verif Require Import Spec.

(** Some ID of the block has the name. *)
Definition registered (n : bytes) (b : block) : Prop := exists id, nimap b !! id = Some n.

(** An index that belongs to no node, selected if cut down to 12 bits. *)
Definition stray (a : option area) (inv : bool) (bp : vec3) (i : Z) : Prop :=
  4096 <= i /\ selected a inv (abs_pos bp (i mod 4096)).

(** fill: the block is only partly selected; and no ID has a name, or the largest
    IDs have names so that there is none left, or a node that stays has an ID larger
    than all those with names, among which the new node is. *)
Definition fill_fatal (a : option area) (inv : bool) (node : bytes) (bp : vec3) (b : block) : Prop :=
  (exists i, 0 <= i < 4096 /\ ~ selected a inv (abs_pos bp i)) /\
  (nimap b = ∅ \/ is_Some (nimap b !! 65535) \/
   (is_Some (nimap b !! 65534) /\ ~ registered node b) \/
   exists i id, 0 <= i < 4096 /\ ~ selected a inv (abs_pos bp i) /\
     nodes (ndata b) !! Z.to_nat i = Some id /\
     forall id', is_Some (nimap b !! id') -> id' < id /\ (~ registered node b -> id' + 1 < id)).

(** The command crashes on the block. *)
Definition fatal (g : args) (bp : vec3) (b : block) : Prop :=
  match acmd g with
  | CFill => exists node, new_node g = Some node /\ fill_fatal (aarea g) (invert g) node bp b
  | CDeleteMeta | CSetMetaVar | CReplaceInInv =>
    (exists n, n ∈ searched g /\ registered n b) /\
    exists i, is_Some (metadata b !! i) /\ stray (aarea g) (invert g) bp i
  | CDeleteTimers =>
    (exists n, n ∈ searched g /\ registered n b) /\
    exists t, t ∈ timers b /\ stray (aarea g) (invert g) bp (tpos t)
  | _ => False
  end.

(** The command gets to such a block. *)
Definition meets_fatal (E : ext) (main : mapdata) (g : args) : Prop :=
  exists k bp x b, block_at k bp /\ main !! k = Some x /\ visit (aarea g) (invert g) true bp /\
    mentions (searched g) x /\ deserialize E x = Ok b /\ fatal g bp b.

(** The worker thread panics; the map is left as it was, and no message claims
    otherwise. *)
Definition crashes (E : ext) (W : world) (g : args) (main input : mapdata) : Prop :=
  exists s, thread_main E g W (start main input) = (Panicked, s) /\
    final Main s = main /\ logs (trace s) = warnings g.
