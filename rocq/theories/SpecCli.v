(** Specification of command line reading *)
From Verif Require Export Cli SpecRun.
From Verif Require Import Spec.

(** Decimal numbers, from the right. *)
Inductive dec : bytes -> Z -> Prop :=
  | dec_one b d : b2z b = 48 + d -> 0 <= d < 10 -> dec [b] d
  | dec_more s n b d : dec s n -> b2z b = 48 + d -> 0 <= d < 10 -> dec (s ++ [b]) (10 * n + d).
(** With an optional sign. *)
Definition denotes (s : bytes) (z : Z) : Prop :=
  dec s z \/ (exists r, s = bstr "+" ++ r /\ dec r z) \/ (exists r, s = bstr "-" ++ r /\ dec r (- z)).

(** Three numbers that fit 32 bits. *)
Definition coord (s : bytes) (z : Z) : Prop := denotes s z /\ -2147483648 <= z <= 2147483647.
Definition pos_text (l : list bytes) (p : vec3) : Prop :=
  exists a b c, l = [a; b; c] /\ coord a (vx p) /\ coord b (vy p) /\ coord c (vz p).

(** Between two corners, given in any order. *)
Definition mid (a b x : Z) : Prop := a <= x <= b \/ b <= x <= a.
Definition between (p q x : vec3) : Prop :=
  mid (vx p) (vx q) (vx x) /\ mid (vy p) (vy q) (vy x) /\ mid (vz p) (vz q) (vz x).

Definition single (m : matches) (n : bytes) (o : option bytes) : Prop :=
  m n = match o with Some v => Some [v] | None => None end.
Definition flag (m : matches) (n : bytes) (b : bool) : Prop := m n = if b then Some [] else None.

(** The arguments of the run are those of the command line. *)
Definition given (top : matches) (c : command) (m : matches) (g : args) : Prop :=
  acmd g = c /\
  flag top (bstr "yes") (negb (do_confirmation g)) /\
  single top (bstr "map") (Some (map_path g)) /\
  single m (bstr "input_map") (input_map_path g) /\
  match aarea g with
  | None => m (bstr "p1") = None /\ m (bstr "p2") = None
  | Some a => exists v1 v2 p1 p2, m (bstr "p1") = Some v1 /\ m (bstr "p2") = Some v2 /\
      pos_text v1 p1 /\ pos_text v2 p2 /\ (forall x, inside a x <-> between p1 p2 x)
  end /\
  flag m (bstr "invert") (invert g) /\
  match offset g with
  | None => m (bstr "offset") = None
  | Some o => exists v, m (bstr "offset") = Some v /\ pos_text v o
  end /\
  single m (bstr "node") (anode g) /\
  anodes g = match m (bstr "nodes") with Some l => l | None => [] end /\
  single m (bstr "new_node") (new_node g) /\
  single m (bstr "object") (aobject g) /\
  single m (bstr "item") (aitem g) /\
  m (bstr "items") = aitems g /\
  single m (bstr "new_item") (new_item g) /\
  flag m (bstr "delete") (adelete g) /\
  flag m (bstr "delete_meta") (delete_meta g) /\
  single m (bstr "key") (akey g) /\
  single m (bstr "value") (avalue g).

(** A yes: a single letter y, possibly capital, with white space around it. *)
Definition yes (line : list Z) : Prop :=
  exists pre c post, line = pre ++ [c] ++ post /\ (c = 121 \/ c = 89) /\
    Forall (fun x => is_white x = true) pre /\ Forall (fun x => is_white x = true) post.
