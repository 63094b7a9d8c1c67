(** Specification of what can be learnt from the wording of a message *)
From Verif Require Export SpecText.

(** The numbers in a message, and the message without them *)
Definition numbers (m : msg) : list Z :=
  match m with
  | MFilled n | MReplaced n | MParam2 n | MMeta n | MTimers n | MObjects n | MVars n | MSkipped n => [n]
  | MStacks i n => [i; n]
  | _ => []
  end.
Definition matter (m : msg) : msg :=
  match m with
  | MFilled _ => MFilled 0 | MReplaced _ => MReplaced 0 | MParam2 _ => MParam2 0 | MMeta _ => MMeta 0
  | MTimers _ => MTimers 0 | MObjects _ => MObjects 0 | MVars _ => MVars 0 | MSkipped _ => MSkipped 0
  | MStacks _ _ => MStacks 0 0
  | m => m
  end.

(** Numbers fit 64 bits, coordinates 32 bits; the text of the message is the program's own
    and not that of SQLite. *)
Definition worded (m : msg) : Prop :=
  Forall (fun n => 0 <= n < 2 ^ 64) (numbers m) /\
  match m with
  | MErr (EArg (CornerOutside p)) => i32_ok (vx p) /\ i32_ok (vy p) /\ i32_ok (vz p)
  | MErr ECommit => False
  | _ => True
  end.

(** Numbers that may look the same: large, and less than about one percent apart. *)
Definition look_alike (n n' : Z) : Prop :=
  n = n' \/ 1000 <= n /\ 1000 <= n' /\ 10000 * Z.abs (n - n') <= 51 * (n + n').

(** How a number is written: exactly below 1000, else with three or so digits and a suffix. *)
Definition shown (t : bytes) (n : Z) : Prop :=
  (n < 1000 -> dec t n) /\
  (1000 <= n -> exists i f v u, abbreviated t i f v u /\ (length f <= 2)%nat /\ close_to n v u (length f)).
(** The words between the numbers *)
Definition words (m : msg) : list bytes :=
  match m with
  | MFilled _ => [[]; bstr " nodes filled."]
  | MReplaced _ => [[]; bstr " nodes replaced."]
  | MParam2 _ => [bstr "Set param2 of "; bstr " nodes."]
  | MMeta _ => [bstr "Deleted metadata from "; bstr " nodes."]
  | MTimers _ => [bstr "Deleted "; bstr " node timers."]
  | MObjects _ => [bstr "Deleted "; bstr " objects."]
  | MVars _ => [bstr "Set metadata variable of "; bstr " nodes."]
  | MStacks _ _ => [bstr "Replaced "; bstr " itemstacks in "; bstr " nodes."]
  | MSkipped _ => [bstr "Skipped "; bstr " invalid/unsupported mapblocks."]
  | _ => []
  end.
Fixpoint weave (ws ts : list bytes) : bytes :=
  match ws, ts with
  | w :: ws, t :: ts => w ++ t ++ weave ws ts
  | w :: _, [] => w
  | [], _ => []
  end.
