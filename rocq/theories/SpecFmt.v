(** Specification of number formatting *)
From Verif Require Export Fmt SpecCli.

(** Two-digit number below 60. *)
Definition sixty (t : bytes) (n : Z) : Prop := dec t n /\ length t = 2%nat /\ 0 <= n < 60.
(** [h:mm:ss], or [mm:ss] if there are no hours. *)
Definition clock (t : bytes) (s : Z) : Prop :=
  exists hh h mm m ss sec, t = hh ++ mm ++ bstr ":" ++ ss /\ s = 3600 * h + 60 * m + sec /\
    sixty mm m /\ sixty ss sec /\
    (h = 0 /\ hh = [] \/ h > 0 /\ exists d, hh = d ++ bstr ":" /\ dec d h /\ head d <> Some x30).

Definition scales : list (bytes * Z) :=
  [(bstr "T", 10 ^ 12); (bstr "B", 10 ^ 9); (bstr "M", 10 ^ 6); (bstr "k", 10 ^ 3)].
(** [t] is a number [v] with [length f] decimal places followed by a suffix worth [u]. *)
Definition abbreviated (t : bytes) (i f : bytes) (v u : Z) : Prop :=
  exists suffix, (suffix, u) ∈ scales /\ dec (i ++ f) v /\ i <> [] /\
    t = i ++ (match f with [] => [] | _ => bstr "." ++ f end) ++ suffix.
(** The value shown, [v * u / 10^places], is within 0.51% of [n]. *)
Definition close_to (n v u : Z) (places : nat) : Prop :=
  let p := 10 ^ Z.of_nat places in 10000 * Z.abs (v * u - n * p) <= 51 * n * p.
