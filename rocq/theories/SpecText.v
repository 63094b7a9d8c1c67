(** Specification of what is written to the terminal *)
From Verif Require Export Text SpecFmt.

(** ** Messages *)

Definition no_newline (l : bytes) : Prop := x0a ∉ l.
(** The lines of a text, which end with "\n" or "\r\n".  The last one may end without;
    [cr] says whether a "\r" is then dropped. *)
Inductive lines_of (cr : bool) : bytes -> list bytes -> Prop :=
  | L_none : lines_of cr [] []
  | L_last l : l <> [] -> no_newline l -> (cr = true -> last l <> Some x0d) -> lines_of cr l [l]
  | L_last_cr l : cr = true -> no_newline l -> lines_of cr (l ++ [x0d]) [l]
  | L_lf l s ls : no_newline l -> last l <> Some x0d -> lines_of cr s ls ->
      lines_of cr (l ++ [x0a] ++ s) (l :: ls)
  | L_crlf l s ls : no_newline l -> lines_of cr s ls ->
      lines_of cr (l ++ [x0d; x0a] ++ s) (l :: ls).

(** The lines on the terminal: the kind of message before the first one, blanks of
    the same width before the others. *)
Definition tag (lt : log_type) : bytes :=
  match lt with LInfo => bstr "info: " | LWarning => bstr "warning: " | LError => bstr "error: " end.
Definition blanks (lt : log_type) : bytes :=
  match lt with LInfo => bstr "      " | LWarning => bstr "         " | LError => bstr "       " end.
Definition laid_out (lt : log_type) (ls : list bytes) : bytes :=
  match ls with
  | [] => tag lt ++ [x0a]
  | l :: ls => tag lt ++ l ++ [x0a] ++ concat ((fun l => blanks lt ++ l ++ [x0a]) <$> ls)
  end.

(** ** Progress *)

(** [bars] of 25 bars for [done] of [total]: the exact value rounded down; just
    below a whole number it may be rounded up. *)
Definition bars_ok (bars done total : Z) : Prop :=
  0 <= bars <= 25 /\ 100000 * (bars * total) <= 25 * 100000 * done + total /\
  25 * 100000 * done < 100000 * ((bars + 1) * total) + total /\
  (done = total -> bars = 25) /\ (done = 0 -> bars = 0).
(** [v] tenths of a percent: within 0.051 percent of the exact value. *)
Definition percent_ok (v done total : Z) : Prop :=
  0 <= v <= 1000 /\ 100 * Z.abs (v * total - 1000 * done) <= 51 * total /\
  (done = total -> v = 1000) /\ (done = 0 -> v = 0).
(** [r] seconds remain if [e] nanoseconds were needed for [done]: off by at most a second
    and 0.001 percent of the time needed. *)
Definition eta_ok (r e done total : Z) : Prop :=
  100000 * Z.abs (10 ^ 9 * r * done - e * (total - done)) <= 100000 * 10 ^ 9 * done + e * done.

(** The progress display *)
Definition display (t : bytes) (bars v elapsed : Z) (r : option Z) : Prop :=
  exists i f el re, dec (i ++ [f]) v /\ i <> [] /\ clock el elapsed /\
    match r with Some s => clock re s | None => re = bstr "--:--" end /\
    t = bstr "[" ++ replicate (Z.to_nat bars) x3d ++ replicate (Z.to_nat (25 - bars)) x20 ++
        bstr "] " ++ i ++ bstr "." ++ [f] ++ bstr "% | " ++ el ++ bstr " elapsed | " ++ re ++
        bstr " remaining".

(** A time is shown from 10 percent on. *)
Definition shows_eta (r : option Z) (e done total : Z) : Prop :=
  match r with
  | Some s => 10 * 1000000 * done >= 999999 * total /\ 0 <= s /\ eta_ok s e done total
  | None => 10 * 999999 * done <= 1000000 * total
  end.

(** ** Overwriting *)

(** What is seen after a text was written over [old] from the beginning of the line *)
Definition over (old new : bytes) : bytes := new ++ drop (length new) old.
