(** Model of the number formatting of src/utils.rs *)
From Verif Require Export Base.
From Coq Require Export QArith Qround.
Global Open Scope Z_scope.

(** * Decimal output of the standard library *)

Definition dig (n : Z) : byte := z2b (48 + n mod 10).
(** [{}] of an unsigned integer; twenty digits are enough for a [u64]. *)
Fixpoint show_fuel (fuel : nat) (n : Z) : bytes :=
  match fuel with
  | O => []
  | S f => if n <? 10 then [dig n] else show_fuel f (n / 10) ++ [dig n]
  end.
Definition show (n : Z) : bytes := show_fuel 20 n.
(** [{:02}] *)
Definition show2 (n : Z) : bytes := if n <? 10 then bstr "0" ++ show n else show n.
(** Exactly [p] digits. *)
Fixpoint pad (p : nat) (n : Z) : bytes :=
  match p with O => [] | S p => pad p (n / 10) ++ [dig n] end.

(** utils.rs:152-159; [s] is [dur.as_secs()] *)
Definition fmt_duration (s : Z) : bytes :=
  if s <? 3600 then show2 (s / 60 mod 60) ++ bstr ":" ++ show2 (s mod 60)
  else show (s / 3600) ++ bstr ":" ++ show2 (s / 60 mod 60) ++ bstr ":" ++ show2 (s mod 60).

(** * Single-precision numbers

    A finite [f32] is its exact value.  All values here are 0 or between 1 and
    2^64, so there is no overflow, underflow, NaN or negative number. *)

(** Round [a/b] to an integer, ties to even. *)
Definition rne (a b : Z) : Z :=
  let q := a / b in
  let r := a mod b in
  if 2 * r <? b then q else if b <? 2 * r then q + 1 else if Z.even q then q else q + 1.
(** Round a rational of at least 1 to 24 significant bits. *)
Definition round24 (x : Q) : Q :=
  let e := Z.log2 (Qnum x / Zpos (Qden x)) in
  Qmake (rne (Qnum x * 2 ^ 23) (Zpos (Qden x) * 2 ^ e) * 2 ^ e) (2 ^ 23).
(** [as f32] *)
Definition f32_of (n : Z) : Q := if n <=? 0 then 0%Q else round24 (inject_Z n).
(** [/] *)
Definition f32_div (x y : Q) : Q := round24 (x / y).

(** [{:.p}] of an [f32]: the value is rounded to [p] decimal places.  How exact
    ties are rounded depends on the version of the standard library ([tie]:
    whether to round up, given the number below). *)
Definition round_dec (tie : Z -> bool) (p : nat) (x : Q) : Z :=
  let a := Qnum x * 10 ^ Z.of_nat p in
  let b := Zpos (Qden x) in
  let q := a / b in
  let r := a mod b in
  if 2 * r <? b then q else if b <? 2 * r then q + 1 else if tie q then q + 1 else q.
Definition show_dec (p : nat) (n : Z) : bytes :=
  let u := 10 ^ Z.of_nat p in
  show (n / u) ++ (if (p =? 0)%nat then [] else bstr "." ++ pad p (n mod u)).

(** utils.rs:164-169; the literals are rounded to [f32] too *)
Definition ABBREVS : list (bytes * Z) :=
  [(bstr "T", 1000000000000); (bstr "B", 1000000000); (bstr "M", 1000000); (bstr "k", 1000)].

(** utils.rs:173-176 *)
Definition place_vals (m : Q) : nat :=
  if Qle_bool 100 m then 0 else if Qle_bool 10 m then 1 else 2.
(** utils.rs:170-180.  A whole [f32] below 1000 is printed as an integer. *)
Fixpoint abbrev (tie : Z -> bool) (l : list (bytes * Z)) (f : Q) : bytes :=
  match l with
  | [] => show (Qfloor (f + (1 # 2)))
  | (suffix, u) :: l =>
    if Qle_bool (f32_of u) f then
      let m := f32_div f (f32_of u) in
      let p := place_vals m in
      show_dec p (round_dec tie p m) ++ suffix
    else abbrev tie l f
  end.
(** utils.rs:162-181 *)
Definition fmt_big_num (tie : Z -> bool) (n : Z) : bytes := abbrev tie ABBREVS (f32_of n).
