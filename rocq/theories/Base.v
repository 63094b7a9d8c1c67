(** Machine integers, bytes, outcomes and ordered maps.

    Every definition of the model cites the Rust source it models.  This file
    holds the parts that stand for the Rust language and standard library
    rather than for a particular file of /repo. *)
From stdpp Require Export prelude gmap list list_numbers sorting.
From Coq Require Export ZArith Lia ZifyBool ZifyNat ZifyN.
From Coq Require Export Strings.Byte.
From Coq Require Strings.String.
Export Strings.String.StringSyntax.
Global Open Scope Z_scope.

Ltac Zify.zify_post_hook ::= Z.div_mod_to_equations.

(** * Bytes ([u8] as element of a byte string) *)

Global Instance byte_eq_dec : EqDecision byte.
Proof. intros x y. destruct (Byte.byte_eq_dec x y); [left|right]; done. Defined.

Definition b2z (b : byte) : Z := Z.of_N (Byte.to_N b).
Definition z2b (z : Z) : byte :=
  match Byte.of_N (Z.to_N (z mod 256)) with Some b => b | None => x00 end.

Global Instance byte_countable : Countable byte.
Proof.
  refine (inj_countable' Byte.to_N (fun n => match Byte.of_N n with Some b => b | None => x00 end) _).
  intros b. by rewrite Byte.of_to_N.
Defined.

Notation bytes := (list byte).

(** Byte string literals, as Rust's [b"..."]. *)
Definition bstr (s : String.string) : bytes := String.list_byte_of_string s.
Global Arguments bstr _%string_scope.

(** * Fixed-width integers (release profile: operations wrap) *)

Definition w16 (z : Z) : Z := z mod 65536.                           (* u16 *)
Definition u32 (z : Z) : Z := z mod 4294967296.                      (* u32 *)
Definition u64 (z : Z) : Z := z mod 18446744073709551616.            (* u64 *)
Definition w32 (z : Z) : Z :=                                        (* i32 *)
  (z + 2147483648) mod 4294967296 - 2147483648.
Definition w64 (z : Z) : Z :=                                        (* i64 *)
  (z + 9223372036854775808) mod 18446744073709551616 - 9223372036854775808.

Definition i32_ok (z : Z) : Prop := -2147483648 <= z < 2147483648.
Definition i64_ok (z : Z) : Prop :=
  -9223372036854775808 <= z < 9223372036854775808.
Definition u16_ok (z : Z) : Prop := 0 <= z < 65536.
Definition u32_ok (z : Z) : Prop := 0 <= z < 4294967296.
Definition u8_ok (z : Z) : Prop := 0 <= z < 256.

(** * Outcomes *)

(** A computation that may panic ([unwrap], [assert!], slice index). *)
Inductive out (A : Type) : Type := Ret (a : A) | Panic.
Global Arguments Ret {A} a.
Global Arguments Panic {A}.

Definition bindO {A B} (m : out A) (f : A -> out B) : out B :=
  match m with Ret a => f a | Panic => Panic end.
Notation "'let*' x := m 'in' k" := (bindO m (fun x => k))
  (at level 200, x pattern, m at level 100, k at level 200, right associativity).

(** [Option::unwrap] *)
Definition unwrap {A} (o : option A) : out A :=
  match o with Some a => Ret a | None => Panic end.

(** src/map_block/mod.rs:24-34 *)
Inductive mb_error :=
  | BadData | InvalidBlockVersion | InvalidFeature | InvalidSubVersion.

(** [Result<A, MapBlockError>] *)
Inductive res (A : Type) : Type := Ok (a : A) | Err (e : mb_error).
Global Arguments Ok {A} a.
Global Arguments Err {A} e.

Definition bindR {A B} (m : res A) (f : A -> res B) : res B :=
  match m with Ok a => f a | Err e => Err e end.
Notation "'try' x := m 'in' k" := (bindR m (fun x => k))
  (at level 200, x pattern, m at level 100, k at level 200, right associativity).

(** [Result::ok] *)
Definition res_ok {A} (r : res A) : option A :=
  match r with Ok a => Some a | Err _ => None end.

(** * Ordered maps

    [BTreeMap<u16, V>] is a finite map; iteration is in increasing key order. *)
Definition key_le {V} (x y : Z * V) : Prop := x.1 <= y.1.
Global Instance key_le_dec {V} : RelDecision (@key_le V).
Proof. intros x y. unfold key_le. apply _. Defined.

Definition sorted_list {V} (m : gmap Z V) : list (Z * V) :=
  merge_sort key_le (map_to_list m).

(** [BTreeMap::iter().next_back()] *)
Definition max_key {V} (m : gmap Z V) : option Z :=
  fst <$> last (sorted_list m).

(** Inclusive integer range [a..=b]. *)
Definition zrange (a b : Z) : list Z := seqZ a (b - a + 1).

(** Vector indexing: [v[i]] panics out of bounds.  [i] is a [usize]; a negative
    [i] stands for the huge value obtained by casting, which is out of bounds. *)
Definition vget {A} (v : list A) (i : Z) : out A :=
  if i <? 0 then Panic else unwrap (v !! Z.to_nat i).
Definition vset {A} (v : list A) (i : Z) (x : A) : out (list A) :=
  if (i <? 0) || (Z.of_nat (length v) <=? i) then Panic
  else Ret (<[Z.to_nat i := x]> v).

(** First occurrence of [pat] in [s] (the [memmem] crate's searchers). *)
Fixpoint find_sub (pat s : bytes) : option nat :=
  if decide (take (length pat) s = pat) then Some O
  else match s with
       | [] => None
       | _ :: t => S <$> find_sub pat t
       end.
