(** Specification of counts on parts of an area. *)
From Verif Require Export SpecLocal SpecCong SpecGone.
From Verif Require Import Spec.

(** The numbers in the first message are the sums of those in the others.  Numbers of
    items are 64 bits long. *)
Definition sums (m m1 m2 : msg) : Prop :=
  match m, m1, m2 with
  | MFilled n, MFilled n1, MFilled n2 | MReplaced n, MReplaced n1, MReplaced n2
  | MParam2 n, MParam2 n1, MParam2 n2 | MMeta n, MMeta n1, MMeta n2
  | MTimers n, MTimers n1, MTimers n2 | MObjects n, MObjects n1, MObjects n2
  | MVars n, MVars n1, MVars n2 => n = n1 + n2
  | MStacks i n, MStacks i1 n1, MStacks i2 n2 => i = (i1 + i2) mod 2 ^ 64 /\ n = n1 + n2
  | _, _, _ => False
  end.

(** The run leaves [main'] and reports [m]. *)
Definition told (E : ext) (W : world) (g : args) (main input main' : mapdata) (m : msg) : Prop :=
  exists failed, run_ok E g W main input main' (warnings g ++ [(LInfo, m)] ++ closing failed).
