(** The progress display *)
From Verif Require Import SpecText FmtProofs RoundProofs.
From Coq Require Import Lqa.

Lemma rnd_abs x : (0 <= x)%Q -> (- (ulp * x + tiny) <= rnd x - x <= ulp * x + tiny)%Q.
Proof.
  intros H. destruct (Qlt_le_dec x tiny) as [Hlt|Hge].
  - pose proof (rnd_mono x tiny H ltac:(lra)) as H1. assert (rnd tiny == tiny)%Q as E by by vm_compute.
    pose proof (rnd_mono 0 x ltac:(lra) H) as H2. assert (rnd 0 == 0)%Q as E0 by by vm_compute.
    unfold ulp. lra.
  - pose proof (rnd_near x Hge) as [H1 H2]. assert (0 < tiny)%Q by done. unfold ulp in *. lra.
Qed.
Lemma rnd_pos x : (0 <= x)%Q -> (0 <= rnd x)%Q.
Proof. intros H. pose proof (rnd_mono 0 x ltac:(lra) H) as H2. assert (rnd 0 == 0)%Q as E0 by by vm_compute. lra. Qed.
Lemma rnd_le1 x : (0 <= x)%Q -> (x <= 1)%Q -> (rnd x <= 1)%Q.
Proof. intros H0 H. pose proof (rnd_mono x 1 H0 H) as H2. assert (rnd 1 == 1)%Q as E0 by by vm_compute. lra. Qed.

Lemma f32_near0 n : 0 <= n -> near ulp (f32_of n) (inject_Z n).
Proof.
  intros H. destruct (decide (n = 0)) as [->|]; [by vm_compute|]. apply f32_of_near. lia.
Qed.
Lemma inject_le a b : a <= b -> (inject_Z a <= inject_Z b)%Q.
Proof. unfold Qle. simpl. lia. Qed.

(** ** The ratio *)
Section ratio.
  Context (n N : Z) (Hd : 0 <= n <= N) (Ht : 0 < N < 2 ^ 64).
  Let R : Q := (inject_Z n / inject_Z N)%Q.
  Let p : Q := progress n N.

  Lemma total_pos : (1 <= inject_Z N)%Q.
  Proof. apply (inject_le 1). lia. Qed.
  Lemma R_spec : (R * inject_Z N == inject_Z n)%Q.
  Proof. unfold R. pose proof total_pos. field. lra. Qed.
  Lemma R_range : (0 <= R <= 1)%Q.
  Proof.
    pose proof total_pos. pose proof R_spec. pose proof (inject_le 0 n ltac:(lia)) as Hz.
    pose proof (inject_le n N ltac:(lia)). change (inject_Z 0) with 0%Q in Hz. split; nra.
  Qed.
  Lemma p_eq : p = rnd (f32_of n / f32_of N).
  Proof. unfold p, progress. by replace (N =? 0) with false by lia. Qed.
  Lemma quot_range : (0 <= f32_of n / f32_of N <= 1)%Q.
  Proof.
    pose proof (f32_of_ge1 N ltac:(lia)). pose proof (f32_of_mono n N ltac:(lia)).
    pose proof (f32_of_range n ltac:(lia)). split.
    - apply Qle_shift_div_l; lra.
    - apply Qle_shift_div_r; lra.
  Qed.
  Lemma p_range : (0 <= p <= 1)%Q.
  Proof.
    rewrite p_eq. destruct quot_range. split; [by apply rnd_pos|by apply rnd_le1].
  Qed.
  Lemma p_full : n = N -> (p == 1)%Q.
  Proof.
    intros E. rewrite p_eq, E. apply rnd_1. pose proof (f32_of_ge1 N ltac:(lia)). field. lra.
  Qed.
  Lemma p_zero : n = 0 -> (p == 0)%Q.
  Proof.
    intros E. rewrite p_eq, E. apply rnd_0. pose proof (f32_of_ge1 N ltac:(lia)). rewrite f32_of_0. field. lra.
  Qed.
  Lemma p_near : near (4 * ulp) p R.
  Proof.
    destruct (decide (n = 0)) as [E|E].
    { pose proof (p_zero E). pose proof R_spec. pose proof total_pos. unfold near.
      assert (inject_Z n == 0)%Q by (by rewrite E). assert (R == 0)%Q by nra. unfold ulp. lra. }
    pose proof (f32_near0 n ltac:(lia)) as [D1 D2]. pose proof (f32_near0 N ltac:(lia)) as [T1 T2].
    pose proof R_spec as HR. pose proof R_range as [HR0 HR1]. pose proof total_pos as HT.
    pose proof (f32_of_ge1 N ltac:(lia)) as HT1. pose proof (f32_of_ge1 n ltac:(lia)) as HD1.
    pose proof quot_range as [Hq0 Hq1].
    set (q := (f32_of n / f32_of N)%Q) in *.
    assert (q * f32_of N == f32_of n)%Q as Hq by (unfold q; field; lra).
    assert (f32_of N <= 2 ^ 65)%Q as HT2.
    { pose proof (f32_of_mono N (2 ^ 64) ltac:(lia)) as Hm.
      assert (f32_of (2 ^ 64) == 18446744073709551616)%Q as E2 by by vm_compute. rewrite E2 in Hm.
      change (2 ^ 65)%Q with (36893488147419103232 # 1). lra. }
    assert (tiny <= q)%Q as Hq2.
    { change (2 ^ 65)%Q with (36893488147419103232 # 1) in HT2.
      assert (1 <= q * 36893488147419103232)%Q by nra.
      assert (tiny * 36893488147419103232 <= 1)%Q by by vm_compute. nra. }
    rewrite p_eq. fold q. pose proof (rnd_near q Hq2) as [N1 N2]. unfold near.
    assert (- ((1001 # 1000) * (2 * ulp) * R) <= q - R <= (1001 # 1000) * (2 * ulp) * R)%Q as [M1 M2].
    { set (D := f32_of n) in *. set (T := f32_of N) in *. clearbody D T q.
      set (d := inject_Z n) in *. set (t := inject_Z N) in *. clearbody d t. clearbody R.
      clear p N1 N2 E Hd Ht Hq2 HT2. unfold ulp in *.
      assert (0 <= R * t)%Q by nra. split; nra. }
    clearbody q. clear - N1 N2 M1 M2 HR0. unfold ulp in *. split; lra.
  Qed.
End ratio.

Lemma Qfloor_bounds x : (inject_Z (Qfloor x) <= x)%Q /\ (x < inject_Z (Qfloor x) + 1)%Q.
Proof.
  split; [apply Qfloor_le|]. pose proof (Qlt_floor x) as H. rewrite inject_Z_plus in H. done.
Qed.
Lemma Qfloor_eq x (z : Z) : (x == inject_Z z)%Q -> Qfloor x = z.
Proof. intros H. rewrite (Qfloor_comp _ _ H). apply Qfloor_Z. Qed.
Lemma Qint_le a b : (inject_Z a <= inject_Z b)%Q -> a <= b.
Proof. unfold Qle. simpl. lia. Qed.
Lemma Qint_lt a b : (inject_Z a < inject_Z b)%Q -> a < b.
Proof. unfold Qlt. simpl. lia. Qed.

(** Bounds on rational numbers as bounds on integers *)
Ltac to_int := rewrite ?inject_Z_plus, ?inject_Z_mult, ?inject_Z_opp; cbn [inject_Z].

Lemma num_bars_ok n N : 0 <= n <= N -> 0 < N < 2 ^ 64 -> bars_ok (num_bars (progress n N)) n N.
Proof.
  intros Hn HN. pose proof (p_range n N Hn HN) as [P0 P1]. pose proof (p_near n N Hn HN) as [N1 N2].
  pose proof (R_spec n N HN) as HR. pose proof (R_range n N Hn HN) as [R0 R1].
  pose proof (p_full n N HN) as Hfull. pose proof (p_zero n N HN) as Hzero.
  pose proof (total_pos N HN) as HT.
  set (p := progress n N) in *. set (R := (inject_Z n / inject_Z N)%Q) in *. clearbody p R.
  unfold num_bars. pose proof (rnd_abs (p * 25) ltac:(lra)) as [A1 A2].
  pose proof (rnd_mono (p * 25) 25 ltac:(lra) ltac:(lra)) as M1.
  assert (rnd 25 == 25)%Q as E25 by by vm_compute. rewrite E25 in M1.
  pose proof (rnd_pos (p * 25) ltac:(lra)) as M0.
  set (y := rnd (p * 25)) in *. destruct (Qfloor_bounds y) as [F1 F2].
  assert (- (1 # 100000) < y - 25 * R < 1 # 100000)%Q as [B1 B2].
  { assert (0 < tiny < ulp)%Q as [? ?] by by vm_compute. unfold ulp in *. split; lra. }
  split; [|split; [|split; [|split]]].
  - split.
    + assert (0 < Qfloor y + 1); [|lia]. apply Qint_lt. rewrite inject_Z_plus.
      change (inject_Z 0) with 0%Q. change (inject_Z 1) with 1%Q. lra.
    + apply Qint_le. change (inject_Z 25) with 25%Q. lra.
  - apply Qint_le. rewrite !inject_Z_plus, !inject_Z_mult. set (b := inject_Z (Qfloor y)) in *.
    rewrite <- HR. clearbody b. change (inject_Z 100000) with 100000%Q. change (inject_Z 25) with 25%Q.
    set (t := inject_Z N) in *. clearbody t. nra.
  - apply Qint_lt. rewrite !inject_Z_plus, !inject_Z_mult, inject_Z_plus. set (b := inject_Z (Qfloor y)) in *.
    rewrite <- HR. clearbody b. change (inject_Z 100000) with 100000%Q. change (inject_Z 25) with 25%Q. change (inject_Z 1) with 1%Q.
    set (t := inject_Z N) in *. clearbody t. nra.
  - intros E. apply (Qfloor_eq y 25). unfold y. rewrite <- (rnd_compat 25); [done|lra|]. rewrite (Hfull E). lra.
  - intros E. apply (Qfloor_eq y 0). unfold y. apply rnd_0. rewrite (Hzero E). lra.
Qed.

Lemma round_dec_mono tie p x y : (x <= y)%Q -> round_dec tie p x <= round_dec tie p y.
Proof.
  intros H. destruct x as [a d], y as [a' d']. unfold Qle in H. unfold round_dec. cbn [Qnum Qden] in *.
  set (P := 10 ^ Z.of_nat p). assert (0 < P) by (unfold P; lia). clearbody P.
  set (D := Zpos d) in *. set (D' := Zpos d') in *. assert (0 < D) by done. assert (0 < D') by done. clearbody D D'.
  assert (a * P * D' <= a' * P * D) as H' by nia.
  set (u := a * P) in *. set (v := a' * P) in *. clearbody u v.
  pose proof (Z_div_mod_eq_full u D). pose proof (Z.mod_pos_bound u D ltac:(lia)).
  pose proof (Z_div_mod_eq_full v D'). pose proof (Z.mod_pos_bound v D' ltac:(lia)).
  assert (u / D <= v / D') as Hq.
  { rewrite <- (Z.div_mul_cancel_r u D D'), <- (Z.div_mul_cancel_r v D' D) by lia.
    rewrite (Z.mul_comm D' D). apply Z.div_le_mono; lia. }
  set (q := u / D) in *. set (q' := v / D') in *. set (r := u mod D) in *. set (r' := v mod D') in *.
  assert (q = q' -> r * D' <= r' * D) as Hr by (intros Eq; rewrite <- Eq in *; clearbody q q' r r'; nia).
  clearbody q q' r r'.
  repeat case_match; try lia;
    repeat match goal with H : (_ <? _) = true |- _ => apply Z.ltb_lt in H | H : (_ <? _) = false |- _ => apply Z.ltb_ge in H end;
    try lia; destruct (Z.eq_dec q q') as [Eq|]; try lia; specialize (Hr Eq); subst; try congruence; nia.
Qed.

Lemma percent_value tie n N : 0 <= n <= N -> 0 < N < 2 ^ 64 ->
  percent_ok (round_dec tie 1 (rnd (progress n N * 100))) n N.
Proof.
  intros Hn HN. pose proof (p_range n N Hn HN) as [P0 P1]. pose proof (p_near n N Hn HN) as [N1 N2].
  pose proof (R_spec n N HN) as HR. pose proof (R_range n N Hn HN) as [R0 R1].
  pose proof (p_full n N HN) as Hfull. pose proof (p_zero n N HN) as Hzero.
  pose proof (total_pos N HN) as HT.
  set (p := progress n N) in *. set (R := (inject_Z n / inject_Z N)%Q) in *. clearbody p R.
  pose proof (rnd_abs (p * 100) ltac:(lra)) as [A1 A2].
  pose proof (rnd_mono (p * 100) 100 ltac:(lra) ltac:(lra)) as M1.
  assert (rnd 100 == 100)%Q as E100 by by vm_compute. rewrite E100 in M1.
  pose proof (rnd_pos (p * 100) ltac:(lra)) as M0.
  assert (n = N -> rnd (p * 100) == 100)%Q as Yfull.
  { intros E. rewrite <- E100 at 2. rewrite <- (rnd_compat 100 (p * 100)); [done|lra|]. rewrite (Hfull E). lra. }
  assert (n = 0%Z -> rnd (p * 100) == 0)%Q as Yzero.
  { intros E. apply rnd_0. rewrite (Hzero E). lra. }
  set (y := rnd (p * 100)) in *. clearbody y.
  assert (- (1 # 10000) < y - 100 * R < 1 # 10000)%Q as [B1 B2].
  { assert (0 < tiny < ulp)%Q as [? ?] by by vm_compute. unfold ulp in *. split; lra. }
  pose proof (round_dec_Q tie 1 y) as [F1 F2]. change (inject_Z (10 ^ Z.of_nat 1)) with 10%Q in *.
  set (v := round_dec tie 1 y) in *. clearbody v. set (V := inject_Z v) in *.
  assert (-1 < v) by (apply Qint_lt; unfold V in *; unfold inject_Z in *; lra).
  assert (v < 1001) by (apply Qint_lt; unfold V in *; unfold inject_Z in *; lra).
  split; [lia|]. split; [|split].
  - assert (100 * (v * N - 1000 * n) <= 51 * N /\ 100 * (1000 * n - v * N) <= 51 * N) as [? ?]; [|lia].
    split; apply Qint_le; unfold Z.sub; rewrite ?inject_Z_plus, ?inject_Z_mult, ?inject_Z_plus, ?inject_Z_opp, ?inject_Z_mult;
      rewrite <- HR; fold V; change (inject_Z 100) with 100%Q; change (inject_Z 51) with 51%Q; change (inject_Z 1000) with 1000%Q;
      set (t := inject_Z N) in *; clearbody t V; nra.
  - intros E. specialize (Yfull E). assert (999 < v); [|lia]. apply Qint_lt. unfold V in *; unfold inject_Z in *; lra.
  - intros E. specialize (Yzero E). assert (v < 1); [|lia]. apply Qint_lt. unfold V in *; unfold inject_Z in *; lra.
Qed.

(** ** Remaining time *)
Lemma as_secs_ok secs nanos : 0 <= secs -> 0 <= nanos < 10 ^ 9 ->
  let A := (inject_Z (10 ^ 9 * secs + nanos) / 1000000000)%Q in
  (0 <= A)%Q /\ (0 <= as_secs_f32 secs nanos)%Q /\
  (- (4 * ulp * A) <= as_secs_f32 secs nanos - A <= 4 * ulp * A)%Q.
Proof.
  intros Hs Hn A. pose proof (f32_near0 secs Hs) as [S1 S2]. pose proof (f32_near0 nanos ltac:(lia)) as [M1 M2].
  assert (A == inject_Z secs + inject_Z nanos / 1000000000)%Q as EA.
  { unfold A. rewrite inject_Z_plus, inject_Z_mult. change (inject_Z (10 ^ 9)) with 1000000000%Q. field. }
  pose proof (inject_le 0 secs Hs) as Hs'. pose proof (inject_le 0 nanos ltac:(lia)) as Hn'.
  change (inject_Z 0) with 0%Q in *.
  destruct (decide (secs = 0 /\ nanos = 0)) as [[-> ->]|Hnz].
  { assert (as_secs_f32 0 0 == 0)%Q as E by by vm_compute. change (inject_Z 0) with 0%Q in *.
    assert (A == 0)%Q by (rewrite EA; by vm_compute). unfold ulp. lra. }
  assert (1 # 1000000000 <= A)%Q as HA.
  { assert (1 <= secs \/ 1 <= nanos) as [H|H] by lia; apply inject_le in H; change (inject_Z 1) with 1%Q in H.
    - assert (0 <= inject_Z nanos / 1000000000)%Q by (apply Qle_shift_div_l; lra). lra.
    - assert (1 # 1000000000 <= inject_Z nanos / 1000000000)%Q by (apply Qle_shift_div_l; lra). lra. }
  unfold as_secs_f32. pose proof (f32_of_range secs Hs) as F1. pose proof (f32_of_range nanos ltac:(lia)) as F2.
  set (fs := f32_of secs) in *. set (fn := f32_of nanos) in *.
  assert (fn / 1000000000 == fn * (1 # 1000000000))%Q as En by field.
  pose proof (rnd_abs (fn / 1000000000) ltac:(rewrite En; lra)) as [B1 B2].
  pose proof (rnd_pos (fn / 1000000000) ltac:(rewrite En; lra)) as B0.
  set (x := rnd (fn / 1000000000)) in *.
  pose proof (rnd_abs (fs + x) ltac:(lra)) as [C1 C2]. pose proof (rnd_pos (fs + x) ltac:(lra)) as C0.
  set (y := rnd (fs + x)) in *. clearbody y x fs fn. rewrite En in *.
  assert (inject_Z nanos / 1000000000 == inject_Z nanos * (1 # 1000000000))%Q as Em by field. rewrite Em in EA.
  assert (0 < tiny)%Q as T0 by done. assert (tiny * 1000000000000000000000 <= 1)%Q as T1 by by vm_compute.
  set (S := inject_Z secs) in *. set (M := inject_Z nanos) in *. clearbody S M A.
  clear Hs Hn Hnz En Em. unfold ulp in *. split; [lra|]. split; [done|]. split; lra.
Qed.
