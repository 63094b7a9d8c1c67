(** The remaining time *)
From Verif Require Import SpecText FmtProofs RoundProofs TextProofs.
From Coq Require Import Lqa.

Ltac mulr H k Hk := pose proof (Qmult_le_compat_r _ _ k H Hk).

Lemma eta_bound A a p R T D : (0 <= A)%Q -> (0 <= a)%Q -> (- (4 * ulp * A) <= a - A <= 4 * ulp * A)%Q ->
  (0 <= p <= 1)%Q -> (rnd (1 # 10) <= p)%Q -> near (4 * ulp) p R -> (R * T == D)%Q -> (0 < T)%Q -> (0 <= R <= 1)%Q ->
  (A == 0 \/ 1 # 1000000000 <= A)%Q ->
  let r := rnd (rnd (a / p) * rnd (1 - p)) in
  (0 <= r)%Q /\ (- ((1 # 100000) * A * D) <= r * D - A * (T - D) <= (1 # 100000) * A * D)%Q.
Proof.
  intros HA Ha [a1 a2] [p0 p1] Hp [n1 n2] HR HT [R0 R1] Hz r.
  assert (9999 # 100000 <= p)%Q as Hp'.
  { assert (9999 # 100000 <= rnd (1 # 10))%Q by (unfold Qle; by vm_compute). lra. }
  assert (0 <= a / p)%Q as Hq0 by (apply Qle_shift_div_l; lra).
  pose proof (rnd_pos _ Hq0) as Hq. pose proof (rnd_abs _ Hq0) as [q1 q2].
  pose proof (rnd_pos (1 - p) ltac:(lra)) as Hc. pose proof (rnd_abs (1 - p) ltac:(lra)) as [c1 c2].
  pose proof (rnd_le1 (1 - p) ltac:(lra) ltac:(lra)) as Hc1.
  assert (a / p * p == a)%Q as Eq by (field; lra).
  assert (A == 0 -> r == 0)%Q as Hr0.
  { intros E. assert (a == 0)%Q as Ea by (unfold ulp in *; lra).
    unfold r. apply rnd_0. rewrite (rnd_0 (a / p)); [lra|]. rewrite Ea. field. lra. }
  unfold r in *. set (c := rnd (1 - p)) in *. set (Q0 := (a / p)%Q) in *. set (q := rnd Q0) in *.
  assert (0 <= q * c)%Q as Hqc by (mulr Hq c Hc; lra).
  pose proof (rnd_pos _ Hqc) as Hr. pose proof (rnd_abs _ Hqc) as [r1 r2].
  set (rr := rnd (q * c)) in *. clearbody rr q c Q0. split; [done|].
  destruct Hz as [Hz|Hz].
  { rewrite (Hr0 Hz), Hz. lra. }
  clear Hr0 r.
  assert (0 < tiny)%Q as T0 by done. assert (tiny * 10000000000000000000000000000 <= 1)%Q as T1 by by vm_compute.
  assert (tiny <= (1 # 100000000) * ulp * A)%Q as T2 by (unfold ulp; lra).
  set (ty := tiny) in *. clearbody ty. unfold ulp in *.
  (* q * p is close to A *)
  assert (q * p - a <= (1 # 16777216) * a + ty /\ - ((1 # 16777216) * a + ty) <= q * p - a)%Q as [Q1 Q2].
  { mulr q1 p p0. mulr q2 p p0. assert (ty * p <= ty)%Q by (mulr p1 ty (Qlt_le_weak _ _ T0); lra). split; lra. }
  set (qp := (q * p)%Q) in *.
  assert ((1 - (6 # 16777216)) * A <= qp <= (1 + (6 # 16777216)) * A)%Q as [Q3 Q4] by (split; lra).
  assert (rr * p - qp * c <= (1 # 16777216) * (qp * c) + ty /\ - ((1 # 16777216) * (qp * c) + ty) <= rr * p - qp * c)%Q as [S1 S2].
  { mulr r1 p p0. mulr r2 p p0. assert (ty * p <= ty)%Q by (mulr p1 ty (Qlt_le_weak _ _ T0); lra). unfold qp. split; lra. }
  clearbody qp. set (rp := (rr * p)%Q) in *.
  assert ((1 - (6 # 16777216)) * (A * c) <= qp * c <= (1 + (6 # 16777216)) * (A * c))%Q as [S3 S4] by (mulr Q3 c Hc; mulr Q4 c Hc; split; lra).
  assert (0 <= A * c <= A)%Q as [S5 S6] by (mulr Hc A HA; mulr Hc1 A HA; split; lra).
  assert ((- (8 # 16777216)) * A <= rp - A * c <= (8 # 16777216) * A)%Q as [U1 U2] by (split; lra).
  (* times R *)
  assert (- ((11 # 167772160)) - (1#16777216000) <= c - (1 - p) <= (11 # 167772160) + (1#16777216000))%Q as [V1 V2] by (split; lra).
  assert (- ((52 # 167772160) * R) <= c * R - (1 - R) * p <= (52 # 167772160) * R)%Q as [V3 V4].
  { mulr V1 R R0. mulr V2 R R0. split; lra. }
  assert (- ((133 # 167772160) * (A * R)) <= rp * R - A * (1 - R) * p <= (133 # 167772160) * (A * R))%Q as [X1 X2].
  { set (Z0 := (c * R - (1 - R) * p)%Q) in *.
    assert (rp * R - A * (1 - R) * p == (rp - A * c) * R + A * Z0)%Q as E by (unfold Z0; ring).
    rewrite E. clearbody Z0. set (Y := (rp - A * c)%Q) in *. clearbody Y.
    mulr U1 R R0. mulr U2 R R0. mulr V3 A HA. mulr V4 A HA. split; lra. }
  (* divide by p *)
  assert (- ((1 # 100000) * (A * R)) <= rr * R - A * (1 - R) <= (1 # 100000) * (A * R))%Q as [Y1 Y2].
  { assert (0 <= A * R)%Q as HAR by (mulr R0 A HA; lra). set (AR := (A * R)%Q) in *.
    assert (rp * R - A * (1 - R) * p == (rr * R - A * (1 - R)) * p)%Q as E by (unfold rp; ring).
    rewrite E in *. set (Y := (rr * R - A * (1 - R))%Q) in *. clearbody Y AR. mulr Hp' AR HAR.
    split; apply (Qmult_le_r _ _ p ltac:(lra)); lra. }
  rewrite <- HR.
  assert (rr * (R * T) - A * (T - R * T) == (rr * R - A * (1 - R)) * T)%Q as E by ring. rewrite E.
  set (Y := (rr * R - A * (1 - R))%Q) in *. set (AR := (A * R)%Q) in *.
  assert ((1 # 100000) * A * (R * T) == (1 # 100000) * AR * T)%Q as E2 by (unfold AR; ring). rewrite E2.
  clearbody Y AR. assert (0 <= T)%Q as HT' by lra. mulr Y1 T HT'. mulr Y2 T HT'. split; lra.
Qed.

Lemma remaining_ok n N secs nanos : 0 <= n <= N -> 0 < N < 2 ^ 64 -> 0 <= secs -> 0 <= nanos < 10 ^ 9 ->
  exists r, remaining secs nanos (progress n N) = Ret r /\ shows_eta r (10 ^ 9 * secs + nanos) n N.
Proof.
  intros Hn HN Hs Hm. pose proof (p_range n N Hn HN) as [P0 P1]. pose proof (p_near n N Hn HN) as [N1 N2].
  pose proof (R_spec n N HN) as HR. pose proof (R_range n N Hn HN) as [R0 R1].
  pose proof (total_pos N HN) as HT.
  set (p := progress n N) in *. set (R := (inject_Z n / inject_Z N)%Q) in *. clearbody p R.
  assert ((1 # 10) * (1 - ulp) <= rnd (1 # 10) <= (1 # 10) * (1 + ulp))%Q as [L1 L2].
  { split; unfold Qle; by vm_compute. }
  unfold remaining. destruct (Qle_bool (rnd (1 # 10)) p) eqn:E.
  2:{ exists None. split; [done|]. unfold shows_eta. apply Qle_bool_false in E.
      apply Qint_le. rewrite !inject_Z_mult, <- HR.
      change (inject_Z 10) with 10%Q. change (inject_Z 999999) with 999999%Q. change (inject_Z 1000000) with 1000000%Q.
      assert (R <= (1 # 10) * (1 + (6 # 16777216)))%Q as HRle by (unfold ulp in *; lra).
      set (t := inject_Z N) in *. clearbody t. assert (0 <= t)%Q as Ht0 by lra. mulr HRle t Ht0. lra. }
  apply Qle_bool_iff in E.
  destruct (as_secs_ok secs nanos Hs Hm) as (HA & Ha & HAa). set (A := (_ / 1000000000)%Q) in *.
  assert (Qle_bool p 1 = true) as -> by by apply Qle_bool_iff.
  destruct (eta_bound A (as_secs_f32 secs nanos) p R (inject_Z N) (inject_Z n)) as (Hr & B1 & B2); try done; [lra| |].
  { unfold A. destruct (decide (10 ^ 9 * secs + nanos = 0)) as [->|Hz]; [left; by vm_compute|right].
    apply Qle_shift_div_l; [lra|]. assert (1 <= 10 ^ 9 * secs + nanos) as Hge by lia. apply inject_le in Hge.
    change (inject_Z 1) with 1%Q in Hge. lra. }
  set (r := rnd (_ * _)) in *. assert (Qle_bool 0 r = true) as -> by by apply Qle_bool_iff.
  exists (Some (Qfloor r)). split; [done|]. unfold shows_eta. destruct (Qfloor_bounds r) as [F1 F2].
  split; [|split].
  - apply Z.le_ge, Qint_le. rewrite !inject_Z_mult, <- HR.
    change (inject_Z 10) with 10%Q. change (inject_Z 999999) with 999999%Q. change (inject_Z 1000000) with 1000000%Q.
    assert ((1 # 10) * (1 - (6 # 16777216)) <= R)%Q as HRle by (unfold ulp in *; lra).
    set (t := inject_Z N) in *. clearbody t. assert (0 <= t)%Q as Ht0 by lra. mulr HRle t Ht0. lra.
  - assert (-1 < Qfloor r); [|lia]. apply Qint_lt. change (inject_Z (-1)) with (-1)%Q. lra.
  - unfold eta_ok. set (s := Qfloor r) in *. set (e := 10 ^ 9 * secs + nanos) in *.
    assert (inject_Z e == A * 1000000000)%Q as Ee by (unfold A; field). clearbody A r.
    assert (0 <= inject_Z n)%Q as Hn0 by (apply (inject_le 0); lia).
    assert (inject_Z s <= r)%Q as F1' by done. assert (r <= inject_Z s + 1)%Q as F2' by lra.
    mulr F1' (inject_Z n) Hn0. mulr F2' (inject_Z n) Hn0.
    assert (100000 * (10 ^ 9 * s * n - e * (N - n)) <= 100000 * 10 ^ 9 * n + e * n /\
            100000 * (e * (N - n) - 10 ^ 9 * s * n) <= 100000 * 10 ^ 9 * n + e * n) as [? ?]; [|lia].
    clearbody s e.
    split; apply Qint_le; unfold Z.sub; repeat rewrite ?inject_Z_plus, ?inject_Z_mult, ?inject_Z_opp;
      rewrite Ee; change (inject_Z 100000) with 100000%Q; change (inject_Z (10 ^ 9)) with 1000000000%Q;
      set (x := inject_Z n) in *; set (t := inject_Z N) in *; set (z := inject_Z s) in *; clearbody x t z; lra.
Qed.
