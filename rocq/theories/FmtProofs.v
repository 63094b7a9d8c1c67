(** Number formatting *)
From Verif Require Import SpecFmt CliProofs CodecProofs.
From Coq Require Import Lqa.

Lemma dig_ok n : b2z (dig n) = 48 + n mod 10 /\ 0 <= n mod 10 < 10.
Proof. unfold dig. rewrite b2z_z2b. lia. Qed.
Lemma show_fuel_dec f n : 0 <= n < 10 ^ Z.of_nat f -> (0 < f)%nat -> dec (show_fuel f n) n.
Proof.
  revert n. induction f as [|f IH]; intros n Hn Hf; [lia|]. simpl. destruct (dig_ok n) as [Hd Hr].
  rewrite Nat2Z.inj_succ, Z.pow_succ_r in Hn by lia. destruct (Z.ltb_spec n 10).
  - replace n with (n mod 10) at 2 by lia. by apply dec_one.
  - replace n with (10 * (n / 10) + n mod 10) at 3 by lia. apply dec_more; [|done..].
    destruct f; [change (10 ^ Z.of_nat 0) with 1 in Hn; lia|]. apply IH; lia.
Qed.
Lemma show_dec_ok n : 0 <= n < 10 ^ 20 -> dec (show n) n.
Proof. intros H. apply (show_fuel_dec 20); [done|lia]. Qed.
Lemma show_fuel_head f n : 0 < n < 10 ^ Z.of_nat f -> head (show_fuel f n) <> Some x30.
Proof.
  revert n. induction f as [|f IH]; intros n Hn; [change (10 ^ Z.of_nat 0) with 1 in Hn; lia|].
  simpl. destruct (dig_ok n) as [Hd Hr].
  rewrite Nat2Z.inj_succ, Z.pow_succ_r in Hn by lia. destruct (Z.ltb_spec n 10).
  - simpl. intros [= H0]. rewrite H0 in Hd. change (b2z x30) with 48 in Hd. lia.
  - assert (0 < n / 10 < 10 ^ Z.of_nat f) as Hq by lia. specialize (IH _ Hq).
    destruct f; [change (10 ^ Z.of_nat 0) with 1 in Hn; lia|].
    pose proof (show_fuel_dec (S f) (n / 10) ltac:(lia) ltac:(lia)) as Hs. apply dec_nonempty in Hs.
    by destruct (show_fuel (S f) (n / 10)).
Qed.
Lemma show_S f n : show_fuel (S f) n = if n <? 10 then [dig n] else show_fuel f (n / 10) ++ [dig n].
Proof. done. Qed.
Lemma show_small n : n < 10 -> show n = [dig n].
Proof. intros H. unfold show. rewrite show_S. by replace (n <? 10) with true by lia. Qed.
Lemma show2_ok n : 0 <= n < 60 -> sixty (show2 n) n.
Proof.
  intros Hn. unfold sixty, show2. split; [|split; [|done]].
  - destruct (Z.ltb_spec n 10) as [Hlt|Hge]; [|apply show_dec_ok; lia].
    rewrite show_small by done. destruct (dig_ok n).
    replace n with (10 * 0 + n mod 10) at 2 by lia. apply (dec_more [x30]); [|done..]. by apply dec_one.
  - destruct (Z.ltb_spec n 10) as [Hlt|Hge]; [by rewrite show_small|].
    unfold show. rewrite show_S. replace (n <? 10) with false by lia. rewrite show_S.
    by replace (n / 10 <? 10) with true by lia.
Qed.
Lemma fmt_duration_ok s : 0 <= s < 2 ^ 64 -> clock (fmt_duration s) s.
Proof.
  intros Hs. unfold fmt_duration, clock. destruct (Z.ltb_spec s 3600) as [Hlt|Hge].
  - exists [], 0, (show2 (s / 60 mod 60)), (s / 60 mod 60), (show2 (s mod 60)), (s mod 60).
    split; [done|]. split; [lia|]. split; [apply show2_ok; lia|]. split; [apply show2_ok; lia|]. by left.
  - exists (show (s / 3600) ++ bstr ":"), (s / 3600), (show2 (s / 60 mod 60)), (s / 60 mod 60), (show2 (s mod 60)), (s mod 60).
    split; [by rewrite <- app_assoc|]. split; [lia|]. split; [apply show2_ok; lia|]. split; [apply show2_ok; lia|].
    right. split; [lia|]. exists (show (s / 3600)). split; [done|]. split; [apply show_dec_ok; lia|].
    apply (show_fuel_head 20). simpl. lia.
Qed.

(** ** Decimal places *)
Lemma dec_app s n p m : dec s n -> 0 <= m < 10 ^ Z.of_nat p -> dec (s ++ pad p m) (n * 10 ^ Z.of_nat p + m).
Proof.
  intros Hs. revert m. induction p as [|p IH]; intros m Hm; simpl pad.
  - change (10 ^ Z.of_nat 0) with 1 in *. rewrite app_nil_r. by replace (n * 1 + m) with n by lia.
  - rewrite app_assoc. destruct (dig_ok m) as [Hd Hr]. rewrite Nat2Z.inj_succ, Z.pow_succ_r in * by lia.
    replace (n * (10 * 10 ^ Z.of_nat p) + m) with (10 * (n * 10 ^ Z.of_nat p + m / 10) + m mod 10) by lia.
    apply dec_more; [|done..]. apply IH. lia.
Qed.
Lemma pad_length p m : length (pad p m) = p.
Proof. revert m. induction p as [|p IH]; intros m; [done|]. simpl. rewrite app_length, IH. simpl. lia. Qed.
Lemma show_dec_shape p n : 0 <= n < 10 ^ 20 -> exists i f, dec (i ++ f) n /\ i <> [] /\ length f = p /\
  show_dec p n = i ++ match f with [] => [] | _ => bstr "." ++ f end.
Proof.
  intros Hn. unfold show_dec. set (u := 10 ^ Z.of_nat p). assert (0 < u) by (unfold u; lia).
  exists (show (n / u)), (pad p (n mod u)).
  assert (0 <= n / u < 10 ^ 20) as Hq by (split; [apply Z.div_pos; lia|]; apply Z.div_lt_upper_bound; nia).
  pose proof (show_dec_ok _ Hq) as Hd. split.
  { replace n with (n / u * u + n mod u) at 3 by (pose proof (Z_div_mod_eq_full n u); lia).
    apply dec_app; [done|]. apply Z.mod_pos_bound. done. }
  split; [by apply dec_nonempty in Hd|]. split; [apply pad_length|]. f_equal.
  pose proof (pad_length p (n mod u)). destruct p as [|p]; [done|].
  destruct (Nat.eqb_spec (S p) 0); [done|]. by destruct (pad (S p) (n mod u)).
Qed.

(** ** Rounding *)
Lemma rne_ok a b : 0 < b -> 2 * Z.abs (rne a b * b - a) <= b.
Proof.
  intros Hb. unfold rne. pose proof (Z_div_mod_eq_full a b). pose proof (Z.mod_pos_bound a b Hb).
  destruct (Z.ltb_spec (2 * (a mod b)) b); [nia|]. destruct (Z.ltb_spec b (2 * (a mod b))); [nia|].
  destruct (Z.even _); nia.
Qed.
Lemma round_dec_ok tie p x : let N := round_dec tie p x in
  2 * Z.abs (N * Zpos (Qden x) - Qnum x * 10 ^ Z.of_nat p) <= Zpos (Qden x).
Proof.
  intros N. unfold N, round_dec. set (a := Qnum x * 10 ^ Z.of_nat p). set (b := Zpos (Qden x)).
  assert (0 < b) as Hb by done. pose proof (Z_div_mod_eq_full a b). pose proof (Z.mod_pos_bound a b Hb).
  destruct (Z.ltb_spec (2 * (a mod b)) b); [nia|]. destruct (Z.ltb_spec b (2 * (a mod b))); [nia|].
  destruct (tie _); nia.
Qed.

Definition near (eps x y : Q) : Prop := (- (eps * y) <= x - y <= eps * y)%Q.
Lemma round24_near x : (1 <= x)%Q -> near (1 # 16777216) (round24 x) x.
Proof.
  intros Hx. unfold round24. destruct x as [n d]. cbn [Qnum Qden]. unfold Qle in Hx. simpl in Hx.
  set (e := Z.log2 (n / Zpos d)). assert (1 <= n / Zpos d) as Hq by (apply Z.div_le_lower_bound; lia).
  pose proof (Z.log2_spec (n / Zpos d) ltac:(lia)) as [He _]. fold e in He. pose proof (Z.log2_nonneg (n / Zpos d)) as He0. fold e in He0.
  assert (0 < 2 ^ e) as Hpe by (apply Z.pow_pos_nonneg; lia).
  set (pe := 2 ^ e) in *. pose proof (rne_ok (n * 2 ^ 23) (Zpos d * pe) ltac:(lia)) as Hr.
  set (m := rne _ _) in *. assert (pe * Zpos d <= n) as Hn.
  { etrans; [apply Z.mul_le_mono_nonneg_r; [lia|exact He]|]. rewrite Z.mul_comm. apply Z.mul_div_le. lia. }
  clearbody m pe. clear He He0 Hq e Hx.
  unfold near, Qle, Qminus, Qplus, Qopp, Qmult. cbn [Qnum Qden].
  change (Zpos (2 ^ 23)) with 8388608. change (2 ^ 23) with 8388608 in Hr. rewrite !Pos2Z.inj_mul.
  change (Zpos (2 ^ 23)) with 8388608. change (Zpos 16777216) with 16777216.
  set (D := Zpos d) in *. assert (0 < D) by done. clearbody D.
  assert (2 * Z.abs (m * pe * D - n * 8388608) <= n) as Hr' by (rewrite Z.mul_assoc in Hr; nia).
  assert (- n <= 2 * (m * pe * D - n * 8388608) <= n) as [H1 H2] by lia.
  split; nia.
Qed.
Lemma f32_of_near n : 0 < n -> near (1 # 16777216) (f32_of n) (inject_Z n).
Proof.
  intros Hn. unfold f32_of. destruct (Z.leb_spec n 0); [lia|]. apply round24_near. unfold Qle. simpl. lia.
Qed.

Lemma round_dec_Q tie p x : let N := round_dec tie p x in
  (- (1 # 2) <= inject_Z N - x * inject_Z (10 ^ Z.of_nat p) <= 1 # 2)%Q.
Proof.
  intros N. pose proof (round_dec_ok tie p x) as H. fold N in H. cbv zeta in H. clearbody N.
  destruct x as [a d]. cbn [Qnum Qden] in H. set (P := 10 ^ Z.of_nat p) in *. clearbody P.
  unfold Qle, Qminus, Qplus, Qopp, Qmult, inject_Z. cbn [Qnum Qden]. rewrite !Pos2Z.inj_mul.
  set (D := Zpos d) in *. assert (0 < D) by done. clearbody D. split; nia.
Qed.
Lemma Qle_bool_false x y : Qle_bool x y = false -> (y < x)%Q.
Proof.
  intros H. apply Qnot_le_lt. intros Hle. apply Qle_bool_iff in Hle. congruence.
Qed.
Lemma place_cases m : let p := place_vals m in
  (p = 0%nat /\ (100 <= m)%Q) \/ (p = 1%nat /\ (10 <= m < 100)%Q) \/ (p = 2%nat /\ (m < 10)%Q).
Proof.
  unfold place_vals. destruct (Qle_bool 100 m) eqn:E1; [left; split; [done|by apply Qle_bool_iff]|].
  apply Qle_bool_false in E1. destruct (Qle_bool 10 m) eqn:E2.
  - right; left. split; [done|]. split; [by apply Qle_bool_iff|done].
  - right; right. split; [done|]. by apply Qle_bool_false.
Qed.

(** The quotient and its distance to [n/U]; [W] is the literal of the code for [U]. *)
Lemma quotient f U W : 0 < W -> (f32_of U == inject_Z W)%Q -> Qle_bool (f32_of U) f = true ->
  exists y, (1 <= y)%Q /\ (f == y * inject_Z W)%Q /\ near (1 # 16777216) (f32_div f (f32_of U)) y.
Proof.
  intros HW HWU Hle. apply Qle_bool_iff in Hle. exists (f / f32_of U)%Q.
  assert (0 < inject_Z W)%Q as HW0 by (unfold Qlt; simpl; lia).
  assert (~ f32_of U == 0)%Q as Hne by (rewrite HWU; lra).
  assert (1 <= f / f32_of U)%Q as H1 by (apply Qle_shift_div_l; rewrite HWU in *; lra).
  split; [done|]. split; [rewrite <- HWU; field; done|]. by apply round24_near.
Qed.
Lemma scaled W U m y : (W, U) ∈ [(999999995904, 1000000000000); (1000000000, 1000000000); (1000000, 1000000); (1000, 1000)]%Q ->
  (1 <= y)%Q -> near (1 # 16777216) m y -> near (1 # 1000000) (m * U) (y * W).
Proof.
  rewrite !elem_of_cons, elem_of_nil. unfold near.
  intros [[= -> ->]|[[= -> ->]|[[= -> ->]|[[= -> ->]|[]]]]] Hy [? ?]; split; lra.
Qed.
(** [M] and [a] are the quotient and the number shown, times [U]. *)
Definition linear (P lo hi : Q) : Prop := forall U n F M a : Q, (0 < n)%Q -> (0 < U)%Q ->
  near (1 # 1000000) F n -> near (1 # 1000000) M F ->
  (- ((1 # 2) * U) <= a - M * P <= (1 # 2) * U)%Q -> (lo * U <= M)%Q -> (M < hi * U)%Q ->
  (- ((51 # 10000) * (n * P)) <= a - n * P <= (51 # 10000) * (n * P))%Q /\ (F < 1000 * U -> a < 1001 * U)%Q.
Lemma linear_ok : linear 1 100 100000000000000000000 /\ linear 10 10 100 /\ linear 100 (99 # 100) 10.
Proof.
  unfold linear, near.
  (split; [|split]); intros U n F M a Hn HU [? ?] [? ?] [? ?] Hlo Hhi; (split; [split|intros ?]); lra.
Qed.
Lemma Q_close n v u places : let P := inject_Z (10 ^ Z.of_nat places) in
  (- ((51 # 10000) * (inject_Z n * P)) <= inject_Z v * inject_Z u - inject_Z n * P <= (51 # 10000) * (inject_Z n * P))%Q ->
  close_to n v u places.
Proof.
  unfold close_to. set (p := 10 ^ Z.of_nat places). clearbody p.
  unfold Qle, Qminus, Qplus, Qopp, Qmult, inject_Z. cbn [Qnum Qden]. rewrite !Pos.mul_1_r. intros [H1 H2]. nia.
Qed.

Lemma scale_ok tie n suffix U W : (suffix, U) ∈ scales -> 0 < W ->
  (inject_Z W, inject_Z U) ∈ [(999999995904, 1000000000000); (1000000000, 1000000000); (1000000, 1000000); (1000, 1000)]%Q ->
  (f32_of U == inject_Z W)%Q -> 0 < n < 2 ^ 64 -> Qle_bool (f32_of U) (f32_of n) = true ->
  let m := f32_div (f32_of n) (f32_of U) in
  let p := place_vals m in
  let v := round_dec tie p m in
  exists i d, abbreviated (show_dec p v ++ suffix) i d v U /\ length d = p /\ (p <= 2)%nat /\ close_to n v U p /\
    ((f32_of n < 1000 * inject_Z U)%Q -> v <= 1000).
Proof.
  intros Hs HW HUW HWU Hn Hle m p v. pose proof (f32_of_near n ltac:(lia)) as Hf.
  destruct (quotient (f32_of n) U W HW HWU Hle) as (y & Hy & Hfy & Hm). fold m in Hm.
  pose proof (round_dec_Q tie p m) as Hv. fold v in Hv. cbv zeta in Hv.
  pose proof (place_cases m) as Hp. fold p in Hp. cbv zeta in Hp.
  pose proof (scaled _ _ m y HUW Hy Hm) as HM.
  assert (near (1 # 1000000) (m * inject_Z U) (f32_of n)) as HM' by (unfold near in *; rewrite Hfy; exact HM). clear HM.
  assert (0 < inject_Z n)%Q as Hn0 by (unfold Qlt; simpl; lia).
  assert (0 < U <= 10 ^ 12 /\ 10 ^ 3 <= U) as HU 
    by (unfold scales in Hs; rewrite !elem_of_cons, elem_of_nil in Hs; destruct Hs as [[= _ ->]|[[= _ ->]|[[= _ ->]|[[= _ ->]|[]]]]]; lia).
  assert (0 < inject_Z U)%Q as HU0 by (unfold Qlt; simpl; lia).
  set (F := f32_of n) in *. clearbody F. clearbody v. clearbody p. clearbody m.
  assert (near (1 # 1000000) F (inject_Z n)) as Hf' by (unfold near in *; lra). clear Hf.
  assert ((99 # 100) <= m)%Q as Hm1 by (unfold near in Hm; lra). clear Hm.
  set (P := inject_Z (10 ^ Z.of_nat p)) in *.
  assert (- ((1 # 2) * inject_Z U) <= inject_Z v * inject_Z U - m * inject_Z U * P <= (1 # 2) * inject_Z U)%Q as Hv'.
  { destruct Hv as [Hv1 Hv2].
    apply (Qmult_le_compat_r _ _ (inject_Z U)) in Hv1, Hv2; [|apply Qlt_le_weak, HU0..]. split; lra. }
  assert (close_to n v U p /\ ((F < 1000 * inject_Z U)%Q -> inject_Z v * inject_Z U < 1001 * inject_Z U)%Q) as [Hc Hb].
  { assert (forall lo hi, linear P lo hi -> (lo <= m)%Q -> (m < hi)%Q ->
      close_to n v U p /\ ((F < 1000 * inject_Z U)%Q -> inject_Z v * inject_Z U < 1001 * inject_Z U)%Q) as HL.
    { intros lo hi HL Hlo Hhi.
      destruct (HL (inject_Z U) (inject_Z n) F (m * inject_Z U)%Q (inject_Z v * inject_Z U)%Q Hn0 HU0 Hf' HM' Hv') as [H1 H2].
      - apply Qmult_le_compat_r; [done|]. apply Qlt_le_weak, HU0.
      - apply Qmult_lt_compat_r; done.
      - split; [|done]. apply Q_close. exact H1. }
    destruct linear_ok as (L0 & L1 & L2). unfold P in HL.
    destruct Hp as [[Hp Hp']|[[Hp [Hp1 Hp2]]|[Hp Hp']]]; subst p.
    - apply (HL _ _ L0); [done|]. assert (inject_Z n <= 18446744073709551616)%Q by (unfold Qle; simpl; lia).
      assert (1000 <= inject_Z U)%Q as HU1 by (unfold Qle; simpl; lia).
      apply Qnot_le_lt. intros Hbig. apply (Qmult_le_compat_r _ _ (inject_Z U)) in Hbig; [|lra].
      unfold near in Hf', HM'. lra.
    - apply (HL _ _ L1); done.
    - apply (HL _ _ L2); done. }
  assert ((p <= 2)%nat) as Hp2 by (destruct Hp as [[-> _]|[[-> _]|[-> _]]]; lia).
  assert (0 < 10 ^ Z.of_nat p <= 100) as HP.
  { destruct Hp as [[-> _]|[[-> _]|[-> _]]]; [change (10 ^ Z.of_nat 0) with 1|change (10 ^ Z.of_nat 1) with 10|change (10 ^ Z.of_nat 2) with 100]; lia. }
  assert (0 <= v < 10 ^ 20) as Hv0.
  { unfold close_to in Hc. cbv zeta in Hc. clear -HU Hn Hc HP. set (z := 10 ^ Z.of_nat p) in *. clearbody z.
    rewrite <- Z.mul_assoc in Hc. assert (0 <= n * z <= 2 ^ 64 * 100) as Ha by nia.
    generalize dependent (n * z). intros a Hc Ha.
    assert (0 <= v * U <= 2 ^ 64 * 2 * 100) as Hb by lia. split; [nia|]. apply Z.nle_gt. intros Hge.
    assert (10 ^ 20 * 10 ^ 3 <= v * U) by nia. lia. }
  destruct (show_dec_shape p v Hv0) as (i & d & Hd & Hi & Hl & Ht).
  exists i, d. split.
  { exists suffix. split; [done|]. split; [done|]. split; [done|]. rewrite Ht. by rewrite <- app_assoc. }
  split; [done|]. split; [done|]. split; [done|].
  intros HF. specialize (Hb HF). assert (inject_Z v < 1001)%Q as H by (apply (Qmult_lt_r _ _ (inject_Z U)); done).
  unfold Qlt in H. simpl in H. lia.
Qed.

Lemma below_exact n : 0 <= n -> (f32_of n < 1000)%Q -> n < 1001 /\ Qfloor (f32_of n + (1 # 2)) = n.
Proof.
  intros Hn HF. destruct (decide (n = 0)) as [->|Hne]; [by vm_compute|].
  pose proof (f32_of_near n ltac:(lia)) as Hf. unfold near in Hf.
  assert (inject_Z n < 1001)%Q as H by lra. assert (n < 1001) as Hn' by (unfold Qlt in H; simpl in H; lia).
  split; [done|]. assert (inject_Z n <= f32_of n + (1 # 2) < inject_Z n + 1)%Q as [H1 H2] by lra.
  apply Qfloor_resp_le in H1. rewrite Qfloor_Z in H1.
  assert (Qfloor (f32_of n + (1 # 2)) < n + 1); [|lia].
  rewrite Zlt_Qlt. eapply Qle_lt_trans; [apply Qfloor_le|]. rewrite inject_Z_plus. exact H2.
Qed.
Lemma fmt_big_num_ok tie n : 0 <= n < 2 ^ 64 ->
  (n < 1000 -> dec (fmt_big_num tie n) n) /\
  (1000 <= n -> exists i f v u, abbreviated (fmt_big_num tie n) i f v u /\ (length f <= 2)%nat /\
     close_to n v u (length f) /\ (n < 999 * 10 ^ 12 -> v <= 1000)).
Proof.
  intros Hn. destruct (decide (n = 0)) as [->|Hne].
  { split; [|lia]. intros _. assert (fmt_big_num tie 0 = [x30]) as -> by by vm_compute. by apply dec_one. }
  pose proof (f32_of_near n ltac:(lia)) as Hf. unfold near in Hf.
  assert (forall suffix U W, (suffix, U) ∈ scales -> 0 < W -> (1000 <= inject_Z W)%Q ->
    (inject_Z W, inject_Z U) ∈ [(999999995904, 1000000000000); (1000000000, 1000000000); (1000000, 1000000); (1000, 1000)]%Q ->
    (f32_of U == inject_Z W)%Q -> Qle_bool (f32_of U) (f32_of n) = true ->
    (n < 999 * 10 ^ 12 -> (f32_of n < 1000 * inject_Z U)%Q) ->
    let m := f32_div (f32_of n) (f32_of U) in
    let t := show_dec (place_vals m) (round_dec tie (place_vals m) m) ++ suffix in
    (n < 1000 -> dec t n) /\
    (1000 <= n -> exists i f v u, abbreviated t i f v u /\ (length f <= 2)%nat /\
       close_to n v u (length f) /\ (n < 999 * 10 ^ 12 -> v <= 1000))) as Hcase.
  { intros suffix U W Hs HW0 HW1 HUW HWU Hle Hlt m t.
    destruct (scale_ok tie n suffix U W Hs HW0 HUW HWU ltac:(lia) Hle) as (i & d & Ha & Hl & Hp & Hc & Hb).
    split.
    - intros Hsmall. apply Qle_bool_iff in Hle. rewrite HWU in Hle.
      assert (inject_Z 999 < inject_Z n)%Q as H by (unfold inject_Z in *; lra). rewrite <- Zlt_Qlt in H. lia.
    - intros _. exists i, d, (round_dec tie (place_vals m) m), U. rewrite Hl. repeat split; auto. }
  assert (f32_of 1000000000000 == inject_Z 999999995904)%Q as E12 by by vm_compute.
  assert (f32_of 1000000000 == inject_Z 1000000000)%Q as E9 by by vm_compute.
  assert (f32_of 1000000 == inject_Z 1000000)%Q as E6 by by vm_compute.
  assert (f32_of 1000 == inject_Z 1000)%Q as E3 by by vm_compute.
  unfold fmt_big_num, ABBREVS. cbn [abbrev].
  destruct (Qle_bool (f32_of 1000000000000) (f32_of n)) eqn:H12.
  { apply (Hcase (bstr "T") 1000000000000 999999995904); [left|lia|done|left|done..|].
    intros H. change (999 * 10 ^ 12) with 999000000000000 in H. rewrite Zlt_Qlt in H. unfold inject_Z in *. lra. }
  destruct (Qle_bool (f32_of 1000000000) (f32_of n)) eqn:H9.
  { apply (Hcase (bstr "B") 1000000000 1000000000); [right; left|lia|done|right; left|done..|].
    intros _. apply Qle_bool_false in H12. rewrite E12 in H12. unfold inject_Z in *. lra. }
  destruct (Qle_bool (f32_of 1000000) (f32_of n)) eqn:H6.
  { apply (Hcase (bstr "M") 1000000 1000000); [do 2 right; left|lia|done|do 2 right; left|done..|].
    intros _. apply Qle_bool_false in H9. rewrite E9 in H9. unfold inject_Z in *. lra. }
  destruct (Qle_bool (f32_of 1000) (f32_of n)) eqn:H3.
  { apply (Hcase (bstr "k") 1000 1000); [do 3 right; left|lia|done|do 3 right; left|done..|].
    intros _. apply Qle_bool_false in H6. rewrite E6 in H6. unfold inject_Z in *. lra. }
  apply Qle_bool_false in H3. rewrite E3 in H3.
  destruct (below_exact n ltac:(lia) H3) as [Hlt ->].
  assert (n < 1000) as Hlt' by (destruct (decide (n = 1000)) as [->|]; [by vm_compute in H3|lia]).
  split; [intros _; apply show_dec_ok; lia|lia].
Qed.
Definition digits_shown (t : bytes) : nat := length (filter (fun b => is_digit b = true) t).
Lemma four_digits : exists n, 0 <= n < 2 ^ 64 /\ forall tie, fmt_big_num tie n = bstr "1000k" /\
  (3 < digits_shown (fmt_big_num tie n))%nat.
Proof.
  exists 999999. split; [lia|]. intros tie. assert (fmt_big_num tie 999999 = bstr "1000k") as -> by by vm_compute.
  split; [done|]. vm_compute. lia.
Qed.
