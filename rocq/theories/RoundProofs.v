(** Rounding to single precision *)
From Verif Require Import Text FmtProofs.
From Coq Require Import Lqa.

Lemma rne_compat a b a' b' : 0 < b -> 0 < b' -> a * b' = a' * b -> rne a b = rne a' b'.
Proof.
  intros Hb Hb' E. unfold rne.
  assert (a / b = a' / b') as Hq.
  { rewrite <- (Z.div_mul_cancel_r a b b') by lia. rewrite E, (Z.mul_comm b b').
    apply Z.div_mul_cancel_r; lia. }
  pose proof (Z_div_mod_eq_full a b). pose proof (Z_div_mod_eq_full a' b').
  rewrite <- Hq in *. set (q := a / b) in *. set (r := a mod b) in *. set (r' := a' mod b') in *.
  assert (r * b' = r' * b) by nia.
  replace (2 * r' <? b') with (2 * r <? b) by (apply Bool.eq_iff_eq_true; rewrite !Z.ltb_lt; nia).
  replace (b' <? 2 * r') with (b <? 2 * r) by (apply Bool.eq_iff_eq_true; rewrite !Z.ltb_lt; nia).
  done.
Qed.
Lemma rne_mono a b a' b' : 0 < b -> 0 < b' -> a * b' <= a' * b -> rne a b <= rne a' b'.
Proof.
  intros Hb Hb' H. destruct (Z.le_gt_cases (rne a b) (rne a' b')) as [|Hlt]; [done|].
  pose proof (rne_ok a b Hb) as H1. pose proof (rne_ok a' b' Hb') as H2.
  assert (a * b' = a' * b) as E; [|pose proof (rne_compat a b a' b' Hb Hb' E); lia].
  set (q := rne a b) in *. set (q' := rne a' b') in *. clearbody q q'.
  assert ((2 * q - 1) * b <= 2 * a) as H3 by lia. assert (2 * a' <= (2 * q' + 1) * b') as H4 by lia.
  assert ((2 * q' + 1) * b' <= (2 * q - 1) * b') as H5 by (apply Z.mul_le_mono_nonneg_r; lia).
  assert ((2 * q - 1) * b * b' <= 2 * a * b') as H6 by (apply Z.mul_le_mono_nonneg_r; lia).
  assert (2 * a' * b <= (2 * q - 1) * b' * b) as H7 by (apply Z.mul_le_mono_nonneg_r; lia).
  lia.
Qed.
Lemma rne_int n : rne n 1 = n.
Proof. unfold rne. rewrite Z.div_1_r, Z.mod_1_r. done. Qed.

Lemma round24_mono x y : (0 <= x)%Q -> (x <= y)%Q -> (round24 x <= round24 y)%Q.
Proof.
  destruct x as [n d], y as [n' d']. unfold round24, Qle. cbn [Qnum Qden].
  rewrite Z.mul_0_l, Z.mul_1_r. intros H0 H.
  apply Z.mul_le_mono_pos_r; [done|].
  set (D := Zpos d) in *. set (D' := Zpos d') in *. assert (0 < D) by done. assert (0 < D') by done. clearbody D D'.
  assert (0 <= n') by nia.
  assert (n / D <= n' / D') as Hq.
  { rewrite <- (Z.div_mul_cancel_r n D D'), <- (Z.div_mul_cancel_r n' D' D) by lia.
    rewrite (Z.mul_comm D' D). apply Z.div_le_mono; lia. }
  assert (0 <= n / D) by (apply Z.div_pos; lia).
  pose proof (Z.log2_le_mono _ _ Hq) as He. pose proof (Z.log2_nonneg (n / D)).
  destruct (Z.eq_dec (Z.log2 (n / D)) (Z.log2 (n' / D'))) as [E|E].
  { rewrite E. set (p := 2 ^ Z.log2 (n' / D')) in *. assert (0 < p) by (apply Z.pow_pos_nonneg; lia). clearbody p.
    apply Z.mul_le_mono_nonneg_r; [lia|]. apply rne_mono; [lia..|]. nia. }
  set (e := Z.log2 (n / D)) in *. set (e' := Z.log2 (n' / D')) in *.
  assert (e < e') by lia.
  assert (n < D * 2 ^ (e + 1)) as Hn.
  { destruct (Z.eq_dec (n / D) 0) as [Hz|Hz].
    - unfold e. rewrite Hz. simpl. pose proof (Z.mod_pos_bound n D ltac:(lia)). pose proof (Z_div_mod_eq_full n D). nia.
    - pose proof (Z.log2_spec (n / D) ltac:(lia)) as [_ Hl]. fold e in Hl. rewrite <- Z.add_1_r in Hl.
      pose proof (Z.mod_pos_bound n D ltac:(lia)). pose proof (Z_div_mod_eq_full n D).
      set (p := 2 ^ (e + 1)) in *. clearbody p. nia. }
  assert (D' * 2 ^ e' <= n') as Hn'.
  { assert (0 < n' / D').
    { destruct (Z.eq_dec (n' / D') 0) as [Hz|Hz]; [unfold e' in *; rewrite Hz in *; simpl in *; lia|].
      assert (0 <= n' / D') by (apply Z.div_pos; lia). lia. }
    pose proof (Z.log2_spec (n' / D') ltac:(lia)) as [Hl _]. fold e' in Hl.
    pose proof (Z.mul_div_le n' D' ltac:(lia)). set (p := 2 ^ e') in *. clearbody p. nia. }
  assert (0 < 2 ^ e) by (apply Z.pow_pos_nonneg; lia). assert (0 < 2 ^ e') by (apply Z.pow_pos_nonneg; lia).
  assert (rne (n * 2 ^ 23) (D * 2 ^ e) <= 2 ^ 24) as Hr1.
  { rewrite <- (rne_int (2 ^ 24)). apply rne_mono; [lia..|]. rewrite Z.pow_add_r in Hn by lia.
    change (2 ^ 24) with (2 ^ 23 * 2). set (P := 2 ^ 23). assert (0 < P) by done. clearbody P. nia. }
  assert (2 ^ 23 <= rne (n' * 2 ^ 23) (D' * 2 ^ e')) as Hr2.
  { rewrite <- (rne_int (2 ^ 23)) at 1. apply rne_mono; [lia..|].
    set (P := 2 ^ 23). assert (0 < P) by done. clearbody P. nia. }
  assert (2 ^ e * 2 <= 2 ^ e') as Hr3.
  { change 2 with (2 ^ 1) at 2. rewrite <- Z.pow_add_r by lia. apply Z.pow_le_mono_r; lia. }
  change (2 ^ 24) with (2 * 2 ^ 23) in Hr1. set (P := 2 ^ 23) in *. assert (0 < P) by done. clearbody P.
  set (r := rne _ (D * _)) in *. set (r' := rne _ (D' * _)) in *. set (pe := 2 ^ e) in *. set (pe' := 2 ^ e') in *.
  clearbody r r' pe pe'. nia.
Qed.

(** ** [rnd] *)
Definition tiny : Q := 1 # SCALE.
Definition ulp : Q := 1 # 16777216.
Lemma rnd_mono x y : (0 <= x)%Q -> (x <= y)%Q -> (rnd x <= rnd y)%Q.
Proof.
  intros H0 H. unfold rnd, Qdiv. apply Qmult_le_compat_r; [|done].
  apply round24_mono.
  - apply Qmult_le_0_compat; [done|]. by unfold Qle.
  - apply Qmult_le_compat_r; [done|]. by unfold Qle.
Qed.
Lemma rnd_compat x y : (0 <= x)%Q -> (x == y)%Q -> (rnd x == rnd y)%Q.
Proof. intros H0 H. apply Qle_antisym; apply rnd_mono; rewrite <- ?H; try done; lra. Qed.
Lemma rnd_near x : (tiny <= x)%Q -> near ulp (rnd x) x.
Proof.
  intros H. set (S := (Zpos SCALE # 1)%Q).
  assert (0 < S)%Q as HS by done. assert (1 <= x * S)%Q as H1.
  { unfold tiny in H. assert ((1 # SCALE) * S == 1)%Q as <- by (unfold S; by vm_compute).
    apply Qmult_le_compat_r; [done|lra]. }
  pose proof (round24_near _ H1) as Hn. unfold near in *. unfold rnd. fold S.
  set (r := round24 (x * S)) in *. clearbody r.
  assert (r == r / S * S)%Q as E by (field; lra). set (y := (r / S)%Q) in *. clearbody y.
  rewrite E in Hn. clear E. unfold ulp in *. clearbody S. split; nra.
Qed.
Lemma rnd_0 x : (x == 0)%Q -> (rnd x == 0)%Q.
Proof. intros H. rewrite <- (rnd_compat 0 x); [by vm_compute|lra|by symmetry]. Qed.
Lemma rnd_1 x : (x == 1)%Q -> (rnd x == 1)%Q.
Proof. intros H. rewrite <- (rnd_compat 1 x); [by vm_compute|lra|by symmetry]. Qed.

Lemma f32_of_mono n m : n <= m -> (f32_of n <= f32_of m)%Q.
Proof.
  intros H. unfold f32_of. destruct (Z.leb_spec n 0), (Z.leb_spec m 0); try lia; try done.
  - pose proof (round24_mono 1 (inject_Z m)) as Hm.
    assert (round24 1 == 1)%Q as E by by vm_compute. rewrite E in Hm.
    assert (1 <= inject_Z m)%Q by (unfold Qle; simpl; lia). assert (1 <= round24 (inject_Z m))%Q by (apply Hm; [lra|done]). lra.
  - apply round24_mono; unfold Qle; simpl; lia.
Qed.
Lemma f32_of_ge1 n : 1 <= n -> (1 <= f32_of n)%Q.
Proof. intros H. pose proof (f32_of_mono 1 n H) as H1. assert (f32_of 1 == 1)%Q as E by by vm_compute. lra. Qed.
Lemma f32_of_0 : (f32_of 0 == 0)%Q.
Proof. by vm_compute. Qed.
Lemma f32_of_range n : 0 <= n -> (0 <= f32_of n)%Q.
Proof. intros H. pose proof (f32_of_mono 0 n H) as H1. pose proof f32_of_0. lra. Qed.
