(** Proofs about runs on maps with the same contents, some of which cannot be stored *)
From Verif Require Import CodecProofs BlockProofs UtilsProofs QueryProofs EditProofs NodeProofs MetaProofs ObjProofs WholeProofs SpatialProofs ArgProofs MapProofs MixProofs
  ThreadProofs FragProofs CopyProofs CopyRun OverlayRun ToyRun CmdFacts SpecNodes KeepProofs OrderProofs AgainProofs LocalProofs RestoreProofs CongProofs LawProofs
  SpecCong SpecLaws SpecAgain SpecLocal Spec.

(** Two maps with the same contents *)
Record loose (E : ext) (n : Z) (m1 m2 : mapdata) : Prop := {
  lo_same : same_contents E m1 m2;
  lo_h1 : blocks E m1 (healthy n);
  lo_h2 : blocks E m2 (healthy n) }.
Record public (E : ext) (m1 m2 : mapdata) : Prop := {
  pu_1 : blocks E m1 no_early_private;
  pu_2 : blocks E m2 no_early_private }.

Definition follows (E : ext) (g : args) (W1 W2 : world) (m1 m2 in1 in2 : mapdata) : Prop :=
  exists m1' l1 m2' l2, run_ok E g W1 m1 in1 m1' l1 /\ run_ok E g W2 m2 in2 m2' l2 /\ same_contents E m1' m2'.

(** Block by block *)
Lemma each_pair E m1 m2 m1' m2' R1 R2 : keys_ok m1 -> same_contents E m1 m2 -> each_block E m1 m1' R1 -> each_block E m2 m2' R2 ->
  (forall k bp x1 x2 b1 b2 b1' b2', block_at k bp -> m1 !! k = Some x1 -> m2 !! k = Some x2 -> deserialize E x1 = Ok b1 ->
     deserialize E x2 = Ok b2 -> alike b1 b2 -> R1 bp b1 b1' -> R2 bp b2 b2' -> alike b1' b2') ->
  same_contents E m1' m2'.
Proof.
  intros K1 Hs [N1 A1] [N2 A2] HR k. destruct (m1 !! k) as [x1|] eqn:H1.
  2:{ by rewrite (N1 k H1), (N2 k (pair_none E m1 m2 Hs k H1)). }
  destruct (pair_some E m1 m2 Hs k x1 H1) as (x2 & H2 & Hr).
  destruct (K1 k ltac:(by eexists)) as [bp Hbp].
  destruct (A1 k bp x1 Hbp H1) as (y1 & -> & G1). destruct (A2 k bp x2 Hbp H2) as (y2 & -> & G2).
  destruct (deserialize E x1) as [b1|] eqn:D1; [|left; subst x2; rewrite D1 in G2; congruence].
  destruct Hr as (b2 & D2 & Ha). rewrite D2 in G2. destruct G1 as (b1' & ? & P1). destruct G2 as (b2' & ? & P2).
  right. exists b1', b2'. split; [done|]. split; [done|]. eapply (HR k bp x1 x2 b1 b2); done.
Qed.

Lemma found_loose E s1 s2 p b j : same_contents E s1 s2 -> found E s1 p b j -> exists b2, found E s2 p b2 j /\ alike b b2.
Proof.
  intros Hs (bp & Hw & (k & x & Hbp & Hx & Hd & Hg) & Hj & Hp).
  destruct (pair_some E s1 s2 Hs k x Hx) as (x2 & H2 & Hr). rewrite Hd in Hr. destruct Hr as (b2 & D2 & Ha).
  exists b2. split; [|done]. exists bp. split; [done|]. split; [|done]. exists k, x2. split; [done|]. split; [done|]. split; [done|].
  by rewrite <-(alike_generated b b2 Ha).
Qed.

Lemma landed_pair E s1 s2 a off bp b1 b2 b1' b2' : same_contents E s1 s2 -> alike b1 b2 ->
  landed E s1 a off bp b1 b1' -> landed E s2 a off bp b2 b2' -> alike b1' b2'.
Proof.
  intros Hs Ha L1 L2. destruct (decide (not_generated b1)) as [Hg|Hg].
  { rewrite (land_raw _ _ _ _ _ _ _ L1 Hg), (land_raw _ _ _ _ _ _ _ L2 (proj1 (alike_generated _ _ Ha) Hg)). done. }
  destruct (alike_shell _ _ Ha) as (Hsh & Ht & Ho).
  apply state_alike.
  - apply L1.
  - apply L2.
  - by rewrite (land_shell _ _ _ _ _ _ _ L1), (land_shell _ _ _ _ _ _ _ L2).
  - by rewrite (land_timers _ _ _ _ _ _ _ L1), (land_timers _ _ _ _ _ _ _ L2).
  - by rewrite (land_objects _ _ _ _ _ _ _ L1), (land_objects _ _ _ _ _ _ _ L2).
  - intros i Hi. apply (landed_follow E s1 s2 a off bp b2 b1 b2' b1' i (fun s => s) L2 L1); [|done|done| | |].
    + by rewrite <-(alike_generated _ _ Ha).
    + intros _ sb j Hf. destruct (found_loose E s2 s1 _ sb j (contents_sym _ _ _ Hs) Hf) as (sb1 & Hf1 & Hal).
      exists sb1. split; [done|]. intros v. destruct Hf as (? & _ & _ & Hj & _). by rewrite (alike_state sb sb1 j Hal Hj).
    + intros _ sb1 j Hf. destruct (found_loose E s1 s2 _ sb1 j Hs Hf) as (sb & Hf1 & _). by exists sb.
    + by apply alike_state.
Qed.

Lemma mixed_loose a inv bp s1 s2 b1 b2 b1' b2' : no_early_private s1 -> no_early_private s2 -> no_early_private b1 -> no_early_private b2 ->
  alike s1 s2 -> alike b1 b2 -> mixed a inv bp s1 b1 b1' -> mixed a inv bp s2 b2 b2' -> alike b1' b2'.
Proof.
  intros S1 S2 B1 B2 As Ab M1 M2. pose proof M1 as (R1 & _). pose proof M2 as (R2 & _).
  assert (alike (if inv then s1 else b1) (if inv then s2 else b2)) as Ha by (by destruct inv).
  destruct (alike_shell _ _ Ha) as (Hs & Ht & Ho).
  destruct (rest_parts _ _ R1) as (P1 & P2 & P3 & P4). destruct (rest_parts _ _ R2) as (Q1 & Q2 & Q3 & Q4).
  assert (version b1' = version b2') as Hv by (apply shell_version; congruence).
  apply state_alike; [done|done|congruence..|].
  intros i Hi. rewrite (mixed_state a inv bp s1 b1 b1' i), (mixed_state a inv bp s2 b2 b2' i), Hv by done.
  by rewrite (alike_state s1 s2 i As Hi), (alike_state b1 b2 i Ab Hi).
Qed.

Section follows.
  Context (E : ext) (g : args) (W1 W2 : world) (m1 m2 in1 in2 : mapdata) (n : Z).
  Context (F1 : fair E W1 g in1) (F2 : fair E W2 g in2) (K1 : keys_ok m1) (Hn : 4095 <= n <= 7280) (C : loose E n m1 m2).

  Lemma place_follows : in_place (acmd g) = true -> follows E g W1 W2 m1 m2 in1 in2.
  Proof using F1 F2 K1 Hn C.
    intros Hin. pose proof (pair_keys E m1 m2 (lo_same _ _ _ _ C) K1) as K2.
    destruct (local_next E W1 g m1 in1 n F1 K1 Hin Hn (lo_h1 _ _ _ _ C)) as (m1' & l1 & Run1 & A1 & _).
    destruct (local_next E W2 g m2 in2 n F2 K2 Hin Hn (lo_h2 _ _ _ _ C)) as (m2' & l2 & Run2 & A2 & _).
    exists m1', l1, m2', l2. split; [done|]. split; [done|].
    eapply (each_pair E m1 m2 m1' m2'); [done|apply C|exact A1|exact A2|].
    intros k bp x1 x2 b1 b2 b1' b2' _ H1 H2 D1 D2 Ha P1 P2.
    eapply (acted_pair g (adel g) bp n b1 b2); try done; [by eapply (lo_h1 _ _ _ _ C)|by eapply (lo_h2 _ _ _ _ C)].
  Qed.

  Lemma delblocks_follows : acmd g = CDeleteBlocks -> follows E g W1 W2 m1 m2 in1 in2.
  Proof using F1 F2 K1 C.
    intros Hc. pose proof (pair_keys E m1 m2 (lo_same _ _ _ _ C) K1) as K2.
    destruct (delblocks_run E W1 g m1 in1 _ (fair_setting _ _ _ _ _ F1 K1) Hc) as (m1' & Run1 & N1 & A1).
    destruct (delblocks_run E W2 g m2 in2 _ (fair_setting _ _ _ _ _ F2 K2) Hc) as (m2' & Run2 & N2 & A2).
    eexists m1', _, m2', _. split; [exact Run1|]. split; [exact Run2|].
    pose proof (area_ok_args g (fair_supplied _ _ _ _ F1) (fair_legal _ _ _ _ F1)) as Ha.
    intros k. destruct (m1 !! k) as [x1|] eqn:H1.
    2:{ by rewrite (N1 k H1), (N2 k (pair_none E m1 m2 (lo_same _ _ _ _ C) k H1)). }
    destruct (K1 k ltac:(by eexists)) as [bp Hbp]. destruct (A1 k bp Hbp) as [Av1 An1]. destruct (A2 k bp Hbp) as [Av2 An2].
    destruct (decide (wholeb (aarea g) (invert g) bp = true)) as [Hw|Hw].
    - apply wholeb_iff in Hw; [|apply Hbp|done]. by rewrite Av1, Av2.
    - apply not_true_is_false in Hw. apply wholeb_false in Hw; [|apply Hbp|done]. rewrite An1, An2 by done. apply C.
  Qed.

  Lemma vacuum_follows : acmd g = CVacuum -> follows E g W1 W2 m1 m2 in1 in2.
  Proof using F1 F2 C.
    intros Hc. eexists m1, _, m2, _. split; [apply vacuum_run; try done; apply F1|]. split; [apply vacuum_run; try done; apply F2|]. apply C.
  Qed.

  Lemma copies_follows s1 s2 a off : loose E n s1 s2 -> public E s1 s2 ->
    copies E W1 g m1 in1 s1 a off -> copies E W2 g m2 in2 s2 a off -> follows E g W1 W2 m1 m2 in1 in2.
  Proof using K1 C.
    intros Cs Ps R1 R2.
    assert (forall m, blocks E m (healthy n) -> blocks E m meta_in) as Hm.
    { intros m Hb k x b Hx Hd. apply (sound_meta n). by eapply Hb. }
    destruct (copies_landed E W1 g m1 in1 s1 a off (Hm _ (lo_h1 _ _ _ _ C)) (pu_1 _ _ _ Ps) R1) as (m1' & l1 & f1 & _ & Run1 & A1).
    destruct (copies_landed E W2 g m2 in2 s2 a off (Hm _ (lo_h2 _ _ _ _ C)) (pu_2 _ _ _ Ps) R2) as (m2' & l2 & f2 & _ & Run2 & A2).
    exists m1', l1, m2', l2. split; [done|]. split; [done|].
    eapply (each_pair E m1 m2 m1' m2'); [done|apply C|exact A1|exact A2|].
    intros k bp x1 x2 b1 b2 b1' b2' _ _ _ _ _ Ha P1 P2. eapply (landed_pair E s1 s2); try done. apply Cs.
  Qed.
End follows.

Lemma overlays_follows E g W1 W2 m1 m2 in1 in2 n : fair E W1 g in1 -> fair E W2 g in2 -> loose E n m1 m2 -> loose E n in1 in2 ->
  public E m1 m2 -> public E in1 in2 ->
  overlays E W1 g m1 in1 -> overlays E W2 g m2 in2 -> follows E g W1 W2 m1 m2 in1 in2.
Proof.
  intros F1 F2 C Ci Pm Pi (m1' & f1 & Run1 & R1 & N1 & O1) (m2' & f2 & Run2 & R2 & N2 & O2).
  pose proof (fair_ext _ _ _ _ F1) as HE. pose proof (lo_same _ _ _ _ C) as Hmm. pose proof (lo_same _ _ _ _ Ci) as Hii.
  eexists m1', _, m2', _. split; [exact Run1|]. split; [exact Run2|].
  pose proof (fair_input _ _ _ _ F1) as Hk1.
  pose proof (area_ok_args g (fair_supplied _ _ _ _ F1) (fair_legal _ _ _ _ F1)) as Ha.
  intros k. destruct (in1 !! k) as [x1|] eqn:H1.
  2:{ rewrite (N1 k H1), (N2 k (pair_none E in1 in2 Hii k H1)). apply Hmm. }
  destruct (pair_some E in1 in2 Hii k x1 H1) as (x2 & H2 & Hr).
  destruct (Hk1 k ltac:(by eexists)) as [bp Hbp].
  destruct (O1 k bp x1 Hbp H1) as (A1 & B1 & D1 & M1). destruct (O2 k bp x2 Hbp H2) as (A2 & B2 & D2 & M2).
  pose proof (claims_pair E in1 in2 k x1 x2 HE Hii H1 H2) as Hcl.
  destruct (decide (wholeb (aarea g) (invert g) bp = true)) as [Hw|Hw].
  { apply wholeb_iff in Hw; [|apply Hbp|done]. destruct (decide (claims_generated E x1)) as [Hc|Hc].
    - rewrite A1, A2; [|done|by apply Hcl|done|done]. pose proof (Hii k) as Hik. by rewrite H1, H2 in Hik.
    - rewrite B1, B2; [|done|by rewrite <-Hcl|done|done]. apply Hmm. }
  apply not_true_is_false in Hw. apply wholeb_false in Hw; [|apply Hbp|done].
  destruct (decide (visitb (aarea g) (invert g) bp = true)) as [Hv|Hv].
  2:{ rewrite D1, D2; [apply Hmm|..]; intros q Hq Hs; apply Hv, visitb_iff; by exists q. }
  apply visitb_iff in Hv as (q & Hq & Hs).
  assert (~ none (aarea g) (invert g) bp) as Hnn by (intros Hnn; by apply (Hnn q)).
  specialize (M1 Hw Hnn). specialize (M2 Hw Hnn). pose proof (Hmm k) as Hmk.
  destruct (m1 !! k) as [y1|] eqn:Y1.
  2:{ rewrite (pair_none E m1 m2 Hmm k Y1) in M2. by rewrite M1, M2. }
  destruct (pair_some E m1 m2 Hmm k y1 Y1) as (y2 & Y2 & Hry). rewrite Y2 in M2, Hmk.
  pose proof (claims_pair E m1 m2 k y1 y2 HE Hmm Y1 Y2) as Hcy.
  destruct M1 as [M1 M1']. destruct M2 as [M2 M2'].
  destruct (decide (claims_generated E y1)) as [Hc|Hc].
  2:{ rewrite M1, M2; [done|by rewrite <-Hcy|done]. }
  specialize (M1' Hc). specialize (M2' (proj1 Hcy Hc)).
  destruct (deserialize E x1) as [s1|] eqn:X1; [|subst x2; rewrite X1 in M2'; by rewrite M1', M2'].
  destruct Hr as (s2 & X2 & Has). rewrite X2 in M2'.
  destruct (deserialize E y1) as [b1|] eqn:Z1; [|subst y2; rewrite Z1 in M2'; rewrite M1', M2'; by left].
  destruct Hry as (b2 & Z2 & Hab). rewrite Z2 in M2'.
  destruct M1' as (z1 & b1' & -> & Hd1 & P1). destruct M2' as (z2 & b2' & -> & Hd2 & P2).
  right. exists b1', b2'. split; [done|]. split; [done|].
  eapply (mixed_loose _ _ bp s1 s2 b1 b2); try done.
  - by eapply (pu_1 _ _ _ Pi).
  - by eapply (pu_2 _ _ _ Pi).
  - by eapply (pu_1 _ _ _ Pm).
  - by eapply (pu_2 _ _ _ Pm).
Qed.

(** ** All commands *)
Lemma loose_run E g W1 W2 m1 m2 in1 in2 n : fair E W1 g in1 -> fair E W2 g in2 -> keys_ok m1 -> 4095 <= n <= 7280 ->
  loose E n m1 m2 -> (acmd g = CClone \/ acmd g = COverlay -> public E m1 m2) ->
  (acmd g = COverlay -> loose E n in1 in2 /\ public E in1 in2) -> follows E g W1 W2 m1 m2 in1 in2.
Proof.
  intros F1 F2 K1 Hn C P Ci. pose proof (pair_keys E m1 m2 (lo_same _ _ _ _ C) K1) as K2.
  destruct (in_place (acmd g)) eqn:Hin; [by eapply place_follows|].
  pose proof (fair_setting E W1 g m1 in1 F1 K1) as S1. pose proof (fair_setting E W2 g m2 in2 F2 K2) as S2.
  pose proof (fair_supplied _ _ _ _ F1) as [_ Hsup].
  destruct (acmd g) eqn:Hc; try done.
  - destruct Hsup as [[a Ha] [off Ho]].
    eapply (copies_follows E g W1 W2 m1 m2 in1 in2 n K1 C m1 m2 (Some a) off C); [by apply P; left|eapply clone_run; try done..].
    + eapply healthy_roomy; [|apply C..]; lia.
    + eapply healthy_roomy; [|apply C..]; lia.
  - by eapply delblocks_follows.
  - destruct (Ci eq_refl) as [Cin Pin]. destruct (decide (default (V3 0 0 0) (offset g) = V3 0 0 0)) as [Hz|Hz].
    + eapply (overlays_follows E g W1 W2 m1 m2 in1 in2 n); try done; [by apply P; right|..].
      * apply (overlay_run E W1 g m1 in1 from_block_key); try done; [by apply F1|]. eapply healthy_roomy; [|apply C|apply Cin]; lia.
      * apply (overlay_run E W2 g m2 in2 from_block_key); try done; [by apply F2|]. eapply healthy_roomy; [|apply C|apply Cin]; lia.
    + destruct (offset g) as [off|] eqn:Ho; [|done].
      eapply (copies_follows E g W1 W2 m1 m2 in1 in2 n K1 C in1 in2 (aarea g) off Cin Pin).
      * apply (offset_run E W1 g m1 in1 from_block_key); try done. eapply healthy_roomy; [|apply C|apply Cin]; lia.
      * apply (offset_run E W2 g m2 in2 from_block_key); try done. eapply healthy_roomy; [|apply C|apply Cin]; lia.
  - by eapply vacuum_follows.
Qed.

(** ** Other environments *)
Lemma loose_across E1 E2 g W1 W2 m1 m2 in1 in2 n : same_reading E1 E2 -> fair E1 W1 g in1 -> fair E2 W2 g in2 -> keys_ok m1 ->
  4095 <= n <= 7280 -> loose E1 n m1 m2 -> (acmd g = CClone \/ acmd g = COverlay -> public E1 m1 m2) ->
  (acmd g = COverlay -> loose E1 n in1 in2 /\ public E1 in1 in2) ->
  exists m1' l1 m2' l2, run_ok E1 g W1 m1 in1 m1' l1 /\ run_ok E2 g W2 m2 in2 m2' l2 /\ same_contents E1 m1' m2'.
Proof.
  intros Hr F1 F2 K1 Hn C P Ci. pose proof (pair_keys E1 m1 m2 (lo_same _ _ _ _ C) K1) as K2.
  assert (fair E1 W2 g in2) as F12 by (apply (fair_change E2); [apply F1..|done]).
  destruct (loose_run E1 g W1 W2 m1 m2 in1 in2 n F1 F12 K1 Hn C P Ci) as (m1' & l1 & m2' & l2 & Run1 & Run2 & Hs).
  destruct (same_run E1 E2 Hr W2 W2 g m2 in2 from_block_key) as (a & b & l' & RunA & RunB & Hs2).
  { by eapply fair_setting. }
  { by eapply fair_setting. }
  { eapply (fair_plausible E1 W2 g m2 in2 n); [done|lia|apply C|]. intros Hc. by apply Ci. }
  destruct (run_ok_fun _ _ _ _ _ _ _ _ _ Run2 RunA) as [-> ->].
  exists m1', l1, b, l'. split; [done|]. split; [done|]. by eapply contents_trans.
Qed.

(** ** As stated *)
Lemma contents_cong E1 E2 W1 W2 g m1 m2 input1 input2 n : same_reading E1 E2 ->
  fair E1 W1 g input1 -> fair E2 W2 g input2 -> keys_ok m1 -> 4095 <= n <= 7280 ->
  blocks E1 m1 (healthy n) -> blocks E1 m2 (healthy n) -> same_contents E1 m1 m2 ->
  (acmd g = CClone \/ acmd g = COverlay -> blocks E1 m1 no_early_private /\ blocks E1 m2 no_early_private) ->
  (acmd g = COverlay -> blocks E1 input1 (healthy n) /\ blocks E1 input2 (healthy n) /\ same_contents E1 input1 input2 /\
     blocks E1 input1 no_early_private /\ blocks E1 input2 no_early_private) ->
  exists m1' l1 m2' l2, run_ok E1 g W1 m1 input1 m1' l1 /\ run_ok E2 g W2 m2 input2 m2' l2 /\ same_contents E1 m1' m2'.
Proof.
  intros Hr F1 F2 K1 Hn H1 H2 Hs P Hi.
  apply (loose_across E1 E2 g W1 W2 m1 m2 input1 input2 n Hr F1 F2 K1 Hn); [by split| |].
  - intros Hc. destruct (P Hc). by split.
  - intros Hc. destruct (Hi Hc) as (? & ? & ? & ? & ?). by split.
Qed.
