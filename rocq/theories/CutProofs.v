(** Proofs about deleting blocks before or after a copy *)
From Verif Require Import CodecProofs BlockProofs UtilsProofs QueryProofs EditProofs NodeProofs MetaProofs ObjProofs WholeProofs SpatialProofs ArgProofs MapProofs MixProofs
  ThreadProofs FragProofs CopyProofs CopyRun OverlayRun ToyRun CmdFacts SpecNodes KeepProofs OrderProofs AgainProofs LocalProofs RestoreProofs CongProofs LawProofs
  UndoProofs DropProofs SpecSeq SpecLaws SpecAgain SpecLocal Spec.

Lemma pasted_same E s1 s2 a off bp b b1 b2 : (forall p sb j, selected a false p -> found E s1 p sb j <-> found E s2 p sb j) ->
  pasted E s1 a off bp b b1 -> pasted E s2 a off bp b b2 -> alike b1 b2.
Proof.
  intros HF (R1 & _ & P1) (R2 & _ & P2). eapply rest_alike; [|exact R1|exact R2|]; [by split|].
  assert (version b1 = version b2) as HV.
  { destruct (rest_parts _ _ R1) as (A1 & _). destruct (rest_parts _ _ R2) as (B1 & _). apply (shell_version b1 b2). congruence. }
  intros i Hi. apply dec_stable. intros Hno.
  destruct (P1 i Hi) as [G1 O1]. destruct (P2 i Hi) as [G2 O2]. set (p := minus (abs_pos bp i) off) in *.
  pose proof (fun c j => node_trans b2 b1 b2 i c j HV eq_refl) as Htr.
  assert (~ (selected a false p /\ exists sb j, found E s1 p sb j)) as Hn.
  { intros (Hs & sb & j & Hf). apply Hno, (Htr sb j); [by apply G1|]. apply G2; [done|]. by apply HF. }
  apply Hno, (Htr b i); [by apply O1|]. apply O2. intros (Hs & sb & j & Hf). apply Hn. split; [done|]. exists sb, j. by apply HF.
Qed.

Lemma copying_copies E W c main input n : fair E W c input -> keys_ok main -> n <= 7280 -> copying c ->
  blocks E main (healthy n) -> (acmd c = COverlay -> blocks E input (healthy n)) ->
  copies E W c main input (source c main input) (aarea c) (default (V3 0 0 0) (offset c)).
Proof.
  intros HF Hk Hn Hc Hb Hi. pose proof (fair_setting E W c main input HF Hk) as HS.
  pose proof (fair_supplied _ _ _ _ HF) as [_ Hsup].
  unfold source. destruct Hc as [Hc|[Hc Ho]]; rewrite Hc in *.
  - destruct Hsup as [[a Ea] [off Eo]]. rewrite Ea, Eo. cbn [default].
    eapply clone_run; try done. by apply (healthy_roomy E c main main n).
  - destruct (offset c) as [off|] eqn:Eo; [|done]. cbn [default] in *.
    eapply offset_run; try done. apply (healthy_roomy E c main input n); auto.
Qed.

Lemma cut E W1 W2 W3 W4 c gd main input inputd n :
  fair E W1 c input -> fair E W2 gd inputd -> fair E W3 gd inputd -> fair E W4 c input ->
  keys_ok main -> 4095 <= n <= 7280 -> blocks E main (healthy n) ->
  copying c -> (acmd c = COverlay -> blocks E input (healthy n)) -> acmd gd = CDeleteBlocks -> spares_source gd c ->
  exists m12 m21, after E W1 W2 c gd main input inputd m12 /\ after E W3 W4 gd c main inputd input m21 /\
    same_contents E m12 m21.
Proof.
  intros F1 F2 F3 F4 Hk Hn Hb Hc Hi Hd Hsp.
  destruct (copying_copies E W1 c main input n) as (m1 & f1 & Run1 & _ & N1 & E1); [done|done|lia|done..|].
  assert (keys_ok m1) as K1.
  { destruct (run_next E W1 c main input n F1 Hk Hn Hb Hi) as (m' & l' & Run' & _ & K' & _).
    by destruct (run_ok_fun _ _ _ _ _ _ _ _ _ Run1 Run') as [<- _]. }
  destruct (delblocks_run E W2 gd m1 inputd _ (fair_setting _ _ _ _ _ F2 K1) Hd) as (m12 & Run12 & N12 & D12).
  destruct (delblocks_run E W3 gd main inputd _ (fair_setting _ _ _ _ _ F3 Hk) Hd) as (m2 & Run2 & N2 & D2).
  assert (forall k x, m2 !! k = Some x -> main !! k = Some x) as Hsub.
  { intros k x Hx. destruct (main !! k) as [y|] eqn:Hy; [|by rewrite (N2 k Hy) in Hx].
    destruct (Hk k ltac:(by eexists)) as [bp Hbp]. destruct (D2 k bp Hbp) as [A B].
    destruct (whole_dec (aarea gd) (invert gd) bp) as [Hv|Hv]; [by rewrite (A Hv) in Hx|]. by rewrite (B Hv), Hy in Hx. }
  assert (keys_ok m2) as K2 by (intros k [x Hx%Hsub]; apply Hk; by eexists).
  assert (blocks E m2 (healthy n)) as B2 by (intros k x b Hx%Hsub Hdd; by eapply Hb).
  destruct (copying_copies E W4 c m2 input n) as (m21 & f2 & Run21 & _ & N21 & E21); [done|done|lia|done..|].
  exists m12, m21. split; [by exists m1, (warnings c ++ closing f1), (warnings gd ++ closing 0)|].
  split; [by exists m2, (warnings gd ++ closing 0), (warnings c ++ closing f2)|].
  assert (forall p sb j, selected (aarea c) false p -> found E (source c main input) p sb j <-> found E (source c m2 input) p sb j) as Hf.
  { intros p sb j Hsel. unfold source. destruct Hc as [Hc|[Hc _]]; rewrite Hc; [|done]. split.
    - intros (bp & Hw & (k & x & Hbp & Hx & Hdx & Hg) & Hj & Hp). exists bp. split; [done|]. split; [|done].
      exists k, x. split; [done|]. split; [|done]. destruct (D2 k bp Hbp) as [_ B]. rewrite B; [done|].
      intros Hv. eapply (Hsp Hc bp p Hv); [|done]. rewrite <-Hp. by apply index_inside.
    - intros (bp & Hw & (k & x & Hbp & Hx%Hsub & Hr) & Hr'). exists bp. split; [done|]. split; [|done]. by exists k, x. }
  intros k. destruct (main !! k) as [x|] eqn:Hx; [|by rewrite (N12 k (N1 k Hx)), (N21 k (N2 k Hx))].
  destruct (Hk k ltac:(by eexists)) as [bp Hbp]. destruct (D12 k bp Hbp) as [A12 C12]. destruct (D2 k bp Hbp) as [A2 C2].
  destruct (whole_dec (aarea gd) (invert gd) bp) as [Hv|Hv]; [by rewrite (A12 Hv), (N21 k (A2 Hv))|].
  rewrite (C12 Hv). specialize (C2 Hv). rewrite Hx in C2.
  destruct (E1 k bp x Hbp Hx) as (y1 & -> & H1). destruct (E21 k bp x Hbp C2) as (y2 & -> & H2).
  destruct (deserialize E x) as [b|] eqn:Ed; [|left; congruence].
  destruct H1 as (U1 & b1 & D1 & _ & P1). destruct H2 as (U2 & b2 & D2' & _ & P2).
  destruct (decide (not_generated b)) as [Hg|Hg]; [left; rewrite U1, U2 by (by left); done|].
  destruct P1 as [P1|P1]; [done|]. destruct P2 as [P2|P2]; [done|].
  right. exists b1, b2. split; [done|]. split; [done|]. by eapply pasted_same.
Qed.

(** ** Overlay without offset *)
Definition like (E : ext) (o1 o2 : option bytes) : Prop :=
  match o1, o2 with
  | None, None => True
  | Some y1, Some y2 => y1 = y2 \/ exists b1 b2, deserialize E y1 = Ok b1 /\ deserialize E y2 = Ok b2 /\ alike b1 b2
  | _, _ => False
  end.
Lemma like_refl E o : like E o o.
Proof. destruct o; [by left|done]. Qed.

Lemma overlaid_same E c bp x old new1 new2 : key_range bp -> area_ok (aarea c) ->
  overlaid E (aarea c) (invert c) bp x old new1 -> overlaid E (aarea c) (invert c) bp x old new2 ->
  like E new1 new2.
Proof.
  intros Hbp Ha (A1 & B1 & D1 & M1) (A2 & B2 & D2 & M2).
  destruct (decide (wholeb (aarea c) (invert c) bp = true)) as [Hw|Hw].
  { apply wholeb_iff in Hw; [|apply Hbp|done]. destruct (decide (claims_generated E x)) as [Hc|Hc].
    - rewrite A1, A2 by done. apply like_refl.
    - rewrite B1, B2 by done. apply like_refl. }
  apply not_true_is_false in Hw. apply wholeb_false in Hw; [|apply Hbp|done].
  destruct (decide (visitb (aarea c) (invert c) bp = true)) as [Hv|Hv].
  2:{ rewrite D1, D2; [apply like_refl|..]; intros q Hq Hs; apply Hv, visitb_iff; by exists q. }
  apply visitb_iff in Hv as (q & Hq & Hs).
  assert (~ none (aarea c) (invert c) bp) as Hnn by (intros Hnn; by apply (Hnn q)).
  specialize (M1 Hw Hnn). specialize (M2 Hw Hnn).
  destruct old as [y|]; [|by rewrite M1, M2]. destruct M1 as [M1 M1']. destruct M2 as [M2 M2'].
  destruct (decide (claims_generated E y)) as [Hc|Hc]; [|rewrite M1, M2 by done; apply like_refl].
  specialize (M1' Hc). specialize (M2' Hc).
  destruct (deserialize E x) as [s|] eqn:X; [|rewrite M1', M2'; apply like_refl].
  destruct (deserialize E y) as [b|] eqn:Y; [|rewrite M1', M2'; apply like_refl].
  destruct M1' as (z1 & b1' & -> & Hd1 & P1). destruct M2' as (z2 & b2' & -> & Hd2 & P2).
  right. exists b1', b2'. split; [done|]. split; [done|]. eapply (mixed_pair _ _ bp s s b b); try done; by split.
Qed.

Lemma cut_overlay E W1 W2 W3 W4 c gd main input inputd n :
  fair E W1 c input -> fair E W2 gd inputd -> fair E W3 gd inputd -> fair E W4 c input ->
  keys_ok main -> 4095 <= n <= 7280 -> blocks E main (healthy n) ->
  acmd c = COverlay -> default (V3 0 0 0) (offset c) = V3 0 0 0 -> blocks E input (healthy n) ->
  acmd gd = CDeleteBlocks -> spares_place gd c ->
  exists m12 m21, after E W1 W2 c gd main input inputd m12 /\ after E W3 W4 gd c main inputd input m21 /\
    same_contents E m12 m21.
Proof.
  intros F1 F2 F3 F4 Hk Hn Hb Hc Hz Hi Hd Hsp.
  pose proof (fair_setting E W1 c main input F1 Hk) as S1.
  destruct (overlay_run E W1 c main input from_block_key) as (m1 & f1 & Run1 & _ & N1 & O1); try done; [by apply F1|apply (healthy_roomy E c main input n); [lia|done|done]|].
  assert (keys_ok m1) as K1.
  { destruct (run_next E W1 c main input n F1 Hk Hn Hb (fun _ => Hi)) as (m' & l' & Run' & _ & K' & _).
    by destruct (run_ok_fun _ _ _ _ _ _ _ _ _ Run1 Run') as [<- _]. }
  destruct (delblocks_run E W2 gd m1 inputd _ (fair_setting _ _ _ _ _ F2 K1) Hd) as (m12 & Run12 & N12 & D12).
  destruct (delblocks_run E W3 gd main inputd _ (fair_setting _ _ _ _ _ F3 Hk) Hd) as (m2 & Run2 & N2 & D2).
  assert (forall k x, m2 !! k = Some x -> main !! k = Some x) as Hsub.
  { intros k x Hx. destruct (main !! k) as [y|] eqn:Hy; [|by rewrite (N2 k Hy) in Hx].
    destruct (Hk k ltac:(by eexists)) as [bp Hbp]. destruct (D2 k bp Hbp) as [A B].
    destruct (whole_dec (aarea gd) (invert gd) bp) as [Hv|Hv]; [by rewrite (A Hv) in Hx|]. by rewrite (B Hv), Hy in Hx. }
  assert (keys_ok m2) as K2 by (intros k [x Hx%Hsub]; apply Hk; by eexists).
  assert (blocks E m2 (healthy n)) as B2 by (intros k x b Hx%Hsub Hdd; by eapply Hb).
  pose proof (fair_setting E W4 c m2 input F4 K2) as S4.
  destruct (overlay_run E W4 c m2 input from_block_key) as (m21 & f2 & Run21 & _ & N21 & O21); try done; [by apply F4|apply (healthy_roomy E c m2 input n); [lia|done|done]|].
  exists m12, m21. split; [by exists m1, (warnings c ++ closing f1), (warnings gd ++ closing 0)|].
  split; [by exists m2, (warnings gd ++ closing 0), (warnings c ++ closing f2)|].
  pose proof (area_ok_args c (fair_supplied _ _ _ _ F1) (fair_legal _ _ _ _ F1)) as Ha.
  intros k. change (like E (m12 !! k) (m21 !! k)). destruct (input !! k) as [x|] eqn:Hx.
  - destruct (fair_input _ _ _ _ F1 k ltac:(by eexists)) as [bp Hbp]. destruct (D12 k bp Hbp) as [A12 C12]. destruct (D2 k bp Hbp) as [A2 C2].
    pose proof (O1 k bp x Hbp Hx) as P1. pose proof (O21 k bp x Hbp Hx) as P2.
    destruct (whole_dec (aarea gd) (invert gd) bp) as [Hv|Hv].
    + rewrite (A12 Hv). rewrite (A2 Hv) in P2. destruct P2 as (_ & _ & D & _). rewrite D; [done|]. intros q Hq. by eapply Hsp.
    + rewrite (C12 Hv). rewrite (C2 Hv) in P2. eapply overlaid_same; [apply Hbp|exact Ha|exact P1|exact P2].
  - rewrite (N21 k Hx). destruct (main !! k) as [z|] eqn:Hm.
    2:{ rewrite (N2 k Hm). rewrite (N12 k); [done|]. by rewrite (N1 k Hx). }
    destruct (Hk k ltac:(by eexists)) as [bp Hbp]. destruct (D12 k bp Hbp) as [A12 C12]. destruct (D2 k bp Hbp) as [A2 C2].
    destruct (whole_dec (aarea gd) (invert gd) bp) as [Hv|Hv]; [by rewrite (A12 Hv), (A2 Hv)|].
    rewrite (C12 Hv), (C2 Hv), (N1 k Hx). apply like_refl.
Qed.
