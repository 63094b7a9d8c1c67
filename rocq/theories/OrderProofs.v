(** Row order and hash order do not matter *)
From Verif Require Import SpecOrder CodecProofs BlockProofs BodyProofs EditProofs NodeProofs MetaProofs
  ObjProofs InvProofs ThreadProofs WholeProofs QueryProofs MixProofs CopyRun OverlayRun ToyRun SpecCopy Spec.

Lemma list_filter_iff_in {A} (P Q : A -> Prop) {HP : forall x, Decision (P x)} {HQ : forall x, Decision (Q x)} (l : list A) :
  (forall x, x ∈ l -> P x <-> Q x) -> filter P l = filter Q l.
Proof.
  induction l as [|x l IH]; intros H; [done|]. rewrite !filter_cons, IH by set_solver.
  pose proof (H x ltac:(set_solver)). do 2 case_decide; tauto.
Qed.
Lemma zsum_le {A} (f g : A -> Z) (l : list A) : (forall x, x ∈ l -> f x <= g x) -> zsum f l <= zsum g l.
Proof.
  induction l as [|x l IH]; intros H; simpl; [lia|]. pose proof (H x ltac:(set_solver)).
  specialize (IH ltac:(set_solver)). lia.
Qed.

Section order.
  Context (E1 E2 : ext) (Hsame : same_reading E1 E2).

  Lemma deser_same x : deserialize E1 x = deserialize E2 x.
  Proof.
    destruct Hsame as [Hl Hz _]. unfold deserialize. destruct (rd_byte x) as [[v s]|]; [|done].
    cbn [bindR]. cbv zeta. destruct (_ || _); [done|]. rewrite Hz. destruct (29 <=? b2z v); [done|].
    unfold deser_28, rd_node_data_z, rd_metadata_z.
    destruct (rd_byte s) as [[f s1]|]; cbn [bindR]; [|done].
    destruct (if 27 <=? b2z v then rd_u16 s1 else Ok (65535, s1)) as [[lc s2]|]; cbn [bindR]; [|done].
    destruct (rd_byte s2) as [[? s3]|]; cbn [bindR]; [|done].
    destruct (rd_byte s3) as [[? s4]|]; cbn [bindR]; [|done].
    destruct (_ || _); [done|]. rewrite Hl. destruct (zl_dec E2 s4) as [[d n]|]; cbn [bindR]; [|done].
    destruct (rd_node_data d) as [[? ?]|]; cbn [bindR]; [|done]. destruct (negb _); cbn [bindR]; [done|].
    by rewrite Hl.
  Qed.
  Lemma claims_same x : claims_generated E1 x <-> claims_generated E2 x.
  Proof.
    destruct Hsame as [_ _ Hf]. unfold claims_generated.
    split; intros (v & f & t & fl & -> & Hv & Hfl & Hb); exists v, f, t, fl; split; try done; split; try done;
      split; try done; (case_match; [|done]); [by rewrite <-Hf|by rewrite Hf].
  Qed.
  Lemma blocks_same m P : blocks E1 m P <-> blocks E2 m P.
  Proof.
    split; intros H k x b Hk Hd; [rewrite <-deser_same in Hd|rewrite deser_same in Hd]; by eapply H.
  Qed.
  Lemma total_same m pos f : total E1 m pos f = total E2 m pos f.
  Proof. apply zsum_ext. intros [k x] _. cbn [fst snd]. by rewrite deser_same. Qed.

  Lemma list_length_same (l1 l2 : list Z) : NoDup l1 -> NoDup l2 -> (forall k, k ∈ l1 <-> k ∈ l2) ->
    length l1 = length l2.
  Proof. intros H1 H2 H. apply Permutation_length, NoDup_Permutation; done. Qed.

  Lemma skipped_same main a inv names n1 n2 :
    skipped E1 main a inv names n1 -> skipped E2 main a inv names n2 -> n1 = n2.
  Proof.
    intros (l1 & N1 & -> & H1) (l2 & N2 & -> & H2). f_equal. apply list_length_same; [done..|].
    intros k. rewrite H1, H2. by setoid_rewrite deser_same.
  Qed.
  Lemma refused_same main a off n1 n2 : refused E1 main a off n1 -> refused E2 main a off n2 -> n1 = n2.
  Proof.
    intros (l1 & N1 & -> & H1) (l2 & N2 & -> & H2). f_equal. apply list_length_same; [done..|].
    intros k. rewrite H1, H2. setoid_rewrite deser_same. by setoid_rewrite claims_same.
  Qed.
  Lemma unmixed_same main input a inv n1 n2 :
    unmixed E1 main input a inv n1 -> unmixed E2 main input a inv n2 -> n1 = n2.
  Proof.
    intros (l1 & N1 & -> & H1) (l2 & N2 & -> & H2). f_equal. apply list_length_same; [done..|].
    intros k. rewrite H1, H2. setoid_rewrite deser_same. by setoid_rewrite claims_same.
  Qed.

  (** ** Effects *)
  Lemma effect_same main m1 m2 u1 u2 (R1 R2 : vec3 -> block -> block -> Prop) : keys_ok main ->
    effect E1 main m1 u1 R1 -> effect E2 main m2 u2 R2 ->
    (forall k bp x y1 y2 b b1 b2, block_at k bp -> main !! k = Some x -> deserialize E1 x = Ok b ->
       deserialize E1 y1 = Ok b1 -> deserialize E1 y2 = Ok b2 ->
       (u1 bp b -> y1 = x) -> (u2 bp b -> y2 = x) -> R1 bp b b1 -> R2 bp b b2 -> y1 = y2 \/ alike b1 b2) ->
    same_contents E1 m1 m2.
  Proof.
    intros Hk [Hn1 H1] [Hn2 H2] HR k. destruct (main !! k) as [x|] eqn:Hx.
    - destruct (Hk k ltac:(by eexists)) as [bp Hbp].
      destruct (H1 k bp x Hbp Hx) as (y1 & -> & G1). destruct (H2 k bp x Hbp Hx) as (y2 & -> & G2).
      rewrite <-deser_same in G2. destruct (deserialize E1 x) as [b|e] eqn:Ed; [|left; congruence].
      destruct G1 as (U1 & b1 & D1 & _ & R1'). destruct G2 as (U2 & b2 & D2 & _ & R2'). rewrite <-deser_same in D2.
      destruct (HR k bp x y1 y2 b b1 b2 Hbp Hx Ed D1 D2 U1 U2 R1' R2') as [->|Ha]; [by left|].
      right. by exists b1, b2.
    - by rewrite (Hn1 k Hx), (Hn2 k Hx).
  Qed.

  Lemma edits_same W1 W2 g main input names m1 m2 u1 u2 R1 R2 : keys_ok main -> m1 = m2 ->
    edits E1 W1 g main input names m1 u1 R1 -> edits E2 W2 g main input names m2 u2 R2 ->
    (forall k bp x y1 y2 b b1 b2, block_at k bp -> main !! k = Some x -> deserialize E1 x = Ok b ->
       deserialize E1 y1 = Ok b1 -> deserialize E1 y2 = Ok b2 ->
       (u1 bp b -> y1 = x) -> (u2 bp b -> y2 = x) -> R1 bp b b1 -> R2 bp b b2 -> y1 = y2 \/ alike b1 b2) ->
    same_outcome E1 E2 W1 W2 g main input.
  Proof.
    intros Hk <- (main1 & n1 & Run1 & S1 & Eff1) (main2 & n2 & Run2 & S2 & Eff2) HR.
    rewrite <-(skipped_same _ _ _ _ _ _ S1 S2) in Run2.
    eexists _, _, _. split; [exact Run1|]. split; [exact Run2|]. by eapply effect_same.
  Qed.

  (** ** Blocks *)
  Lemma norm_parts b1 b2 : norm b1 = norm b2 -> ndata b1 = ndata b2 /\ nimap b1 = nimap b2.
  Proof. intros H. split; [exact (f_equal ndata H)|exact (f_equal nimap H)]. Qed.
  Lemma norm_alike b1 b2 : norm b1 = norm b2 -> alike b1 b2.
  Proof.
    intros H. destruct (norm_parts b1 b2 H) as [Hd Hm]. split.
    - unfold same_but_nodes. rewrite <-H, <-Hd, <-Hm. by destruct b1.
    - intros i _. unfold node_name, node_param1, node_param2. by rewrite Hd, Hm.
  Qed.
  Lemma but_nodes_trans b b1 b2 : same_but_nodes b b1 -> same_but_nodes b b2 -> same_but_nodes b1 b2.
  Proof.
    unfold same_but_nodes. intros H1 H2. rewrite H2, H1. by destruct b.
  Qed.

  Lemma renamed_alike d P {HP : forall i, Decision (P i)} node b b1 b2 :
    renamed d P node b b1 -> renamed d P node b b2 -> alike b1 b2.
  Proof.
    intros (S1 & _ & _ & P1 & Q1 & N1) (S2 & _ & _ & P2 & Q2 & N2). split; [by eapply but_nodes_trans|].
    intros i Hi. rewrite N1, N2 by done. unfold node_param1, node_param2. by rewrite P1, P2, Q1, Q2.
  Qed.
  Lemma repainted_alike P {HP : forall i, Decision (P i)} v b b1 b2 :
    repainted P v b b1 -> repainted P v b b2 -> alike b1 b2.
  Proof.
    intros (S1 & N1 & P1 & Q1) (S2 & N2 & P2 & Q2).
    assert (nimap b1 = nimap b) as M1 by exact (f_equal nimap S1).
    assert (nimap b2 = nimap b) as M2 by exact (f_equal nimap S2).
    split.
    - eapply (but_nodes_trans b); unfold same_but_nodes; [by rewrite M1|by rewrite M2].
    - intros i Hi. rewrite Q1, Q2 by done. unfold node_name, node_param1. by rewrite N1, N2, M1, M2, P1, P2.
  Qed.
  Lemma metadata_alike upd b b1 b2 : metadata_changed upd b b1 -> metadata_changed upd b b2 -> alike b1 b2.
  Proof.
    intros (md1 & H1 & G1) (md2 & H2 & G2). apply norm_alike. rewrite H1, H2. f_equal.
    apply map_eq. intros i. by rewrite G1, G2.
  Qed.

  Lemma copied_alike c b1 b2 : same_rest c b1 -> same_rest c b2 ->
    (forall i, 0 <= i < 4096 -> same_node b1 i b2 i) -> alike b1 b2.
  Proof.
    intros (S1 & _ & I1) (S2 & _ & I2) HN.
    assert (version b1 = version c) as V1 by exact (f_equal version S1).
    assert (version b2 = version c) as V2 by exact (f_equal version S2).
    assert (metadata (norm b1) = metadata (norm b2)) as HM.
    { unfold norm. cbn [metadata]. apply map_eq. intros i.
      assert (forall b, norm_metadata (version b) (metadata b) !! i = metadata b !! i ≫= kept (version b)) as HK.
      { intros b. unfold norm_metadata, kept.
        assert (filter (fun e : Z * node_meta => ~ blank e.2) (metadata b) !! i =
                metadata b !! i ≫= fun m => if decide (blank m) then None else Some m) as HF.
        { destruct (metadata b !! i) as [m|] eqn:Em; cbn.
          - case_decide as Hb.
            + apply map_filter_lookup_None_2. right. intros m' Hm'. rewrite Em in Hm'. inversion Hm'; subst m'. cbn. tauto.
            + apply map_filter_lookup_Some_2; done.
          - apply map_filter_lookup_None_2. by left. }
        destruct (28 <=? version b).
        - unfold id. rewrite HF. done.
        - rewrite lookup_fmap, HF. destruct (metadata b !! i) as [m|]; cbn; [|done]. by case_decide. }
      rewrite !HK. destruct (decide (0 <= i < 4096)) as [Hi|Hi].
      - destruct (HN i Hi) as (_ & _ & _ & H). by rewrite V2, <-V1.
      - destruct (metadata b1 !! i) eqn:M1; [by destruct Hi; eapply (I1 i)|].
        destruct (metadata b2 !! i) eqn:M2; [by destruct Hi; eapply (I2 i)|]. done. }
    split.
    - unfold same_but_nodes. rewrite S2, <-HM. rewrite S1 at 2. by destruct c.
    - intros i Hi. by destruct (HN i Hi) as (? & ? & ? & _).
  Qed.

  Global Instance node_meta_dec : EqDecision node_meta.
  Proof. solve_decision. Defined.
  Global Instance same_node_dec b' i b j : Decision (same_node b' i b j).
  Proof. unfold same_node. apply _. Defined.

  (** ** Commands *)
  Context (W1 W2 : world) (g : args) (main input : mapdata) (pos : Z -> vec3).
  Context (S1 : setting E1 W1 g main pos) (S2 : setting E2 W2 g main pos).

  Lemma keys_main : keys_ok main.
  Proof. by eapply pos_keys. Qed.

  Lemma found_same m p b j : found E1 m p b j <-> found E2 m p b j.
  Proof. unfold found, holds. by setoid_rewrite deser_same. Qed.

  Lemma node_trans b b1 b2 i c j : version b1 = version b -> version b2 = version b ->
    same_node b1 i c j -> same_node b2 i c j -> same_node b1 i b2 i.
  Proof.
    intros V1 V2 (? & ? & ? & M1) (? & ? & ? & M2). unfold same_node. rewrite V1 in *. rewrite V2 in M2.
    repeat split; congruence.
  Qed.

  Lemma copies_same src a off : copies E1 W1 g main input src a off -> copies E2 W2 g main input src a off ->
    same_outcome E1 E2 W1 W2 g main input.
  Proof.
    intros (main1 & n1 & Run1 & R1 & Eff1) (main2 & n2 & Run2 & R2 & Eff2).
    rewrite <-(refused_same _ _ _ _ _ R1 R2) in Run2.
    eexists _, _, _. split; [exact Run1|]. split; [exact Run2|].
    eapply effect_same; [apply keys_main|exact Eff1|exact Eff2|]. cbv beta.
    intros k bp x y1 y2 b b1 b2 Hbp Hx Hd D1 D2 U1 U2 P1 P2.
    destruct (decide (not_generated b)) as [Hg|Hg].
    { left. rewrite U1, U2 by (by left). done. }
    right. destruct P1 as [P1|(HR1 & _ & P1)]; [done|]. destruct P2 as [P2|(HR2 & _ & P2)]; [done|].
    apply (copied_alike b); [done..|]. intros i Hi. apply dec_stable. intros Hno.
    destruct (P1 i Hi) as [F1 O1]. destruct (P2 i Hi) as [F2 O2].
    assert (version b1 = version b) as V1 by exact (f_equal version (proj1 HR1)).
    assert (version b2 = version b) as V2 by exact (f_equal version (proj1 HR2)).
    pose proof (fun c j => node_trans b b1 b2 i c j V1 V2) as Htr.
    assert (~ (selected a false (minus (abs_pos bp i) off) /\
      exists sb j, found E1 src (minus (abs_pos bp i) off) sb j)) as Hn.
    { intros (Hs & sb & j & Hf). apply Hno. apply (Htr sb j); [by apply F1|]. apply F2; [done|]. by apply found_same. }
    apply Hno. apply (Htr b i); [by apply O1|]. apply O2. intros (Hs & sb & j & Hf). apply Hn.
    split; [done|]. exists sb, j. by apply found_same.
  Qed.

  Lemma overlays_same : keys_ok input -> overlays E1 W1 g main input -> overlays E2 W2 g main input ->
    same_outcome E1 E2 W1 W2 g main input.
  Proof.
    intros Hik (main1 & n1 & Run1 & R1 & K1 & O1) (main2 & n2 & Run2 & R2 & K2 & O2).
    rewrite <-(unmixed_same _ _ _ _ _ _ R1 R2) in Run2.
    eexists _, _, _. split; [exact Run1|]. split; [exact Run2|].
    assert (forall o1 o2 : option bytes, o1 = o2 -> match o1, o2 with
      | None, None => True
      | Some y1, Some y2 => y1 = y2 \/
          exists b1 b2, deserialize E1 y1 = Ok b1 /\ deserialize E1 y2 = Ok b2 /\ alike b1 b2
      | _, _ => False end) as Hrefl by (intros [?|] ? <-; [by left|done]).
    pose proof (area_ok_args g (set_supplied _ _ _ _ _ S1) (set_legal _ _ _ _ _ S1)) as Ha.
    intros k. destruct (input !! k) as [x|] eqn:Hx; [|apply Hrefl; by rewrite (K1 k Hx), (K2 k Hx)].
    destruct (Hik k ltac:(by eexists)) as [bp Hbp].
    destruct (O1 k bp x Hbp Hx) as (A1 & B1 & C1 & D1). destruct (O2 k bp x Hbp Hx) as (A2 & B2 & C2 & D2).
    destruct (decide (wholeb (aarea g) (invert g) bp = true)) as [Hw|Hw].
    { apply wholeb_iff in Hw; [|apply Hbp|done]. destruct (decide (claims_generated E1 x)) as [Hc|Hc].
      - apply Hrefl; rewrite A1, A2; [done|done|by apply claims_same|done|done].
      - apply Hrefl; rewrite B1, B2; [done|done|by rewrite <-claims_same|done|done]. }
    apply not_true_is_false in Hw. apply wholeb_false in Hw; [|apply Hbp|done].
    destruct (decide (visitb (aarea g) (invert g) bp = true)) as [Hv|Hv].
    2:{ apply Hrefl; rewrite C1, C2; [done|..]; intros q Hq Hs; apply Hv, visitb_iff; by exists q. }
    apply visitb_iff in Hv as (q & Hq & Hs).
    assert (~ none (aarea g) (invert g) bp) as Hn by (intros Hn; by apply (Hn q)).
    specialize (D1 Hw Hn). specialize (D2 Hw Hn).
    destruct (main !! k) as [y|]; [|rewrite D1, D2; done].
    destruct D1 as [N1 D1]. destruct D2 as [N2 D2].
    destruct (decide (claims_generated E1 y)) as [Hc|Hc].
    2:{ apply Hrefl; rewrite N1, N2; [done|by rewrite <-claims_same|done]. }
    specialize (D1 Hc). specialize (D2 (proj1 (claims_same y) Hc)). rewrite <-!deser_same in D2.
    destruct (deserialize E1 x) as [sb|]; [|apply Hrefl; by rewrite D1, D2].
    destruct (deserialize E1 y) as [b|]; [|apply Hrefl; by rewrite D1, D2].
    destruct D1 as (z1 & b1 & -> & Hd1 & HR1 & _ & _ & M1). destruct D2 as (z2 & b2 & -> & Hd2 & HR2 & _ & _ & M2).
    rewrite <-deser_same in Hd2. right. exists b1, b2. split; [done|]. split; [done|].
    eapply copied_alike; [exact HR1|exact HR2|]. intros i Hi. specialize (M1 i Hi). specialize (M2 i Hi).
    pose proof (fun c j => node_trans (if invert g then sb else b) b1 b2 i c j
      (f_equal version (proj1 HR1)) (f_equal version (proj1 HR2))) as Htr.
    case_decide; by eapply Htr.
  Qed.

  Lemma roomy_same m : roomy E1 g main m -> roomy E2 g main m.
  Proof. intros (n & s & Hr & H1 & H2). exists n, s. split; [done|]. split; by apply blocks_same. Qed.

  Lemma same_run : plausible E1 g main input -> same_outcome E1 E2 W1 W2 g main input.
  Proof.
    intros Hp. pose proof keys_main as Hk. pose proof (set_supplied _ _ _ _ _ S1) as [_ Hsup].
    unfold plausible in Hp.
    assert (forall P Q : block -> Prop, (forall b, P b -> Q b) -> blocks E1 main P ->
      blocks E1 main Q /\ blocks E2 main Q) as Hb.
    { intros P Q HPQ HB. assert (blocks E1 main Q) as HQ by (intros k x b Hx Hd; apply HPQ; by eapply HB).
      split; [done|]. by apply blocks_same. }
    assert (forall b, consistent b -> sound 65533 b) as HC1 by (by intros b []).
    assert (forall b, consistent b -> unique_names b) as HC2 by (by intros b []).
    assert (forall b, consistent b -> meta_in b) as HC3 by (by intros b [[] _]).
    assert (forall b, consistent b -> timers_in b) as HC4 by (by intros b [[] _]).
    destruct (acmd g) eqn:Hc.
    - (* clone *)
      destruct Hsup as [[a Ha] [off Ho]].
      eapply (copies_same main (Some a) off); eapply clone_run; try done. by apply roomy_same.
    - (* deleteblocks *)
      destruct (delblocks_run E1 W1 g main input pos S1 Hc) as (m1 & Run1 & H1).
      destruct (delblocks_run E2 W2 g main input pos S2 Hc) as (m2 & Run2 & H2).
      eexists _, _, _. split; [exact Run1|]. split; [exact Run2|].
      assert (m1 = m2) as ->; [|intros k; destruct (m2 !! k); [by left|done]].
      destruct H1 as [N1 H1]. destruct H2 as [N2 H2]. apply map_eq. intros k.
      destruct (main !! k) as [x|] eqn:Hx; [|by rewrite N1, N2].
      destruct (Hk k ltac:(by eexists)) as [bp Hbp]. destruct (H1 k bp Hbp) as [A1 B1]. destruct (H2 k bp Hbp) as [A2 B2].
      destruct (decide (m1 !! k = m2 !! k)) as [|Hne]; [done|]. exfalso.
      assert (~ visit (aarea g) (invert g) false bp) as Hv by (intros Hv; apply Hne; by rewrite A1, A2).
      apply Hne. by rewrite B1, B2.
    - (* deletemeta *)
      destruct Hp as [_ Hp]. destruct (Hb _ _ HC2 Hp) as [U1 U2]. destruct (Hb _ _ HC3 Hp) as [M1 M2].
      eapply edits_same; [done| |apply (delmeta_run E1 W1 g main input pos); done|apply (delmeta_run E2 W2 g main input pos); done|].
      + by rewrite total_same.
      + cbv beta. intros ??????????????? H1 H2. right. exact (metadata_alike _ _ _ _ H1 H2).
    - (* deleteobjects *)
      eapply edits_same; [done| |apply (delobj_fn E1 W1 g main input pos S1 Hc)|apply (delobj_fn E2 W2 g main input pos S2 Hc)|].
      + by rewrite total_same.
      + cbv beta. intros k bp x y1 y2 b b1 b2 Hbp Hx Hd _ _ _ _ H1 H2. right. apply norm_alike. by rewrite H1, H2.
    - (* deletetimers *)
      destruct Hp as [_ Hp]. destruct (Hb _ _ HC2 Hp) as [U1 U2]. destruct (Hb _ _ HC4 Hp) as [M1 M2].
      eapply edits_same; [done| |apply (deltimers_run E1 W1 g main input pos); done|apply (deltimers_run E2 W2 g main input pos); done|].
      + by rewrite total_same.
      + cbv beta. intros ??????????????? H1 H2. right. apply norm_alike. by rewrite H1, H2.
    - (* fill *)
      destruct Hp as [[Hf _] Hp]. destruct (Hb _ _ HC1 Hp) as [B1 B2]. destruct Hsup as [[a Ha] [node Hn]].
      eapply edits_same; [done| |apply (fill_run E1 W1 g main input pos a node); auto|apply (fill_run E2 W2 g main input pos a node); auto|].
      + by rewrite total_same.
      + cbv beta. intros ??????????????? H1 H2. right. exact (renamed_alike _ _ _ _ _ _ H1 H2).
    - (* replacenodes *)
      destruct Hp as [[Hf _] Hp]. destruct (Hb _ _ HC1 Hp) as [B1 B2]. destruct (Hb _ _ HC2 Hp) as [U1 U2].
      destruct Hsup as [[old Ho] [new Hn]].
      eapply edits_same; [done| |apply (replace_run E1 W1 g main input pos old new); auto|apply (replace_run E2 W2 g main input pos old new); auto|].
      + by rewrite total_same.
      + cbv beta. intros ??????????????? H1 H2. right. exact (renamed_alike _ _ _ _ _ _ H1 H2).
    - (* replaceininv *)
      destruct Hp as (Hp & Hn & Hi). destruct (Hb _ _ HC2 Hp) as [U1 U2]. destruct (Hb _ _ HC3 Hp) as [M1 M2].
      destruct Hsup as [item Hitem].
      assert (forall n, (if adelete g then None else Some (default item (new_item g))) = Some n -> plain_name n) as Hnew.
      { intros n H. apply Hn. destruct (adelete g); [done|]. destruct (new_item g); naive_solver. }
      eapply edits_same; [done| |apply (replinv_run E1 W1 g main input pos item); try done; intros; by eapply Hi
        |apply (replinv_run E2 W2 g main input pos item); try done|].
      + by rewrite !total_same.
      + intros k bp x b i m _ Hx Hd Hm _. rewrite <-deser_same in Hd. by eapply Hi.
      + cbv beta. intros ??????????????? H1 H2. right. exact (metadata_alike _ _ _ _ H1 H2).
    - (* overlay *)
      destruct Hp as [Hik Hm].
      destruct (decide (default (V3 0 0 0) (offset g) = V3 0 0 0)) as [Hz|Hz].
      + apply overlays_same; [done|apply (overlay_run E1 W1 g main input pos); auto
          |apply (overlay_run E2 W2 g main input pos); try done; by apply roomy_same].
      + destruct (offset g) as [off|] eqn:Ho; [|done].
        eapply copies_same; eapply offset_run; try done; by apply roomy_same.
    - (* setmetavar *)
      destruct Hp as [[_ Hf] Hp]. destruct (Hb _ _ HC2 Hp) as [U1 U2]. destruct (Hb _ _ HC3 Hp) as [M1 M2].
      destruct Hsup as [key Hkey].
      eapply edits_same; [done| |apply (setvar_run E1 W1 g main input pos key); done|apply (setvar_run E2 W2 g main input pos key); done|].
      + by rewrite total_same.
      + cbv beta. intros ??????????????? H1 H2. right. exact (metadata_alike _ _ _ _ H1 H2).
    - (* setparam2 *)
      destruct Hp as [[v Hv] Hp]. destruct (Hb _ _ HC2 Hp) as [U1 U2].
      eapply edits_same; [done| |apply (param2_run E1 W1 g main input pos v); auto|apply (param2_run E2 W2 g main input pos v); auto|].
      + by rewrite total_same.
      + cbv beta. intros ??????????????? H1 H2. right. exact (repainted_alike _ _ _ _ _ H1 H2).
    - (* vacuum *)
      destruct S1, S2. eexists _, _, _. split; [by apply vacuum_run|]. split; [by apply vacuum_run|].
      intros k. destruct (main !! k); [by left|done].
  Qed.
End order.
