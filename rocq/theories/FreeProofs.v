(** Proofs about edits that do not depend on one another *)
From Verif Require Import CodecProofs BlockProofs UtilsProofs QueryProofs EditProofs NodeProofs MetaProofs InvProofs ObjProofs WholeProofs ArgProofs MapProofs MixProofs
  ThreadProofs FragProofs CopyProofs CopyRun OverlayRun ToyRun CmdFacts SpecNodes KeepProofs OrderProofs AgainProofs LocalProofs RestoreProofs CongProofs LawProofs AddProofs UndoProofs
  SpecCopy SpecUndo SpecAdd SpecAgain SpecLocal Spec.

Lemma keeps_hit g1 g2 p s : supplied g1 -> keeps_names g1 g2 -> acmd g2 <> CDeleteObjects -> hit g2 p (step g1 p s) <-> hit g2 p s.
Proof.
  intros [_ Hs] Hk Hno. unfold step. destruct (decide (hit g1 p s)) as [H1|H1]; [|done]. unfold hit at 1 2.
  unfold keeps_names in Hk. unfold act. destruct (acmd g1) eqn:Hc; try done.
  - destruct Hk as [->|?]; [tauto|done].
  - destruct Hk as [?|Hk]; [done|]. destruct Hs as [[old Eo] [new En]]. destruct H1 as [_ H1]. unfold searched in H1. rewrite Hc, Eo in H1. cbn in H1.
    destruct H1 as [?|H1]; [done|]. rewrite Exists_cons, Exists_nil in H1. destruct H1 as [H1|[]].
    rewrite !Exists_exists. rewrite Forall_forall in Hk. cbn. rewrite En. split; intros [Hsel [?|(x & Hx & Hn)]]; (split; [done|]); try (by left);
      destruct (Hk x Hx); congruence.
Qed.

Lemma stored_two f g m : (forall m, blank m -> blank (f m)) -> (forall m, blank m -> blank (g m)) -> f (g m) = g (f m) ->
  (stored (f m) ≫= fun m' => stored (g m')) = (stored (g m) ≫= fun m' => stored (f m')).
Proof.
  intros Hf Hg Hc. unfold stored at 2 4. destruct (decide (blank (f m))) as [Bf|Bf], (decide (blank (g m))) as [Bg|Bg]; cbn [mbind option_bind].
  - done.
  - unfold stored. rewrite decide_True; [done|]. rewrite Hc. by apply Hg.
  - unfold stored. rewrite decide_True; [done|]. rewrite <-Hc. by apply Hf.
  - by rewrite Hc.
Qed.
Lemma blank_change k v m : blank m -> blank (change_var k v m).
Proof.
  intros [H1 H2]. unfold change_var. rewrite H1, H2. split; [|done]. cbn. destruct v; [|by rewrite delete_empty].
  apply map_eq. intros j. destruct (decide (k = j)) as [->|Hj]; [by rewrite lookup_alter, lookup_empty|by rewrite lookup_alter_ne].
Qed.
Lemma rewrite_end item new dm : rewrite_inv item new dm END_STR = END_STR.
Proof. apply rewrite_inv_none. unfold stacks. apply count_of_zero. intros l Hl [r Hr].
  change (lines END_STR) with [bstr "EndInventory"] in Hl. apply elem_of_list_singleton in Hl. subst l.
  unfold stack_rest in Hr. case_decide as Ht; [|done]. by vm_compute in Ht.
Qed.
Lemma blank_rewrite item new dm m : blank m -> blank (NM (vars m) (rewrite_inv item new dm (inv m))).
Proof. intros [H1 H2]. split; [done|]. cbn. by rewrite H2, rewrite_end. Qed.
Lemma change_two k1 v1 k2 v2 m : (k1 = k2 -> v1 = v2) -> change_var k1 v1 (change_var k2 v2 m) = change_var k2 v2 (change_var k1 v1 m).
Proof.
  intros Hk. destruct (decide (k1 = k2)) as [->|Hne]; [by rewrite Hk|]. unfold change_var. cbn. f_equal.
  destruct v1, v2; [by apply alter_commute|by rewrite delete_alter_ne|by rewrite delete_alter_ne|by apply delete_commute].
Qed.

Lemma act_two g1 g2 s : supplied g1 -> supplied g2 -> independent g1 g2 -> ~ (acmd g1 = CReplaceNodes /\ acmd g2 = CReplaceNodes) ->
  (acmd g1 = CFill -> acmd g2 <> CReplaceNodes) -> (acmd g2 = CFill -> acmd g1 <> CReplaceNodes) ->
  act g1 (act g2 s) = act g2 (act g1 s).
Proof.
  intros [_ S1] [_ S2] (_ & _ & Hi) Hr Hf1 Hf2. unfold act. destruct s as [nm p1 p2 mt].
  destruct (acmd g1) eqn:C1, (acmd g2) eqn:C2; try done; try (exfalso; tauto); try (exfalso; by apply Hf1); try (exfalso; by apply Hf2); unfold with_meta, with_name;
    cbn [st_name st_param1 st_param2 st_meta]; try (f_equal; congruence);
    try (f_equal; destruct mt as [m|]; [cbn [mbind option_bind]; try done; by destruct (stored _)|done]).
  - f_equal. destruct mt as [m|]; [|done]. cbn [mbind option_bind].
    set (F := rewrite_inv (default [] (aitem g1)) (if adelete g1 then None else Some (default (default [] (aitem g1)) (new_item g1))) (delete_meta g1)).
    apply (stored_two (change_var _ _) (fun m => NM (vars m) (F (inv m)))); [apply blank_change|intros; by apply blank_rewrite|done].
  - f_equal. destruct mt as [m|]; [|done]. cbn [mbind option_bind].
    set (F := rewrite_inv (default [] (aitem g2)) (if adelete g2 then None else Some (default (default [] (aitem g2)) (new_item g2))) (delete_meta g2)).
    apply (stored_two (fun m => NM (vars m) (F (inv m))) (change_var _ _)); [intros; by apply blank_rewrite|apply blank_change|done].
  - f_equal. destruct mt as [m|]; [|done]. cbn [mbind option_bind]. apply (stored_two (change_var _ _) (change_var _ _)); [apply blank_change..|].
    destruct S1 as [k1 E1], S2 as [k2 E2]. rewrite E1, E2 in *. cbn. apply change_two. intros ->. symmetry. by apply Hi.
Qed.

(** Each node *)
Lemma replace_name g : acmd g = CReplaceNodes -> supplied g -> exists old new, anode g = Some old /\ new_node g = Some new /\
  replaces g (aarea g) (invert g) old new.
Proof. intros Hc [_ Hs]. rewrite Hc in Hs. destruct Hs as [[old Eo] [new En]]. exists old, new. done. Qed.
Lemma step_two g1 g2 p s : supplied g1 -> supplied g2 -> independent g1 g2 -> step g1 p (step g2 p s) = step g2 p (step g1 p s).
Proof.
  intros S1 S2 Hi. pose proof Hi as (K1 & K2 & _).
  assert (forall g, acmd g = CDeleteObjects -> forall p s, step g p s = s) as Hob.
  { intros g Hc p' s'. unfold step, act. rewrite Hc. by case_decide. }
  assert (forall g, {acmd g = CDeleteObjects} + {acmd g <> CDeleteObjects}) as Hdec by (intros g; destruct (acmd g); auto).
  destruct (Hdec g1) as [O1|O1]; [by rewrite !(Hob g1)|]. destruct (Hdec g2) as [O2|O2]; [by rewrite !(Hob g2)|].
  pose proof (keeps_hit g1 g2 p s S1 K1 O2) as H1. pose proof (keeps_hit g2 g1 p s S2 K2 O1) as H2.
  unfold step at 1 3. unfold step in H1, H2 |- *.
  destruct (decide (hit g1 p s)) as [A1|A1], (decide (hit g2 p s)) as [A2|A2]; repeat ((rewrite decide_True by tauto) || (rewrite decide_False by tauto)); try done.
  assert (forall ga gb, supplied ga -> supplied gb -> keeps_names ga gb -> acmd ga = CReplaceNodes -> acmd gb = CReplaceNodes -> hit ga p s -> hit gb p s -> False) as Hrr.
  { intros ga gb Sa Sb K Ca Cb Ha Hb. destruct (replace_name ga Ca Sa) as (oa & na & Ea & En & Ra). destruct (replace_name gb Cb Sb) as (ob & nb & Eb & _ & Rb).
    apply (replaces_hit _ _ _ _ _ p s Ra) in Ha as [_ Ha]. apply (replaces_hit _ _ _ _ _ p s Rb) in Hb as [_ Hb].
    unfold keeps_names in K. rewrite Ca in K. destruct K as [K|K]; [congruence|]. unfold searched in K. rewrite Cb, Eb in K. apply Forall_cons in K as [[K _] _]. congruence. }
  assert (forall ga gb, supplied gb -> keeps_names ga gb -> acmd ga = CFill -> acmd gb <> CReplaceNodes) as Hfr.
  { intros ga gb Sb K Ca Cb. destruct (replace_name gb Cb Sb) as (ob & nb & Eb & _). unfold keeps_names in K. rewrite Ca in K.
    destruct K as [K|K]; [|congruence]. unfold searched in K. by rewrite Cb, Eb in K. }
  apply act_two; [done..| | |].
  - intros [C1 C2]. by eapply (Hrr g1 g2).
  - by apply Hfr.
  - by apply Hfr.
Qed.

Lemma stays_free g1 g2 d1 bp b b1 t : supplied g1 -> keeps_names g1 g2 -> acted g1 d1 bp b b1 -> 0 <= tpos t < 4096 ->
  stays g2 bp b1 t <-> stays g2 bp b t.
Proof.
  intros S1 K A Ht. unfold stays. destruct (acmd g2) eqn:C2; try done.
  rewrite (acted_nodes _ _ _ _ _ A _ Ht). assert (acmd g2 <> CDeleteObjects) as Hno by congruence.
  pose proof (keeps_hit g1 g2 (abs_pos bp (tpos t)) (state b (tpos t)) S1 K Hno) as H. unfold step in H. by rewrite H.
Qed.
Lemma free_alike g1 g2 d1 d2 bp b b1 b12 b2 b21 : supplied g1 -> supplied g2 -> independent g1 g2 -> meta_in b -> timers_in b ->
  acted g1 d1 bp b b1 -> acted g2 d2 bp b1 b12 -> acted g2 d2 bp b b2 -> acted g1 d1 bp b2 b21 ->
  meta_in b1 -> meta_in b2 -> alike b12 b21.
Proof.
  intros S1 S2 Hi Hm Ht A1 A12 A2 A21 M1 M2. pose proof Hi as (K1 & K2 & _).
  eapply (acted_alike g2 g1); [exact A12|exact A21|done|done|..].
  - rewrite (acted_shell _ _ _ _ _ A12), (acted_shell _ _ _ _ _ A1), (acted_shell _ _ _ _ _ A21). by rewrite (acted_shell _ _ _ _ _ A2).
  - rewrite (acted_timers _ _ _ _ _ A12), (acted_timers _ _ _ _ _ A1), (acted_timers _ _ _ _ _ A21), (acted_timers _ _ _ _ _ A2).
    rewrite !list_filter_filter. apply NodeProofs.filter_ext_in. intros t Htm.
    assert (0 <= tpos t < 4096) as Hr by (unfold timers_in in Ht; rewrite Forall_forall in Ht; by apply Ht).
    rewrite (stays_free g1 g2 d1 bp b b1), (stays_free g2 g1 d2 bp b b2) by done. tauto.
  - rewrite (acted_objects _ _ _ _ _ A12), (acted_objects _ _ _ _ _ A1), (acted_objects _ _ _ _ _ A21), (acted_objects _ _ _ _ _ A2).
    rewrite !list_filter_filter. apply NodeProofs.filter_ext_in. intros o _. tauto.
  - intros i Hi'. rewrite (acted_nodes _ _ _ _ _ A12 i Hi'), (acted_nodes _ _ _ _ _ A21 i Hi'), (acted_nodes _ _ _ _ _ A1 i Hi'), (acted_nodes _ _ _ _ _ A2 i Hi').
    symmetry. exact (step_two g1 g2 (abs_pos bp i) (state b i) S1 S2 Hi).
Qed.
Lemma free E W1 W2 W3 W4 g1 g2 main input1 input2 n :
  fair E W1 g1 input1 -> fair E W2 g2 input2 -> fair E W3 g2 input2 -> fair E W4 g1 input1 ->
  keys_ok main -> 4095 <= n <= 7280 -> blocks E main (healthy n) ->
  in_place (acmd g1) = true -> in_place (acmd g2) = true -> independent g1 g2 ->
  exists m1 l1 m12 l12 m2 l2 m21 l21,
    (run_ok E g1 W1 main input1 m1 l1 /\ run_ok E g2 W2 m1 input2 m12 l12) /\
    (run_ok E g2 W3 main input2 m2 l2 /\ run_ok E g1 W4 m2 input1 m21 l21) /\ same_contents E m12 m21.
Proof.
  intros F1 F2 F3 F4 Hk Hn Hb I1 I2 Hdis.
  assert (forall g, 0 <= growth g <= 1) as Hg by (intros g; unfold growth; destruct (acmd g); lia).
  pose proof (Hg g1) as Hg1. pose proof (Hg g2) as Hg2.
  destruct (local_next E W1 g1 main input1 n) as (m1 & l1 & Run1 & Ea1 & K1 & B1); [done..|].
  destruct (local_second E W2 g2 m1 input2 (n + growth g1)) as (m12 & l12 & Run12 & Ea12); [done..|lia|done|].
  destruct (local_next E W3 g2 main input2 n) as (m2 & l2 & Run2 & Ea2 & K2 & B2); [done..|].
  destruct (local_second E W4 g1 m2 input1 (n + growth g2)) as (m21 & l21 & Run21 & Ea21); [done..|lia|done|].
  exists m1, l1, m12, l12, m2, l2, m21, l21. split; [done|]. split; [done|].
  eapply each_same; [exact Hk|eapply (each_two E main m1); eassumption|eapply (each_two E main m2); eassumption|].
  cbv beta. intros k bp x b b12 b21 _ Hx Hd (k1 & y1 & b1 & Hy1 & Hd1 & A1 & A12) (k2 & y2 & b2 & Hy2 & Hd2 & A2 & A21).
  pose proof (hl_sound _ _ (Hb k x b Hx Hd)) as Hs. pose proof (hl_sound _ _ (B1 k1 y1 b1 Hy1 Hd1)) as Hs1.
  pose proof (hl_sound _ _ (B2 k2 y2 b2 Hy2 Hd2)) as Hs2.
  eapply (free_alike g1 g2 (adel g1) (adel g2) bp b b1 b12 b2 b21); try done.
  - by apply F1.
  - by apply F2.
  - by apply (sound_meta n).
  - by apply (sound_timers n).
  - by apply (sound_meta _ _ Hs1).
  - by apply (sound_meta _ _ Hs2).
Qed.

(** ** Counts *)
Lemma node_sum_same g1 g2 d bp b b1 wt : supplied g1 -> keeps_names g1 g2 -> acmd g2 <> CDeleteObjects -> acted g1 d bp b b1 ->
  (forall p s, (forall m, st_meta s = Some m -> ~ blank m) -> hit g1 p s -> wt (act g1 s) = wt s) ->
  node_sum g2 wt bp b = node_sum g2 wt bp b1.
Proof.
  intros S1 K Ho A Hwt. apply zsum_ext. intros i Hi%elem_of_seqZ. rewrite (acted_nodes _ _ _ _ _ A i) by lia.
  pose proof (keeps_hit g1 g2 (abs_pos bp i) (state b i) S1 K Ho) as H. unfold step in H.
  destruct (decide (hit g1 (abs_pos bp i) (state b i))) as [H1|H1]; [|done].
  assert (wt (act g1 (state b i)) = wt (state b i)) as Hw.
  { eapply Hwt; [|exact H1]. intros m Hm. exact (norm_not_blank b i m Hm). }
  rewrite Hw. do 2 case_decide; tauto.
Qed.
Lemma total_same E main m1 R f f1 : keys_ok main -> each_block E main m1 R ->
  (forall k bp x b y b1, main !! k = Some x -> block_at k bp -> deserialize E x = Ok b -> m1 !! k = Some y -> deserialize E y = Ok b1 -> R bp b b1 ->
     f bp b = f1 bp b1) -> total E main from_block_key f = total E m1 from_block_key f1.
Proof.
  intros Hk He Hf. rewrite (total_add E main m1 R f (fun _ _ => 0) f1 Hk He).
  - replace (total E main from_block_key (fun _ _ => 0)) with 0; [done|]. unfold total. symmetry.
    etransitivity; [|exact (zsum_zero (map_to_list main))]. apply zsum_ext. intros [k x] _. cbn. by destruct (deserialize E x).
  - intros. rewrite Z.add_0_l. by eapply Hf.
Qed.
(** Weights of metadata that the first command does not change *)
Lemma weigh_var g1 key s p : supplied g1 -> hit g1 p s -> acmd g1 <> CDeleteMeta -> (acmd g1 = CSetMetaVar -> akey g1 <> Some key \/ is_Some (avalue g1)) ->
  let wt s := from_option (fun m => if decide (is_Some (vars m !! key)) then 1 else 0) 0 (st_meta s) in wt (act g1 s) = wt s.
Proof.
  intros [_ S1] _ Hd Hs wt. unfold wt, act. destruct (acmd g1) eqn:C1; try done.
  - unfold with_meta. cbn [st_meta]. destruct (st_meta s) as [m|]; [|done]. cbn [mbind option_bind]. unfold stored. case_decide as Hb; cbn [from_option vars]; [|done].
    destruct Hb as [Hb _]. cbn in Hb. rewrite Hb, lookup_empty. rewrite decide_False; [done|]. by intros [? [=]].
  - destruct S1 as [k1 E1]. rewrite E1 in *. change (default [] (Some k1)) with k1. unfold with_meta. cbn [st_meta]. destruct (st_meta s) as [m|]; [|done]. cbn [mbind option_bind].
    assert (is_Some (vars (change_var k1 (avalue g1) m) !! key) <-> is_Some (vars m !! key)) as Hiff.
    { unfold change_var. cbn [vars]. destruct (decide (k1 = key)) as [->|Hne].
      - destruct (Hs eq_refl) as [?|[v ->]]; [done|]. rewrite lookup_alter. by rewrite fmap_is_Some.
      - destruct (avalue g1); [by rewrite lookup_alter_ne|by rewrite lookup_delete_ne]. }
    unfold stored. case_decide as Hb; cbn [from_option].
    + rewrite decide_False; [done|]. rewrite <-Hiff. destruct Hb as [Hb _]. rewrite Hb, lookup_empty. by intros [? [=]].
    + do 2 case_decide; tauto.
Qed.
Lemma weigh_inv g1 (F : bytes -> Z) s : F END_STR = 0 -> acmd g1 <> CDeleteMeta -> acmd g1 <> CReplaceInInv ->
  let wt s := from_option (fun m => F (inv m)) 0 (st_meta s) in wt (act g1 s) = wt s.
Proof.
  intros HF Hd Hr wt. unfold wt, act. destruct (acmd g1) eqn:C1; try done.
  unfold with_meta. cbn [st_meta]. destruct (st_meta s) as [m|]; [|done]. cbn [mbind option_bind].
  unfold stored. case_decide as Hb; cbn [from_option]; [|done]. destruct Hb as [_ Hb]. cbn in Hb. by rewrite Hb.
Qed.
Lemma weigh_any g1 s c : acmd g1 <> CDeleteMeta -> acmd g1 <> CReplaceInInv -> (acmd g1 = CSetMetaVar -> is_Some (avalue g1)) ->
  (forall m, st_meta s = Some m -> ~ blank m) ->
  let wt s := from_option (fun _ : node_meta => c) 0 (st_meta s) in wt (act g1 s) = wt s.
Proof.
  intros Hd Hr Hs Hb wt. unfold wt, act. destruct (acmd g1) eqn:C1; try done.
  unfold with_meta. cbn [st_meta]. destruct (st_meta s) as [m|]; [|done]. cbn [mbind option_bind].
  unfold stored. case_decide as Hbl; cbn [from_option]; [|done]. destruct (Hs eq_refl) as [v Hv]. rewrite Hv in Hbl. apply blank_alter in Hbl. by destruct (Hb m eq_refl).
Qed.

Lemma told_again E W1 W2 W g1 g2 main input1 input2 n :
  fair E W1 g1 input1 -> fair E W2 g2 input2 -> fair E W g2 input2 ->
  keys_ok main -> 4095 <= n <= 7280 -> blocks E main (healthy n) ->
  in_place (acmd g1) = true -> in_place (acmd g2) = true -> unrelated g1 g2 ->
  (acmd g2 = CDeleteMeta -> blocks E main storable) ->
  exists m1 l1 m12 m2 c, run_ok E g1 W1 main input1 m1 l1 /\ told E W2 g2 m1 input2 m12 c /\ told E W g2 main input2 m2 c.
Proof.
  intros F1 F2 F Hk Hn Hb I1 I2 [K Hun] Hst.
  assert (0 <= growth g1 <= 1) as Hg by (unfold growth; destruct (acmd g1); lia).
  destruct (local_next E W1 g1 main input1 n) as (m1 & l1 & Run1 & Ea1 & K1 & B1); [done..|].
  destruct (local_second E W2 g2 m1 input2 (n + growth g1)) as (m12 & l12 & Run12 & _); [done..|lia|done|].
  destruct (local_next E W g2 main input2 n) as (m2 & l2 & Run2 & _); [done..|].
  pose proof (fair_supplied _ _ _ _ F) as [_ Hs]. pose proof (fair_supplied _ _ _ _ F1) as Hs1.
  assert (forall m k c, k <= c -> blocks E m (healthy k) -> blocks E m (sound c)) as Hsound.
  { intros m' k c Hc Hm q x b Hx Hd. apply (sound_mono k); [lia|]. by eapply Hm. }
  assert (forall m k, blocks E m (healthy k) -> blocks E m meta_in /\ blocks E m timers_in /\ blocks E m unique_names) as Hparts.
  { intros m' k Hm. split; [|split]; intros q x b Hx Hd; [apply (sound_meta k)|apply (sound_timers k)|]; by eapply Hm. }
  destruct (Hparts main n Hb) as (M0 & T0 & U0). destruct (Hparts m1 _ B1) as (M1 & T1 & U1).
  pose proof (Hsound main n 65533 ltac:(lia) Hb) as S0. pose proof (Hsound m1 (n + growth g1) 65533 ltac:(lia) B1) as S1.
  pose proof (fair_setting _ _ _ _ _ F Hk) as HS. pose proof (fair_setting _ _ _ _ _ F2 K1) as HS2.
  assert (forall c c', reports E W g2 main input2 c -> reports E W2 g2 m1 input2 c' -> c = c' ->
    exists m1 l1 m12 m2 c, run_ok E g1 W1 main input1 m1 l1 /\ told E W2 g2 m1 input2 m12 c /\ told E W g2 main input2 m2 c) as Go.
  { intros c c' R R2 <-. exists m1, l1, m12, m2, c. split; [done|]. split; by eapply reports_told. }
  assert (forall wt, acmd g2 <> CDeleteObjects -> (forall p s, (forall m, st_meta s = Some m -> ~ blank m) -> hit g1 p s -> wt (act g1 s) = wt s) ->
    total E main from_block_key (node_sum g2 wt) = total E m1 from_block_key (node_sum g2 wt)) as Hnodes.
  { intros wt Ho Hwt. eapply total_same; [exact Hk|exact Ea1|]. intros k bp x b y b1 _ _ _ _ _ HA. by eapply node_sum_same. }
  assert (forall (m : mapdata) f f', (forall k x b bp, m !! k = Some x -> deserialize E x = Ok b -> f bp b = f' bp b) ->
    total E m from_block_key f = total E m from_block_key f') as Htot.
  { intros m' f f' H. apply zsum_ext. intros [k x] Hx%elem_of_map_to_list. cbn [fst snd]. destruct (deserialize E x) eqn:Ex; [|done]. by eapply H. }
  destruct (acmd g2) eqn:Hc; try done.
  - (* deletemeta *)
    specialize (Hst eq_refl).
    destruct (cong_run E g1 W1 W1 main main input1 input1 n F1 F1 Hk Hn) as (m1' & m1'' & l' & RunC & _ & _ & St1 & _).
    { by apply cong_refl. }
    { intros Hco. by rewrite Hco in I1. }
    destruct (run_ok_fun _ _ _ _ _ _ _ _ _ Run1 RunC) as [<- _].
    eapply Go; [apply delmeta_reports; done..|]. f_equal.
    assert (forall m', blocks E m' meta_in -> blocks E m' storable ->
      total E m' from_block_key (fun bp b => entries (fun i _ => chosen (aarea g2) (invert g2) (o2l (anode g2)) bp b i) (metadata b)) =
      total E m' from_block_key (node_sum g2 (fun s => from_option (fun m => if decide True then 1 else 0) 0 (st_meta s)))) as Q.
    { intros m' Hm Hstm. apply Htot. intros k x b bp Hx Hd. apply (entries_sum g2 bp b (fun _ => True)).
      - intros i m0. unfold searched. rewrite Hc. tauto.
      - by eapply Hm.
      - intros i m0 Hi. replace (norm b) with b by (symmetry; by eapply Hstm). split; [by exists m0|done]. }
    rewrite !Q by done. apply Hnodes; [done|]. intros p s Hbl _. apply (weigh_any g1 s); [by destruct (acmd g1)..| |done]. intros Hc1. by rewrite Hc1 in Hun.
  - (* deleteobjects *)
    eapply Go; [eapply edits_reports; apply delobj_fn; done..|]. f_equal.
    eapply total_same; [exact Hk|exact Ea1|]. intros k bp x b y b1 Hx Hbp Hd _ _ HA.
    rewrite (acted_objects _ _ _ _ _ HA). f_equal. rewrite filter_all; [done|]. intros o _. apply adel_none. by destruct (acmd g1).
  - (* deletetimers *)
    eapply Go; [apply deltimers_reports; done..|]. f_equal.
    eapply total_same; [exact Hk|exact Ea1|]. intros k bp x b y b1 Hx Hbp Hd _ _ HA.
    assert (forall t, t ∈ timers b -> 0 <= tpos t < 4096) as Ht.
    { intros t Ht. pose proof (T0 k x b Hx Hd) as Hti. unfold timers_in in Hti. rewrite Forall_forall in Hti. by apply Hti. }
    assert (forall b i, hit g2 (abs_pos bp i) (state b i) <-> chosen (aarea g2) (invert g2) (o2l (anode g2)) bp b i) as Hh.
    { intros b' i. rewrite hit_chosen. unfold searched. by rewrite Hc. }
    assert (timers b1 = timers b) as Et.
    { rewrite (acted_timers _ _ _ _ _ HA). apply filter_all. intros t _. unfold stays. by destruct (acmd g1). }
    rewrite Et. apply count_of_same. intros t Htb. rewrite <-!Hh. rewrite (acted_nodes _ _ _ _ _ HA) by (by apply Ht).
    symmetry. apply (keeps_hit g1 g2); [done|done|congruence].
  - (* fill *)
    destruct Hs as [[a Ea] [node Eo]]. pose proof (fair_fit _ _ _ _ F) as Hfit.
    eapply Go; [eapply edits_reports, fill_run; try done; by apply Hfit..|]. f_equal.
    eapply total_same; [exact Hk|exact Ea1|]. done.
  - (* replacenodes *)
    destruct Hs as [[old Ea] [new Eo]]. pose proof (fair_fit _ _ _ _ F) as Hfit.
    eapply Go; [eapply replace_reports; try done; by apply Hfit..|]. f_equal.
    assert (forall m', total E m' from_block_key (fun bp b => count_if (chosen (aarea g2) (invert g2) [old] bp b)) =
      total E m' from_block_key (node_sum g2 (fun _ => 1))) as Q.
    { intros m'. apply Htot. intros k x b bp _ _. rewrite <-count_sum. unfold searched. by rewrite Hc, Ea. }
    rewrite !Q by done. by apply Hnodes.
  - (* replaceininv *)
    destruct Hs as [item Ei].
    assert (adelete g2 = false -> plain_name (default item (new_item g2))) as Hpl.
    { intros Hdel. apply (fair_tame _ _ _ _ F). destruct (new_item g2); [by right|by left]. }
    assert (forall W' m' q, setting E W' g2 m' from_block_key -> blocks E m' meta_in -> blocks E m' unique_names -> blocks E m' (healthy q) ->
      reports E W' g2 m' input2 (MStacks
        (total E m' from_block_key (fun bp b => zsum (fun e => if decide (chosen (aarea g2) (invert g2) (anodes g2) bp b e.1) then stacks item (inv e.2) else 0)
          (map_to_list (metadata b))) mod 18446744073709551616)
        (total E m' from_block_key (fun bp b =>
          entries (fun i m => chosen (aarea g2) (invert g2) (anodes g2) bp b i /\ 0 < stacks item (inv m)) (metadata b))))) as Rep.
    { intros W' m' q HS' Hm' Hu' Hb'. apply replinv_reports; try done.
      intros k bp x b i e _ Hx Hd He _. by eapply (hl_inv q); [eapply Hb'|]. }
    eapply Go; [by eapply Rep..|].
    assert (forall m', blocks E m' meta_in ->
      total E m' from_block_key (fun bp b => zsum (fun e => if decide (chosen (aarea g2) (invert g2) (anodes g2) bp b e.1) then stacks item (inv e.2) else 0)
        (map_to_list (metadata b))) =
      total E m' from_block_key (node_sum g2 (fun s => from_option (fun m => stacks item (inv m)) 0 (st_meta s)))) as Q.
    { intros m' Hm. apply Htot. intros k x b bp Hx Hd. rewrite <-meta_sum.
      - unfold searched. by rewrite Hc.
      - by eapply Hm.
      - intros i m0 Hi. rewrite (norm_meta b i m0 Hi). apply kept_stacks. }
    assert (forall m', blocks E m' meta_in ->
      total E m' from_block_key (fun bp b => entries (fun i m => chosen (aarea g2) (invert g2) (anodes g2) bp b i /\ 0 < stacks item (inv m)) (metadata b)) =
      total E m' from_block_key (node_sum g2 (fun s => from_option (fun m => if decide (0 < stacks item (inv m)) then 1 else 0) 0 (st_meta s)))) as Q2.
    { intros m' Hm. apply Htot. intros k x b bp Hx Hd. apply (entries_sum g2 bp b (fun m => 0 < stacks item (inv m))).
      - intros i m0. unfold searched. by rewrite Hc.
      - by eapply Hm.
      - intros i m0 Hi. rewrite (norm_meta b i m0 Hi), (kept_stacks item (version b) m0). destruct (kept (version b) m0) as [m'0|]; cbn.
        + split; [by exists m'0|by intros (? & [= <-] & ?)].
        + split; [lia|by intros (? & [=] & _)]. }
    assert (acmd g1 <> CDeleteMeta /\ acmd g1 <> CReplaceInInv) as [N1 N2] by (by destruct (acmd g1)).
    f_equal.
    + f_equal. rewrite !Q by done. apply Hnodes; [done|]. intros p s _ _. apply (weigh_inv g1 (stacks item)); [apply stacks_end|done|done].
    + rewrite !Q2 by done. apply Hnodes; [done|]. intros p s _ _. pose (G := fun v : bytes => if decide (0 < stacks item v) then 1 else 0).
      apply (weigh_inv g1 G); [|done|done]. unfold G. by rewrite stacks_end.
  - (* setmetavar *)
    destruct Hs as [key Ek]. pose proof (fair_fit _ _ _ _ F) as Hfit.
    eapply Go; [eapply setvar_reports; try done; by apply Hfit..|]. f_equal.
    assert (forall m', blocks E m' meta_in ->
      total E m' from_block_key (fun bp b => entries (fun i m => chosen (aarea g2) (invert g2) (anodes g2) bp b i /\ is_Some (vars m !! key)) (metadata b)) =
      total E m' from_block_key (node_sum g2 (fun s => from_option (fun m => if decide (is_Some (vars m !! key)) then 1 else 0) 0 (st_meta s)))) as Q.
    { intros m' Hm. apply Htot. intros k x b bp Hx Hd. apply (entries_sum g2 bp b (fun m => is_Some (vars m !! key))).
      - intros i m0. unfold searched. by rewrite Hc.
      - by eapply Hm.
      - intros i m0 Hi. rewrite (norm_meta b i m0 Hi). apply kept_var. }
    rewrite !Q by done. apply Hnodes; [done|]. intros p s _ Hh. apply (weigh_var g1 key s p); [done|done|by destruct (acmd g1)|].
    intros Hc1. rewrite Hc1 in Hun. by rewrite <-Ek.
  - (* setparam2 *)
    destruct (fair_param2 _ _ _ _ F Hc) as [v Ev].
    eapply Go; [eapply param2_reports; done..|]. f_equal.
    assert (forall m', total E m' from_block_key (fun bp b => count_if (chosen (aarea g2) (invert g2) (o2l (anode g2)) bp b)) =
      total E m' from_block_key (node_sum g2 (fun _ => 1))) as Q.
    { intros m'. apply Htot. intros k x b bp _ _. rewrite <-count_sum. unfold searched. by rewrite Hc. }
    rewrite !Q by done. by apply Hnodes.
Qed.
