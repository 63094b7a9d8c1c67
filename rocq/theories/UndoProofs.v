(** Proofs about edits that undo or override others *)
From Verif Require Import CodecProofs BlockProofs UtilsProofs QueryProofs EditProofs NodeProofs MetaProofs InvProofs ObjProofs WholeProofs ArgProofs MapProofs MixProofs
  ThreadProofs FragProofs CopyProofs CopyRun OverlayRun ToyRun CmdFacts SpecNodes KeepProofs OrderProofs AgainProofs LocalProofs RestoreProofs CongProofs LawProofs AddProofs
  SpecCopy SpecUndo SpecAdd SpecAgain SpecLocal Spec.

Definition step (g : args) (p : vec3) (s : node_state) : node_state := if decide (hit g p s) then act g s else s.
Definition only (g : args) : Prop := in_place (acmd g) = true /\ acmd g <> CDeleteTimers /\ acmd g <> CDeleteObjects.

(** Every node is what [f] makes of it, and nothing else changes. *)
Record stepped (f : vec3 -> node_state -> node_state) (bp : vec3) (b b' : block) : Prop := {
  sp_nodes : forall i, 0 <= i < 4096 -> state b' i = f (abs_pos bp i) (state b i);
  sp_timers : timers b' = timers b;
  sp_objects : objects b' = objects b;
  sp_shell : shell b' = shell b;
  sp_meta : meta_in (norm b') }.

Lemma acted_stepped g bp b b' : only g -> meta_in b -> acted g (adel g) bp b b' -> stepped (step g) bp b b'.
Proof.
  intros (Hin & Ht & Ho) Hm A. split.
  - intros i Hi. by rewrite (acted_nodes _ _ _ _ _ A i Hi).
  - rewrite (acted_timers _ _ _ _ _ A). unfold stays.
    rewrite (list_filter_iff_in _ (fun _ => True)).
    + induction (timers b) as [|t l IH]; [done|]. rewrite filter_cons_True by done. by f_equal.
    + intros t _. by destruct (acmd g).
  - rewrite (acted_objects _ _ _ _ _ A). rewrite (list_filter_iff_in _ (fun _ => True)).
    + induction (objects b) as [|t l IH]; [done|]. rewrite filter_cons_True by done. by f_equal.
    + intros o _. by rewrite adel_none.
  - apply A.
  - by apply A.
Qed.
Lemma stepped_two f1 f2 bp b b1 b2 : stepped f1 bp b b1 -> stepped f2 bp b1 b2 -> stepped (fun p s => f2 p (f1 p s)) bp b b2.
Proof.
  intros A B. split.
  - intros i Hi. by rewrite (sp_nodes _ _ _ _ B i Hi), (sp_nodes _ _ _ _ A i Hi).
  - by rewrite (sp_timers _ _ _ _ B), (sp_timers _ _ _ _ A).
  - by rewrite (sp_objects _ _ _ _ B), (sp_objects _ _ _ _ A).
  - by rewrite (sp_shell _ _ _ _ B), (sp_shell _ _ _ _ A).
  - apply B.
Qed.
Lemma stepped_alike f1 f2 bp b b1 b2 : stepped f1 bp b b1 -> stepped f2 bp b b2 ->
  (forall i, 0 <= i < 4096 -> f1 (abs_pos bp i) (state b i) = f2 (abs_pos bp i) (state b i)) -> alike b1 b2.
Proof.
  intros A B Hf. apply state_alike.
  - apply A.
  - apply B.
  - by rewrite (sp_shell _ _ _ _ B), (sp_shell _ _ _ _ A).
  - by rewrite (sp_timers _ _ _ _ B), (sp_timers _ _ _ _ A).
  - by rewrite (sp_objects _ _ _ _ B), (sp_objects _ _ _ _ A).
  - intros i Hi. rewrite (sp_nodes _ _ _ _ B i Hi), (sp_nodes _ _ _ _ A i Hi). by apply Hf.
Qed.
Lemma stepped_same bp b : meta_in b -> stepped (fun _ s => s) bp b b.
Proof. intros Hm. split; try done. by apply meta_norm. Qed.

(** ** Runs *)
Lemma healthy_meta E m n : blocks E m (healthy n) -> blocks E m meta_in.
Proof. intros H k x b Hx Hd. apply (sound_meta n). by eapply H. Qed.
Lemma each_weaken E main main' (R R' : vec3 -> block -> block -> Prop) : each_block E main main' R ->
  (forall k bp x b b', block_at k bp -> main !! k = Some x -> deserialize E x = Ok b -> R bp b b' -> R' bp b b') -> each_block E main main' R'.
Proof.
  intros [HN HA] H. split; [done|]. intros k bp x Hbp Hx. destruct (HA k bp x Hbp Hx) as (y & Hy & Hr). exists y. split; [done|].
  destruct (deserialize E x) as [b|] eqn:Ex; [|done]. destruct Hr as (b' & D' & HR). exists b'. split; [done|]. by eapply H.
Qed.
Lemma one_step E W g main input n : fair E W g input -> keys_ok main -> only g -> 4095 <= n <= 7280 -> blocks E main (healthy n) ->
  exists m l, run_ok E g W main input m l /\ each_block E main m (stepped (step g)) /\
    each_block E main m (acted g (adel g)) /\ keys_ok m /\ blocks E m (healthy (n + growth g)).
Proof.
  intros HF Hk Ho Hn Hb. destruct (local_next E W g main input n HF Hk (proj1 Ho) Hn Hb) as (m & l & Run & Ea & K & B).
  exists m, l. split; [done|]. split; [|done]. eapply each_weaken; [exact Ea|]. intros k bp x b b' _ Hx Hd HA.
  apply acted_stepped; [done| |done]. by eapply (healthy_meta E main n Hb).
Qed.
Lemma each_twice E main m1 m2 f1 f2 : each_block E main m1 (stepped f1) -> each_block E m1 m2 (stepped f2) ->
  each_block E main m2 (stepped (fun p s => f2 p (f1 p s))).
Proof.
  intros A B. eapply each_weaken; [exact (each_two E main m1 m2 _ _ A B)|].
  intros k bp x b b' _ _ _ (k1 & y1 & b1 & _ & _ & S1 & S2). by eapply stepped_two.
Qed.
Lemma two_steps E W1 W2 g1 g2 main input1 input2 n : fair E W1 g1 input1 -> fair E W2 g2 input2 -> keys_ok main -> only g1 -> only g2 ->
  4095 <= n -> n + growth g1 <= 7280 -> blocks E main (healthy n) ->
  exists m1 l1 m2 l2, run_ok E g1 W1 main input1 m1 l1 /\ run_ok E g2 W2 m1 input2 m2 l2 /\
    each_block E main m1 (acted g1 (adel g1)) /\ keys_ok m1 /\ blocks E m1 (healthy (n + growth g1)) /\
    each_block E main m2 (stepped (fun p s => step g2 p (step g1 p s))).
Proof.
  intros F1 F2 Hk O1 O2 Hn Hg Hb. assert (0 <= growth g1) as Hpos by (unfold growth; destruct (acmd g1); lia).
  destruct (one_step E W1 g1 main input1 n) as (m1 & l1 & Run1 & E1 & A1 & K1 & B1); [done..|lia|done|].
  destruct (one_step E W2 g2 m1 input2 (n + growth g1)) as (m2 & l2 & Run2 & E2 & _); [done..|lia|done|].
  exists m1, l1, m2, l2. split; [done|]. split; [done|]. split; [done|]. split; [done|]. split; [done|]. by eapply each_twice.
Qed.

(** ** Overriding *)
Lemma blank_alter f k m : blank (NM (alter f k (vars m)) (inv m)) -> vars m = ∅ /\ inv m = END_STR.
Proof.
  intros [H1 H2]. cbn in *. split; [|done]. apply map_eq. intros j. apply (f_equal (.!! j)) in H1. rewrite lookup_empty in *.
  destruct (decide (k = j)) as [->|Hj]; [rewrite lookup_alter in H1; by destruct (vars m !! j)|by rewrite lookup_alter_ne in H1].
Qed.
Lemma stored_again k v v2 m : (stored (change_var k (Some v) m) ≫= fun m' => stored (change_var k v2 m')) = stored (change_var k v2 m).
Proof.
  unfold stored at 2. destruct (decide (blank (change_var k (Some v) m))) as [Hb|Hb]; cbn [mbind option_bind].
  - apply blank_alter in Hb as [H1 H2]. unfold stored. rewrite decide_True; [done|]. unfold change_var. rewrite H1, H2.
    split; [|done]. cbn. destruct v2; apply map_eq; intros j; [|by rewrite delete_empty]. destruct (decide (k = j)) as [->|Hj]; [by rewrite lookup_alter, lookup_empty|by rewrite lookup_alter_ne].
  - assert (change_var k v2 (change_var k (Some v) m) = change_var k v2 m) as ->; [|done]. unfold change_var. cbn [vars inv]. f_equal. apply map_eq. intros j. destruct v2.
    + destruct (decide (k = j)) as [->|Hj]; [rewrite !lookup_alter; by destruct (vars m !! j)|by rewrite !lookup_alter_ne].
    + destruct (decide (k = j)) as [->|Hj]; [by rewrite !lookup_delete|]. rewrite !lookup_delete_ne by done. by rewrite lookup_alter_ne.
Qed.
Lemma override_step g1 g2 p s : overrides g2 g1 -> step g2 p (step g1 p s) = step g2 p s.
Proof.
  intros (Hsel & Hn & Hc). unfold step. destruct (decide (hit g1 p s)) as [H1|H1]; [|done].
  assert (st_name (act g1 s) = st_name s \/ searched g2 = []) as Hname.
  { unfold searched, act. destruct (acmd g1), (acmd g2); try done; by (left + right). }
  assert (hit g2 p s) as H2.
  { destruct H1 as [S1 N1]. split; [by apply Hsel|]. destruct Hn as [->|Hn]; [by left|]. by rewrite Hn. }
  assert (hit g2 p (act g1 s)) as H3.
  { destruct H2 as [S2 N2]. split; [done|]. destruct Hname as [->|Hname]; [done|by left]. }
  rewrite !decide_True by done. unfold act.
  destruct (acmd g1), (acmd g2); try done; destruct s as [nm p1 p2 mt]; unfold with_meta, with_name; cbn; try done;
    try (by destruct mt as [m|]; [cbn; try done; by destruct (stored _)|]).
  destruct Hc as [Hk [v Hv]]. rewrite Hk, Hv. destruct mt as [m|]; [|done]. f_equal. cbn. apply stored_again.
Qed.

Lemma override E W1 W2 W g1 g2 main input1 input2 n : fair E W1 g1 input1 -> fair E W2 g2 input2 -> fair E W g2 input2 ->
  keys_ok main -> 4095 <= n -> n + growth g1 <= 7280 -> blocks E main (healthy n) -> overrides g2 g1 ->
  exists m1 l1 m12 l12 m2 l2, run_ok E g1 W1 main input1 m1 l1 /\ run_ok E g2 W2 m1 input2 m12 l12 /\
    run_ok E g2 W main input2 m2 l2 /\ same_contents E m12 m2.
Proof.
  intros F1 F2 F Hk Hn Hg Hb Ho. assert (0 <= growth g1) as Hpos by (unfold growth; destruct (acmd g1); lia).
  assert (only g1 /\ only g2) as [O1 O2].
  { destruct Ho as (_ & _ & Hc). unfold only. by destruct (acmd g1), (acmd g2). }
  destruct (two_steps E W1 W2 g1 g2 main input1 input2 n) as (m1 & l1 & m12 & l12 & Run1 & Run12 & _ & _ & _ & E12); [done..|].
  destruct (one_step E W g2 main input2 n) as (m2 & l2 & Run2 & E2 & _); [done..|lia|done|].
  exists m1, l1, m12, l12, m2, l2. split; [done|]. split; [done|]. split; [done|].
  eapply each_same; [exact Hk|exact E12|exact E2|]. intros k bp x b b1 b2 _ _ _ S1 S2. eapply stepped_alike; [exact S1|exact S2|].
  intros i _. by apply override_step.
Qed.

(** ** Undoing *)
Lemma replaces_only g a inv old new : replaces g a inv old new -> only g.
Proof. intros (Hc & _). unfold only. by rewrite Hc. Qed.
Lemma replaces_hit g a inv old new p s : replaces g a inv old new -> hit g p s <-> selected a inv p /\ st_name s = Some old.
Proof.
  intros (Hc & <- & <- & Ho & _). unfold hit, searched. rewrite Hc, Ho. cbn [o2l]. rewrite Exists_cons, Exists_nil. naive_solver.
Qed.
Lemma replaces_act g a inv old new s : replaces g a inv old new -> act g s = with_name (Some new) s.
Proof. intros (Hc & _ & _ & _ & Hn). unfold act. by rewrite Hc, Hn. Qed.
Lemma replaces_step g a inv old new p s : replaces g a inv old new ->
  step g p s = if decide (selected a inv p /\ st_name s = Some old) then with_name (Some new) s else s.
Proof.
  intros H. unfold step. rewrite (replaces_act _ _ _ _ _ _ H). pose proof (replaces_hit _ _ _ _ _ p s H) as Hh.
  do 2 case_decide; try done; exfalso; tauto.
Qed.
Lemma replaces_told E W g main input a inv old new m l n : fair E W g input -> keys_ok main -> n <= 65533 -> blocks E main (healthy n) ->
  replaces g a inv old new -> run_ok E g W main input m l ->
  told E W g main input m (MReplaced (total E main from_block_key (node_sum g (fun _ => 1)))).
Proof.
  intros HF Hk Hn Hb Hr Run. pose proof Hr as (Hc & _ & _ & Ho & Hw). eapply reports_told; [exact Run|].
  rewrite <-(total_ext E main from_block_key (fun bp b => count_if (chosen (aarea g) (invert g) [old] bp b))).
  2:{ intros bp b. rewrite <-count_sum. unfold searched. by rewrite Hc, Ho. }
  eapply replace_reports; [by eapply fair_setting|done|done|exact Hw| | |].
  - by apply (fair_fit _ _ _ _ HF).
  - intros k x b Hx Hd. apply (sound_mono n); [lia|]. by eapply Hb.
  - intros k x b Hx Hd. by eapply Hb.
Qed.
Lemma zsum_zero {A} (l : list A) : zsum (fun _ => 0) l = 0.
Proof. induction l as [|x l IH]; [done|]. by rewrite zsum_cons, IH. Qed.

Lemma undo E W1 W2 g1 g2 a inv old new main input n : fair E W1 g1 input -> fair E W2 g2 input -> keys_ok main ->
  4095 <= n < 7280 -> blocks E main (healthy n) -> replaces g1 a inv old new -> replaces g2 a inv new old ->
  exists m1 c1 m2 c2, told E W1 g1 main input m1 (MReplaced c1) /\ told E W2 g2 m1 input m2 (MReplaced c2) /\
    (absent E main a inv new -> c1 = c2) /\ (same_contents E main m2 <-> absent E main a inv new).
Proof.
  intros F1 F2 Hk Hn Hb R1 R2.
  assert (growth g1 = 1) as Hg by (unfold growth; by rewrite (proj1 R1)).
  pose proof (replaces_only _ _ _ _ _ R1) as O1. pose proof (replaces_only _ _ _ _ _ R2) as O2.
  destruct (two_steps E W1 W2 g1 g2 main input input n) as (m1 & l1 & m2 & l2 & Run1 & Run2 & A1 & K1 & B1 & E2); [done..|lia|lia|done|].
  assert (old <> new) as Hne.
  { intros ->. pose proof (fair_legal _ _ _ _ F1) as (_ & _ & _ & _ & HL). destruct R1 as (Hc & _ & _ & H1 & H2). rewrite Hc in HL. congruence. }
  eexists m1, _, m2, _. split; [eapply (replaces_told E W1 g1 main input a inv old new m1 l1 n); try done; lia|].
  split; [eapply (replaces_told E W2 g2 m1 input a inv new old m2 l2); [done|done| |exact B1|done|done]; lia|].
  split.
  - intros Hab. rewrite <-(Z.add_0_l (total E m1 _ _)).
    replace 0 with (total E main from_block_key (fun _ _ => 0)).
    2:{ unfold total. etransitivity; [|exact (zsum_zero (map_to_list main))]. apply zsum_ext. intros [k x] _. cbn. by destruct (deserialize E x). }
    eapply total_add; [exact Hk|exact A1|]. intros k bp x b y b1 Hx Hbp Hd _ _ HA. rewrite Z.add_0_l.
    apply zsum_ext. intros i Hi%elem_of_seqZ. rewrite (acted_nodes _ _ _ _ _ HA i) by lia.
    rewrite (replaces_act _ _ _ _ _ _ R1). set (s := state b i). set (p := abs_pos bp i).
    pose proof (replaces_hit _ _ _ _ _ p s R1) as H1.
    destruct (decide (hit g1 p s)) as [Hh|Hh].
    + rewrite decide_True; [done|]. apply (replaces_hit _ _ _ _ _ p _ R2). cbn. tauto.
    + rewrite decide_False; [done|]. rewrite (replaces_hit _ _ _ _ _ p s R2). intros [Hs Hnm].
      apply (Hab k bp x b i Hbp Hx Hd ltac:(lia) Hs Hnm).
  - split.
    + intros Hs k bp x b i Hbp Hx Hd Hi Hsel Hnm. destruct E2 as [_ E2]. destruct (E2 k bp x Hbp Hx) as (y & Hy & Hr). rewrite Hd in Hr.
      destruct Hr as (b2 & D2 & S2). pose proof (sp_nodes _ _ _ _ S2 i Hi) as Hst.
      cbv beta in Hst. rewrite (replaces_step g1 a inv old new), (replaces_step g2 a inv new old) in Hst by done.
      change (st_name (state b i)) with (node_name b i) in Hst.
      rewrite (decide_False (P := selected a inv (abs_pos bp i) /\ node_name b i = Some old)) in Hst by (intros [_ ?]; congruence).
      rewrite decide_True in Hst by done. apply (f_equal st_name) in Hst. cbn in Hst.
      assert (node_name b2 i = node_name b i) as Hsame; [|congruence].
      specialize (Hs k). rewrite Hx, Hy in Hs. destruct Hs as [<-|(b' & b2' & D & D' & Hal)].
      * assert (b = b2) as -> by congruence. done.
      * assert (b' = b) as -> by congruence. assert (b2' = b2) as -> by congruence.
        exact (eq_sym (f_equal st_name (alike_state b b2 i Hal Hi))).
    + intros Hab. eapply (each_same E main main m2 (stepped (fun _ s => s))); [exact Hk| |exact E2|].
      * split; [done|]. intros k bp x Hbp Hx. exists x. split; [done|]. destruct (deserialize E x) as [b|] eqn:Ex; [|done].
        exists b. split; [done|]. apply stepped_same. by eapply (healthy_meta E main n Hb).
      * intros k bp x b b1 b2 Hbp Hx Hd S1 S2. eapply stepped_alike; [exact S1|exact S2|]. intros i Hi. cbv beta.
        rewrite (replaces_step g1 a inv old new), (replaces_step g2 a inv new old) by done.
        specialize (Hab k bp x b i Hbp Hx Hd Hi). change (node_name b i) with (st_name (state b i)) in Hab.
        destruct (state b i) as [nm p1 p2 mt]. cbn in *.
        destruct (decide (selected a inv (abs_pos bp i) /\ nm = Some old)) as [H1|H1]; cbn.
        -- destruct H1 as [H1 ->]. by rewrite decide_True by done.
        -- rewrite decide_False; [done|]. intros [H2 H3]. by apply Hab.
Qed.

(** ** In a row *)
Lemma in_a_row E W1 W2 W3 W4 ga gb gc a inv A B C main input n : fair E W1 ga input -> fair E W2 gb input -> fair E W3 gb input -> fair E W4 gc input ->
  keys_ok main -> 4095 <= n < 7280 -> blocks E main (healthy n) ->
  replaces ga a inv A B -> replaces gb a inv B C -> replaces gc a inv A C ->
  exists m1 l1 m12 l12 m2 l2 m21 l21,
    (run_ok E ga W1 main input m1 l1 /\ run_ok E gb W2 m1 input m12 l12) /\
    (run_ok E gb W3 main input m2 l2 /\ run_ok E gc W4 m2 input m21 l21) /\ same_contents E m12 m21.
Proof.
  intros F1 F2 F3 F4 Hk Hn Hb Ra Rb Rc.
  assert (forall g x y, replaces g a inv x y -> growth g = 1) as Hg by (intros g x y [Hc _]; unfold growth; by rewrite Hc).
  assert (forall W g x y, fair E W g input -> replaces g a inv x y -> x <> y) as Hne.
  { intros W g x y HF (Hc & _ & _ & H1 & H2) ->. pose proof (fair_legal _ _ _ _ HF) as (_ & _ & _ & _ & HL). rewrite Hc in HL. congruence. }
  pose proof (Hne _ _ _ _ F1 Ra) as NAB. pose proof (Hne _ _ _ _ F2 Rb) as NBC. pose proof (Hne _ _ _ _ F4 Rc) as NAC.
  pose proof (replaces_only _ _ _ _ _ Ra) as Oa. pose proof (replaces_only _ _ _ _ _ Rb) as Ob. pose proof (replaces_only _ _ _ _ _ Rc) as Oc.
  pose proof (Hg _ _ _ Ra) as Ga. pose proof (Hg _ _ _ Rb) as Gb.
  destruct (two_steps E W1 W2 ga gb main input input n) as (m1 & l1 & m12 & l12 & Run1 & Run12 & _ & _ & _ & E12); [done..|lia|lia|done|].
  destruct (two_steps E W3 W4 gb gc main input input n) as (m2 & l2 & m21 & l21 & Run2 & Run21 & _ & _ & _ & E21); [done..|lia|lia|done|].
  exists m1, l1, m12, l12, m2, l2, m21, l21. split; [done|]. split; [done|].
  eapply each_same; [exact Hk|exact E12|exact E21|]. intros k bp x b b1 b2 _ _ _ S1 S2. eapply stepped_alike; [exact S1|exact S2|].
  intros i _. cbv beta. generalize (abs_pos bp i) (state b i). intros p s.
  rewrite (replaces_step ga a inv A B), (replaces_step gb a inv B C), (replaces_step gb a inv B C), (replaces_step gc a inv A C) by done.
  destruct s as [nm p1 p2 mt]. cbn. destruct (decide (selected a inv p)) as [Hs|Hs].
  2:{ repeat (rewrite (decide_False (P := selected a inv p /\ _)) by tauto; cbn). done. }
  destruct (decide (nm = Some A)) as [->|HA]; [|destruct (decide (nm = Some B)) as [->|HB]].
  - rewrite (decide_True (P := selected a inv p /\ Some A = Some A)) by done. cbn.
    rewrite (decide_True (P := selected a inv p /\ Some B = Some B)) by done.
    rewrite (decide_False (P := selected a inv p /\ Some A = Some B)) by (intros [_ [= ?]]; done). cbn.
    by rewrite (decide_True (P := selected a inv p /\ Some A = Some A)) by done.
  - rewrite (decide_False (P := selected a inv p /\ Some B = Some A)) by (intros [_ [= ?]]; done). cbn.
    rewrite (decide_True (P := selected a inv p /\ Some B = Some B)) by done. cbn.
    by rewrite (decide_False (P := selected a inv p /\ Some C = Some A)) by (intros [_ [= ?]]; done).
  - rewrite (decide_False (P := selected a inv p /\ nm = Some A)) by tauto. cbn.
    rewrite (decide_False (P := selected a inv p /\ nm = Some B)) by tauto. cbn.
    by rewrite (decide_False (P := selected a inv p /\ nm = Some A)) by tauto.
Qed.
