(** Proofs of laws about clone and overlay *)
From Verif Require Import CodecProofs BlockProofs UtilsProofs QueryProofs EditProofs NodeProofs MetaProofs ObjProofs WholeProofs SpatialProofs ArgProofs MapProofs MixProofs
  ThreadProofs FragProofs CopyProofs CopyRun OverlayRun ToyRun CmdFacts SpecNodes KeepProofs OrderProofs AgainProofs LocalProofs RestoreProofs CongProofs SpecLaws SpecAgain SpecLocal Spec.

Global Instance node_state_dec : EqDecision node_state.
Proof. solve_decision. Defined.

(** ** Copied nodes *)
(** A node in a block of version [v] *)
Definition import (v : Z) (s : node_state) : node_state :=
  NodeState (st_name s) (st_param1 s) (st_param2 s) (st_meta s ≫= kept v).

Lemma node_import b' i b j : no_early_private b -> same_node b' i b j -> state b' i = import (version b') (state b j).
Proof.
  intros Hs (H1 & H2 & H3 & H4). unfold state, import. cbn [st_name st_param1 st_param2 st_meta].
  change (metadata (norm b')) with (norm_metadata (version b') (metadata b')).
  change (metadata (norm b)) with (norm_metadata (version b) (metadata b)).
  by rewrite !norm_lookup, H1, H2, H3, H4, kept_public.
Qed.
Lemma blank_strip m : blank (strip_private m) <-> blank m.
Proof.
  unfold blank, strip_private. cbn [vars inv]. split; (intros [H1 H2]; split; [|done]).
  - by apply fmap_empty_inv in H1.
  - rewrite H1. apply fmap_empty.
Qed.
Lemma kept_twice v m : kept v m ≫= kept v = kept v m.
Proof.
  unfold kept. case_decide as Hb; [done|]. cbn. destruct (28 <=? v); [by rewrite decide_False|].
  rewrite decide_False by (by rewrite blank_strip). f_equal. unfold strip_private. cbn. f_equal.
  rewrite <-map_fmap_compose. apply map_fmap_ext. by intros ? [].
Qed.
Lemma import_own b i v : version b = v -> import v (state b i) = state b i.
Proof.
  intros <-. unfold import, state. cbn [st_name st_param1 st_param2 st_meta]. f_equal.
  change (metadata (norm b)) with (norm_metadata (version b) (metadata b)). rewrite norm_lookup.
  destruct (metadata b !! i) as [m|]; [|done]. apply kept_twice.
Qed.

(** Commands treat a node like its copy. *)
Lemma bind_comm v (f : node_meta -> node_meta) (o : option node_meta) :
  (forall m, f (strip_private m) = strip_private (f m)) -> (forall m, o = Some m -> ~ blank m) ->
  (o ≫= fun m => stored (f m)) ≫= kept v = (o ≫= kept v) ≫= fun m => stored (f m).
Proof.
  intros Hf Hb. destruct o as [m|]; [|done]. cbn. unfold stored, kept. rewrite (decide_False (P := blank m)) by (by apply Hb). cbn.
  destruct (28 <=? v); [case_decide as H; [done|cbn; by rewrite decide_False]|].
  rewrite Hf. case_decide as H.
  - rewrite decide_True by (by apply blank_strip). done.
  - cbn. rewrite !decide_False; [done|by rewrite blank_strip|done].
Qed.
Lemma change_strip key value m : change_var key value (strip_private m) = strip_private (change_var key value m).
Proof.
  unfold change_var, strip_private. cbn [vars inv]. f_equal. destruct value as [v|].
  - apply map_eq. intros k. rewrite lookup_fmap. destruct (decide (k = key)) as [->|Hk].
    + rewrite !lookup_alter, lookup_fmap. by destruct (vars m !! key) as [[? ?]|].
    + rewrite !lookup_alter_ne, lookup_fmap by done. done.
  - by rewrite fmap_delete.
Qed.
Lemma act_import g v s : (forall m, st_meta s = Some m -> ~ blank m) -> import v (act g s) = act g (import v s).
Proof.
  intros Hb. unfold act, import. destruct (acmd g); try done; unfold with_name, with_meta; cbn [st_name st_param1 st_param2 st_meta]; try done.
  - f_equal. destruct (st_meta s) as [m|]; [|done]. cbn. by destruct (kept v m).
  - f_equal. apply (bind_comm v (fun m => NM (vars m) _)); [|done]. done.
  - f_equal. apply bind_comm; [|done]. intros m. apply change_strip.
Qed.
Lemma state_filled b i m : st_meta (state b i) = Some m -> ~ blank m.
Proof.
  unfold state. cbn [st_meta]. change (metadata (norm b)) with (norm_metadata (version b) (metadata b)). rewrite norm_lookup.
  destruct (metadata b !! i) as [m'|]; [|done]. cbn. unfold kept. case_decide as Hb; [done|].
  destruct (28 <=? version b); intros [= <-]; [done|]. by rewrite blank_strip.
Qed.

(** ** Runs that copy *)
Record landed (E : ext) (src : mapdata) (a : option area) (off bp : vec3) (b b' : block) : Prop := {
  land_shell : shell b' = shell b;
  land_timers : timers b' = timers b;
  land_objects : objects b' = objects b;
  land_meta : meta_in (norm b');
  land_raw : not_generated b -> b' = b;
  land_found : ~ not_generated b -> forall i sb j, 0 <= i < 4096 -> let p := minus (abs_pos bp i) off in
    selected a false p -> found E src p sb j -> state b' i = import (version b) (state sb j);
  land_other : forall i, 0 <= i < 4096 -> let p := minus (abs_pos bp i) off in
    ~ (selected a false p /\ exists sb j, found E src p sb j) -> state b' i = state b i }.

Lemma found_public E m p b j : blocks E m no_early_private -> found E m p b j -> no_early_private b.
Proof. intros H (bp & _ & (k & x & _ & Hx & Hd & _) & _). by eapply H. Qed.

Lemma copies_landed E W c main input src a off : blocks E main meta_in -> blocks E src no_early_private ->
  copies E W c main input src a off ->
  exists m l f, l = warnings c ++ closing f /\ run_ok E c W main input m l /\ each_block E main m (landed E src a off).
Proof.
  intros Hm Hs (m & f & Run & _ & Hno & He). eexists m, _, f. split; [reflexivity|]. split; [exact Run|]. split; [done|].
  intros k bp x Hbp Hx. destruct (He k bp x Hbp Hx) as (y & Hy & H). exists y. split; [done|].
  destruct (deserialize E x) as [b|] eqn:Ex; [|done]. destruct H as (Hu & b' & Hd & _ & HR). exists b'. split; [done|].
  assert (not_generated b -> b' = b) as Hraw.
  { intros Hng. rewrite Hu in Hd by (by left). congruence. }
  assert (meta_in b) as Hmb by (by eapply Hm).
  destruct (decide (not_generated b)) as [Hng|Hng].
  { rewrite (Hraw Hng) in *. split; try done. by apply meta_norm. }
  destruct HR as [?|(HR & _ & HN)]; [done|]. destruct (rest_parts _ _ HR) as (S1 & S2 & S3 & S4).
  pose proof (proj1 (shell_version _ _ S1)) as Hv.
  split; try done.
  - intros _ i sb j Hi p Hsel Hf. rewrite <-Hv. apply node_import; [by eapply found_public|]. by apply (HN i Hi).
  - intros i Hi p Hn. apply same_state; [done|]. by apply (HN i Hi).
Qed.

(** The runs of [copying] *)
Definition source (c : args) (main input : mapdata) : mapdata := match acmd c with CClone => main | _ => input end.
Lemma copying_landed E W c main input n : fair E W c input -> keys_ok main -> n <= 7280 -> copying c ->
  blocks E main (healthy n) -> blocks E main no_early_private ->
  (acmd c = COverlay -> blocks E input (healthy n) /\ blocks E input no_early_private) ->
  exists m l f, l = warnings c ++ closing f /\ run_ok E c W main input m l /\
    each_block E main m (landed E (source c main input) (aarea c) (default (V3 0 0 0) (offset c))).
Proof.
  intros HF Hk Hn Hc Hb Hs Hi. pose proof (fair_setting E W c main input HF Hk) as HS.
  pose proof (fair_supplied _ _ _ _ HF) as [_ Hsup].
  assert (blocks E main meta_in) as Hm by (intros k x b Hx Hd; apply (sound_meta n); by eapply Hb).
  unfold source. destruct Hc as [Hc|[Hc Ho]]; rewrite Hc in *.
  - destruct Hsup as [[a Ea] [off Eo]]. rewrite Ea, Eo. cbn [default].
    eapply (copies_landed E W c main input main (Some a) off Hm Hs). eapply clone_run; try done. by apply (healthy_roomy E c main main n).
  - destruct (Hi eq_refl) as [Hih His]. destruct (offset c) as [off|] eqn:Eo; [|done]. cbn [default] in *.
    eapply (copies_landed E W c main input input (aarea c) off Hm His). eapply offset_run; try done. by apply (healthy_roomy E c main input n).
Qed.

(** ** One run after another *)
Lemma effect_public E main main' u R : keys_ok main -> effect E main main' u R -> blocks E main no_early_private -> blocks E main' no_early_private.
Proof.
  intros Hk [Hno He] Hb k y b' Hy Hd. destruct (main !! k) as [x|] eqn:Hx; [|by rewrite (Hno k Hx) in Hy].
  destruct (Hk k ltac:(by eexists)) as [bp Hbp]. destruct (He k bp x Hbp Hx) as (y' & Hy' & H).
  assert (y' = y) as -> by congruence. destruct (deserialize E x) as [b|] eqn:Ex; [|congruence].
  destruct H as (Hu & b2 & Hd2 & [Hun|Hn] & _); [|assert (b2 = b') as <- by congruence; by apply norm_public].
  rewrite (Hu Hun) in Hd. assert (b = b') as -> by congruence. by eapply Hb.
Qed.
Lemma place_public E W g main input n m l : fair E W g input -> keys_ok main -> 4095 <= n <= 7280 -> blocks E main (healthy n) ->
  blocks E main no_early_private -> in_place (acmd g) = true -> run_ok E g W main input m l -> blocks E m no_early_private.
Proof.
  intros HF Hk Hn Hb Hs Hp Run. destruct (place_known E g W input HF Hp) as (names & msg_of & u & R & _ & HR).
  destruct (HR input W main n HF Hk Hn Hb) as (m' & f & Run' & _ & He).
  destruct (run_ok_fun _ _ _ _ _ _ _ _ _ Run Run') as [<- _]. by eapply effect_public.
Qed.
Lemma copies_public E W c main input src a off m l : keys_ok main -> blocks E main no_early_private -> copies E W c main input src a off ->
  run_ok E c W main input m l -> blocks E m no_early_private.
Proof.
  intros Hk Hs (m' & f & Run' & _ & He) Run. destruct (run_ok_fun _ _ _ _ _ _ _ _ _ Run Run') as [<- _]. by eapply effect_public.
Qed.
Lemma store_next E W g main input n m l : fair E W g input -> keys_ok main -> 4095 <= n <= 7280 -> blocks E main (healthy n) ->
  blocks E main no_early_private -> (acmd g = COverlay -> blocks E input (healthy n) /\ blocks E input no_early_private) ->
  in_place (acmd g) = true \/ acmd g = CClone \/ acmd g = COverlay ->
  run_ok E g W main input m l -> keys_ok m /\ blocks E m (healthy (n + growth g)) /\ blocks E m no_early_private.
Proof.
  intros HF Hk Hn Hb Hs Hi Hg Run.
  destruct (run_next E W g main input n HF Hk Hn Hb) as (m' & l' & Run2 & _ & Hk' & Hb'); [intros Hc; by apply Hi|].
  destruct (run_ok_fun _ _ _ _ _ _ _ _ _ Run Run2) as [<- <-]. split; [done|]. split; [done|].
  pose proof (fair_setting E W g main input HF Hk) as HS. pose proof (fair_supplied _ _ _ _ HF) as [_ Hsup].
  destruct Hg as [Hg|[Hg|Hg]]; [exact (place_public E W g main input n m l HF Hk Hn Hb Hs Hg Run)| |].
  - rewrite Hg in Hsup. destruct Hsup as [[a Ea] [off Eo]].
    eapply (copies_public E W g main input main (Some a) off m l Hk Hs); [|done]. eapply clone_run; try done. apply (healthy_roomy E g main main n); try done. lia.
  - destruct (Hi Hg) as [Hih His]. assert (roomy E g main input) as Hr by (apply (healthy_roomy E g main input n); try done; lia).
    destruct (decide (default (V3 0 0 0) (offset g) = V3 0 0 0)) as [Hz|Hz].
    + destruct (overlay_run E W g main input from_block_key) as (m' & f & Run' & _ & HN & HO); try done; [by apply HF|].
      destruct (run_ok_fun _ _ _ _ _ _ _ _ _ Run Run') as [<- _].
      pose proof (fair_input _ _ _ _ HF) as Hki.
      intros k y b Hy Hd. destruct (input !! k) as [x|] eqn:Hx; [|rewrite HN in Hy by done; by eapply Hs].
      destruct (Hki k ltac:(by eexists)) as [bp Hbp].
      destruct (overlaid_source E g W input HF bp x (main !! k) (m !! k) y b (proj1 Hbp) (HO k bp x Hbp Hx) Hy Hd) as [->|[H|H]];
        [by eapply His|by eapply Hs|by apply norm_public].
    + destruct (offset g) as [off|] eqn:Eo; [|done].
      eapply (copies_public E W g main input input (aarea g) off m l Hk Hs); [|done]. by eapply offset_run.
Qed.
Lemma growth_range g : 0 <= growth g <= 1.
Proof. unfold growth. destruct (acmd g); lia. Qed.
Lemma copying_command c : copying c -> acmd c = CClone \/ acmd c = COverlay.
Proof. intros [H|[H _]]; [by left|by right]. Qed.
Lemma place_growth c : copying c -> growth c = 0.
Proof. unfold growth. by intros [->|[-> _]]. Qed.
Lemma healthy_up E m n n' : n <= n' -> blocks E m (healthy n) -> blocks E m (healthy n').
Proof. intros Hn H k x b Hx Hd. destruct (H k x b Hx Hd). split; try done. by apply (sound_mono n). Qed.

(** The same node before and after *)
Lemma found_forth E main m1 (R : vec3 -> block -> block -> Prop) p b j : (forall bp b b1, R bp b b1 -> shell b1 = shell b) ->
  each_block E main m1 R -> found E main p b j ->
  exists bp b1, found E m1 p b1 j /\ 0 <= j < 4096 /\ abs_pos bp j = p /\ R bp b b1.
Proof.
  intros HR [_ He] (bp & Hw & (k & x & Hbp & Hx & Hd & Hg) & Hj & Hp).
  destruct (He k bp x Hbp Hx) as (y & Hy & H). rewrite Hd in H. destruct H as (b1 & Hd1 & Hr).
  exists bp, b1. split; [|done]. exists bp. split; [done|]. split; [|done]. exists k, y. split; [done|]. split; [done|]. split; [done|].
  unfold not_generated. by rewrite (proj2 (shell_version _ _ (HR _ _ _ Hr))).
Qed.
Lemma found_back E main m1 (R : vec3 -> block -> block -> Prop) p b1 j : (forall bp b b1, R bp b b1 -> shell b1 = shell b) ->
  each_block E main m1 R -> found E m1 p b1 j -> exists b, found E main p b j.
Proof.
  intros HR [Hno He] (bp & Hw & (k & y & Hbp & Hy & Hd & Hg) & Hj & Hp).
  destruct (main !! k) as [x|] eqn:Hx; [|by rewrite (Hno k Hx) in Hy].
  destruct (He k bp x Hbp Hx) as (y' & Hy' & H). assert (y' = y) as -> by congruence.
  destruct (deserialize E x) as [b|] eqn:Ex; [|congruence]. destruct H as (b2 & Hd2 & Hr). assert (b2 = b1) as -> by congruence.
  exists b, bp. split; [done|]. split; [|done]. exists k, x. split; [done|]. split; [done|]. split; [done|].
  unfold not_generated. by rewrite <-(proj2 (shell_version _ _ (HR _ _ _ Hr))).
Qed.

(** What becomes of a copied node is a function of the node. *)
Lemma landed_follow E s1 s2 a off bp b b1 b' b1' i F : landed E s2 a off bp b b' -> landed E s1 a off bp b1 b1' ->
  ~ not_generated b -> shell b1 = shell b -> 0 <= i < 4096 -> let p := minus (abs_pos bp i) off in
  (selected a false p -> forall sb j, found E s2 p sb j ->
     exists sb1, found E s1 p sb1 j /\ forall v, import v (state sb1 j) = F (import v (state sb j))) ->
  (selected a false p -> forall sb1 j, found E s1 p sb1 j -> exists sb, found E s2 p sb j) ->
  state b1 i = F (state b i) -> state b1' i = F (state b' i).
Proof.
  intros L2 L1 Hg Hs Hi p Hf Hr H0. destruct (shell_version _ _ Hs) as [Hv Hfl]. apply dec_stable. intros Hno.
  assert (~ (selected a false p /\ exists sb j, found E s2 p sb j)) as Hn.
  { intros (Hsel & sb & j & Hj). apply Hno. destruct (Hf Hsel sb j Hj) as (sb1 & Hj1 & Hst).
    rewrite (land_found _ _ _ _ _ _ _ L2 Hg i sb j Hi Hsel Hj).
    rewrite (land_found _ _ _ _ _ _ _ L1) with (sb := sb1) (j := j); [|unfold not_generated; by rewrite Hfl|done..].
    rewrite Hv. apply Hst. }
  apply Hno. rewrite (land_other _ _ _ _ _ _ _ L2 i Hi Hn). rewrite (land_other _ _ _ _ _ _ _ L1 i Hi); [done|].
  intros (Hsel & sb1 & j & Hj). apply Hn. split; [done|]. destruct (Hr Hsel sb1 j Hj) as (sb & ?). by exists sb, j.
Qed.

(** ** Clone and overlay of a copy *)
Lemma copies_twice E W1 W2 g1 g2 main i1 i2 src a off : keys_ok main -> copies E W1 g1 main i1 src a off -> copies E W2 g2 main i2 src a off ->
  exists m1 m2 r, run_ok E g1 W1 main i1 m1 (warnings g1 ++ r) /\ run_ok E g2 W2 main i2 m2 (warnings g2 ++ r) /\ same_contents E m1 m2.
Proof.
  intros Hk (m1 & n1 & Run1 & R1 & Eff1) (m2 & n2 & Run2 & R2 & Eff2).
  assert (same_reading E E) as Hr by done.
  rewrite <-(refused_same E E Hr _ _ _ _ _ R1 R2) in Run2.
  exists m1, m2. eexists. split; [exact Run1|]. split; [exact Run2|].
  eapply (effect_same E E Hr); [exact Hk|exact Eff1|exact Eff2|]. cbv beta.
  intros k bp x y1 y2 b b1 b2 Hbp Hx Hd D1 D2 U1 U2 P1 P2.
  destruct (decide (not_generated b)) as [Hg|Hg].
  { left. rewrite U1, U2 by (by left). done. }
  right. destruct P1 as [P1|(HR1 & _ & P1)]; [done|]. destruct P2 as [P2|(HR2 & _ & P2)]; [done|].
  apply (copied_alike b); [done..|]. intros i Hi. apply dec_stable. intros Hno.
  destruct (P1 i Hi) as [F1 O1]. destruct (P2 i Hi) as [F2 O2].
  pose proof (fun c j => node_trans b b1 b2 i c j (f_equal version (proj1 HR1)) (f_equal version (proj1 HR2))) as Htr.
  assert (~ (selected a false (minus (abs_pos bp i) off) /\ exists sb j, found E src (minus (abs_pos bp i) off) sb j)) as Hn.
  { intros (Hs & sb & j & Hf). apply Hno. apply (Htr sb j); [by apply F1|]. by apply F2. }
  apply Hno. apply (Htr b i); [by apply O1|by apply O2].
Qed.
Lemma clone_overlay E W1 W2 g1 g2 main input : fair E W1 g1 input -> fair E W2 g2 main -> acmd g1 = CClone -> acmd g2 = COverlay ->
  aarea g2 = aarea g1 -> offset g2 = offset g1 -> offset g1 <> Some (V3 0 0 0) -> roomy E g1 main main ->
  exists m1 m2 r, run_ok E g1 W1 main input m1 (warnings g1 ++ r) /\ run_ok E g2 W2 main main m2 (warnings g2 ++ r) /\ same_contents E m1 m2.
Proof.
  intros F1 F2 C1 C2 Ha Ho Hz Hr. pose proof (fair_input _ _ _ _ F2) as Hk.
  pose proof (fair_supplied _ _ _ _ F1) as [_ Hsup]. rewrite C1 in Hsup. destruct Hsup as [[a Ea] [off Eo]].
  eapply (copies_twice E W1 W2 g1 g2 main input main main (Some a) off Hk).
  - eapply (clone_run E W1 g1 main input from_block_key); try done. by eapply fair_setting.
  - rewrite <-Ea, <-Ha. eapply (offset_run E W2 g2 main main from_block_key); try done; [by eapply fair_setting|congruence| |].
    + congruence.
    + unfold roomy in *. by rewrite Ho.
Qed.

(** ** In-place commands and copies *)
Definition react (g : args) (p : vec3) (s : node_state) : node_state := if decide (hit g p s) then act g s else s.
Lemma exchange_alike E g d a off bp n s s1 b b1 b12 b2 b21 : sound n b -> sound n b2 ->
  acted g d bp b b1 -> landed E s1 a off bp b1 b12 -> landed E s a off bp b b2 -> acted g d bp b2 b21 ->
  (forall i, 0 <= i < 4096 -> let p := minus (abs_pos bp i) off in selected a false p -> forall sb j, found E s p sb j ->
     exists sb1, found E s1 p sb1 j /\ forall v, import v (state sb1 j) =
       react g (abs_pos bp i) (import v (state sb j))) ->
  (forall p sb1 j, found E s1 p sb1 j -> exists sb, found E s p sb j) ->
  (forall t, t ∈ timers b -> stays g bp b2 t <-> stays g bp b t) -> alike b12 b21.
Proof.
  intros Hs Hs2 A1 L12 L2 A21 Hf Hr Ht.
  pose proof (acted_shell _ _ _ _ _ A1) as Hsh.
  destruct (decide (not_generated b)) as [Hg|Hg].
  { rewrite (land_raw _ _ _ _ _ _ _ L12) by (unfold not_generated; by rewrite (proj2 (shell_version _ _ Hsh))).
    rewrite (land_raw _ _ _ _ _ _ _ L2 Hg) in A21. by apply (acted_pair g d bp n b b). }
  apply state_alike.
  - apply L12.
  - apply (acted_meta _ _ _ _ _ A21). by apply (sound_meta n).
  - by rewrite (land_shell _ _ _ _ _ _ _ L12), Hsh, (acted_shell _ _ _ _ _ A21), (land_shell _ _ _ _ _ _ _ L2).
  - rewrite (land_timers _ _ _ _ _ _ _ L12), (acted_timers _ _ _ _ _ A1), (acted_timers _ _ _ _ _ A21), (land_timers _ _ _ _ _ _ _ L2).
    apply list_filter_iff_in. intros t Htm. by rewrite Ht.
  - by rewrite (land_objects _ _ _ _ _ _ _ L12), (acted_objects _ _ _ _ _ A1), (acted_objects _ _ _ _ _ A21), (land_objects _ _ _ _ _ _ _ L2).
  - intros i Hi. rewrite (acted_nodes _ _ _ _ _ A21 i Hi). change (state b12 i = react g (abs_pos bp i) (state b2 i)).
    eapply (landed_follow E s1 s a off bp b b1 b2 b12 i (react g (abs_pos bp i))); try done.
    + intros Hsel. by apply Hf.
    + intros _. apply Hr.
    + by rewrite (acted_nodes _ _ _ _ _ A1 i Hi).
Qed.

Section exchange.
  Context (E : ext) (W1 W2 W3 W4 : world) (g c : args) (main ing inc inc1 : mapdata) (n : Z).
  Context (F1 : fair E W1 g ing) (F2 : fair E W2 c inc1) (F3 : fair E W3 c inc) (F4 : fair E W4 g ing).
  Context (Hk : keys_ok main) (Hn : 4095 <= n) (Hn2 : n + growth g <= 7280) (Hb : blocks E main (healthy n)) (Hs : blocks E main no_early_private).
  Context (Hp : in_place (acmd g) = true) (Hc : copying c).
  Context (Hi : acmd c = COverlay -> blocks E inc (healthy n) /\ blocks E inc no_early_private).
  Context (Hi1 : acmd c = COverlay -> blocks E inc1 (healthy (n + growth g)) /\ blocks E inc1 no_early_private).

  Lemma exchange_runs :
    (forall m1 l, run_ok E g W1 main ing m1 l -> each_block E main m1 (acted g (adel g)) ->
      let s := source c main inc in let s1 := source c m1 inc1 in let off := default (V3 0 0 0) (offset c) in
      (forall k bp x b2 b, block_at k bp -> main !! k = Some x -> deserialize E x = Ok b -> landed E s (aarea c) off bp b b2 ->
        (forall i, 0 <= i < 4096 -> let p := minus (abs_pos bp i) off in selected (aarea c) false p -> forall sb j, found E s p sb j ->
          exists sb1, found E s1 p sb1 j /\ forall v, import v (state sb1 j) =
           react g (abs_pos bp i) (import v (state sb j))) /\
        (forall t, t ∈ timers b -> stays g bp b2 t <-> stays g bp b t)) /\
      (forall p sb1 j, found E s1 p sb1 j -> exists sb, found E s p sb j)) ->
    exists m12 m21, after E W1 W2 g c main ing inc1 m12 /\ after E W3 W4 c g main inc ing m21 /\ same_contents E m12 m21.
  Proof using All.
    intros H. pose proof (growth_range g) as Hg. pose proof (place_growth c Hc) as Hgc.
    assert (acmd g <> COverlay) as Hno by (intros Hx; by rewrite Hx in Hp).
    destruct (local_next E W1 g main ing n) as (m1 & l1 & Run1 & Ea1 & K1 & B1); [done..|lia|done|].
    destruct (store_next E W1 g main ing n m1 l1) as (_ & _ & S1); [done|done|lia|done|done|done|by left|done|].
    destruct (copying_landed E W2 c m1 inc1 (n + growth g)) as (m12 & l12 & f12 & _ & Run12 & Ea12); [done..|].
    destruct (copying_landed E W3 c main inc n) as (m2 & l2 & f2 & _ & Run2 & Ea2); [done|done|lia|done..|].
    destruct (store_next E W3 c main inc n m2 l2) as (K2 & B2 & S2); [done|done|lia|done|done|done|right; by apply copying_command|done|]. rewrite Hgc, Z.add_0_r in B2.
    destruct (local_next E W4 g m2 ing n) as (m21 & l21 & Run21 & Ea21 & _); [done..|lia|done|].
    exists m12, m21. split; [by exists m1, l1, l12|]. split; [by exists m2, l2, l21|].
    destruct (H m1 l1 Run1 Ea1) as [H1 H2].
    eapply each_same; [exact Hk|eapply (each_two E main m1); eassumption|eapply (each_two E main m2); eassumption|].
    cbv beta. intros k bp x b b12 b21 Hbp Hx Hd (k1 & y1 & b1 & Hy1 & Hd1 & A1 & A12) (k2 & y2 & b2 & Hy2 & Hd2 & A2 & A21).
    destruct (H1 k bp x b2 b Hbp Hx Hd A2) as [Hf Ht].
    eapply (exchange_alike E g (adel g) (aarea c) (default (V3 0 0 0) (offset c)) bp n _ _ b b1 b12 b2 b21); try done.
    - by eapply Hb.
    - by eapply B2.
  Qed.
End exchange.

Lemma timer_in E m n k x b t : blocks E m (healthy n) -> m !! k = Some x -> deserialize E x = Ok b -> t ∈ timers b -> 0 <= tpos t < 4096.
Proof.
  intros Hb Hx Hd Ht. pose proof (sound_timers n b (hl_sound _ _ (Hb k x b Hx Hd))) as Hti. unfold timers_in in Hti. rewrite Forall_forall in Hti. by apply Hti.
Qed.

Lemma copy_apart E W1 W2 W3 W4 g c main ing inc n : fair E W1 g ing -> fair E W2 c inc -> fair E W3 c inc -> fair E W4 g ing ->
  keys_ok main -> 4095 <= n -> n + growth g <= 7280 -> blocks E main (healthy n) -> blocks E main no_early_private ->
  in_place (acmd g) = true -> copying c -> (acmd c = COverlay -> blocks E inc (healthy n) /\ blocks E inc no_early_private) ->
  apart_from g c ->
  exists m12 m21, after E W1 W2 g c main ing inc m12 /\ after E W3 W4 c g main inc ing m21 /\ same_contents E m12 m21.
Proof.
  intros F1 F2 F3 F4 Hk Hn Hn2 Hb Hs Hp Hc Hi Hap.
  eapply (exchange_runs E W1 W2 W3 W4 g c main ing inc inc n); try done.
  { intros Ho. destruct (Hi Ho). split; [|done]. apply (healthy_up E inc n); [|done]. pose proof (growth_range g). lia. }
  intros m1 l1 Run1 Ea1 s s1 off. split.
  - intros k bp x b2 b Hbp Hx Hd L2. split.
    + intros i Hii p Hsel sb j Hf.
      assert (~ selected (aarea g) (invert g) (abs_pos bp i)) as Hns by (intros Hg; exact (proj1 (Hap _ Hg) Hsel)).
      assert (forall st, react g (abs_pos bp i) st = st) as HF.
      { intros st. unfold react. rewrite decide_False; [done|]. by intros [? _]. }
      setoid_rewrite HF. unfold s, s1, source in *. destruct Hc as [Hc|[Hc _]]; rewrite Hc in *; [|by exists sb].
      destruct (found_forth E main m1 _ p sb j (fun bp b b1 => acted_shell g (adel g) bp b b1) Ea1 Hf) as (bp' & sb1 & Hf1 & Hj & Hp' & A).
      exists sb1. split; [done|]. intros v. f_equal. apply (acted_name _ _ _ _ _ _ A Hj). rewrite Hp'. intros Hg. exact (proj2 (Hap _ Hg) Hc Hsel).
    + intros t Ht. pose proof (timer_in E main n k x b t Hb Hx Hd Ht) as Hr. unfold stays. destruct (acmd g); try done.
      destruct (decide (selected (aarea g) (invert g) (abs_pos bp (tpos t)))) as [Hg|Hg]; [|split; intros _ [? _]; done].
      rewrite (land_other _ _ _ _ _ _ _ L2 _ Hr); [done|]. intros [Hx' _]. exact (proj1 (Hap _ Hg) Hx').
  - intros p sb1 j Hf. unfold s, s1, source in *. destruct (acmd c); try by exists sb1.
    exact (found_back E main m1 _ p sb1 j (fun bp b b1 => acted_shell g (adel g) bp b b1) Ea1 Hf).
Qed.

(** ** Commands without an area *)
Lemma hit_anywhere g p p' s s' : aarea g = None -> st_name s = st_name s' -> hit g p s <-> hit g p' s'.
Proof. intros Ha Hs. unfold hit. by rewrite Ha, Hs. Qed.

Lemma acted_import g d bp b b1 j p v : aarea g = None -> acted g d bp b b1 -> 0 <= j < 4096 ->
  import v (state b1 j) = react g p (import v (state b j)).
Proof.
  intros Ha A Hj. rewrite (acted_nodes _ _ _ _ _ A j Hj). unfold react.
  assert (hit g (abs_pos bp j) (state b j) <-> hit g p (import v (state b j))) as Hh by (by apply hit_anywhere).
  destruct (decide (hit g (abs_pos bp j) (state b j))) as [H|H].
  - rewrite decide_True by (by apply Hh). apply act_import. intros m. apply state_filled.
  - rewrite decide_False by (by rewrite <-Hh). done.
Qed.
Lemma stays_anywhere g bp b b2 t : aarea g = None -> (acmd g = CDeleteTimers -> searched g = []) -> stays g bp b2 t <-> stays g bp b t.
Proof.
  intros Ha Hs. unfold stays. destruct (acmd g); try done. unfold hit. rewrite Hs by done.
  split; intros H [? _]; apply H; (split; [done|by left]).
Qed.

Lemma copy_everywhere E W1 W2 W3 W4 W5 g c main ing inc n : fair E W1 g ing -> fair E W2 c inc -> fair E W3 c inc -> fair E W4 g ing ->
  fair E W5 g ing -> keys_ok main -> 4095 <= n -> n + growth g <= 7280 -> blocks E main (healthy n) -> blocks E main no_early_private ->
  blocks E inc (healthy n) -> blocks E inc no_early_private ->
  in_place (acmd g) = true -> copying c -> aarea g = None -> (acmd g = CDeleteTimers -> searched g = []) ->
  exists inc1 l m12 m21, run_ok E g W5 inc ing inc1 l /\ after E W1 W2 g c main ing inc1 m12 /\
    after E W3 W4 c g main inc ing m21 /\ same_contents E m12 m21.
Proof.
  intros F1 F2 F3 F4 F5 Hk Hn Hn2 Hb Hs Hbi Hsi Hp Hc Ha Ht. pose proof (growth_range g) as Hg.
  assert (acmd g <> COverlay) as Hno by (intros Hx; by rewrite Hx in Hp).
  pose proof (fair_input _ _ _ _ F2) as Hki.
  destruct (local_next E W5 g inc ing n) as (inc1 & l5 & Run5 & Ea5 & K5 & B5); [done..|lia|done|].
  destruct (store_next E W5 g inc ing n inc1 l5) as (_ & _ & S5); [done|done|lia|done|done|done|by left|done|].
  assert (fair E W2 c inc1) as F2' by (destruct F2; by split).
  destruct (exchange_runs E W1 W2 W3 W4 g c main ing inc inc1 n) as (m12 & m21 & H); try done.
  2:{ by exists inc1, l5, m12, m21. }
  intros m1 l1 Run1 Ea1 s s1 off.
  assert (each_block E s s1 (acted g (adel g))) as Ea by (unfold s, s1, source; by destruct (acmd c)).
  split.
  - intros k bp x b2 b Hbp Hx Hd L2. split; [|intros t _; by apply stays_anywhere].
    intros i Hii p Hsel sb j Hf.
    destruct (found_forth E s s1 _ p sb j (fun bp b b1 => acted_shell g (adel g) bp b b1) Ea Hf) as (bp' & sb1 & Hf1 & Hj & Hp' & A).
    exists sb1. split; [done|]. intros v. by eapply acted_import.
  - intros p sb1 j Hf. exact (found_back E s s1 _ p sb1 j (fun bp b b1 => acted_shell g (adel g) bp b b1) Ea Hf).
Qed.

(** ** Splitting *)
Lemma copy_split E W W1 W2 c a1 a2 main input n : let c1 := on_area a1 false c in let c2 := on_area a2 false c in
  fair E W c input -> fair E W1 c1 input -> fair E W2 c2 input -> keys_ok main -> 4095 <= n <= 7280 ->
  blocks E main (healthy n) -> blocks E main no_early_private -> copying c ->
  (acmd c = COverlay -> blocks E input (healthy n) /\ blocks E input no_early_private) ->
  (forall p, selected (aarea c) false p <-> selected a1 false p \/ selected a2 false p) ->
  (acmd c = CClone -> forall p, selected a2 false p -> ~ selected a1 false (minus p (default (V3 0 0 0) (offset c)))) ->
  exists m l m12, run_ok E c W main input m l /\ after E W1 W2 c1 c2 main input input m12 /\ same_contents E m m12.
Proof.
  intros c1 c2 F F1 F2 Hk Hn Hb Hs Hc Hi Hsel Hdis.
  destruct (copying_landed E W c main input n) as (m & l & f & _ & Run & Ea); [done|done|lia|done..|].
  destruct (copying_landed E W1 c1 main input n) as (m1 & l1 & f1 & _ & Run1 & Ea1); [done|done|lia|done..|].
  destruct (store_next E W1 c1 main input n m1 l1) as (K1 & B1 & S1); [done|done|lia|done|done|done|right; by apply (copying_command c1)|done|].
  rewrite (place_growth c1 Hc), Z.add_0_r in B1.
  destruct (copying_landed E W2 c2 m1 input n) as (m12 & l12 & f12 & _ & Run12 & Ea12); [done|done|lia|done..|].
  exists m, l, m12. split; [done|]. split; [by exists m1, l1, l12|].
  eapply each_same; [exact Hk|exact Ea|eapply (each_two E main m1); eassumption|].
  cbv beta. intros k bp x b b' b12 Hbp Hx Hd L (k1 & y1 & b1 & Hy1 & Hd1 & L1 & L12).
  pose proof (land_shell _ _ _ _ _ _ _ L1) as Hsh. destruct (shell_version _ _ Hsh) as [Hv Hfl].
  cbn [aarea offset on_area c1 c2] in L1, L12, Ea1.
  set (s := source c main input) in *. change (source c1 main input) with s in *.
  set (s1 := source c2 m1 input) in *. set (off := default (V3 0 0 0) (offset c)) in *.
  assert (forall p sb j, selected a2 false p -> found E s p sb j -> exists sb1, found E s1 p sb1 j /\ state sb1 j = state sb j) as Hforth.
  { intros p sb j H2 Hf. unfold s, s1, source in *. cbn [acmd on_area c2]. destruct Hc as [Hcl|[Hov _]]; [|rewrite Hov in *; by exists sb].
    rewrite Hcl in *.
    destruct (found_forth E main m1 _ p sb j (fun bp b b1 => land_shell E main a1 off bp b b1) Ea1 Hf) as (bp' & sb1 & Hf1 & Hj & Hp' & A).
    exists sb1. split; [done|]. apply (land_other _ _ _ _ _ _ _ A j Hj). rewrite Hp'. intros [H1 _]. by apply (Hdis eq_refl p). }
  assert (forall p sb1 j, found E s1 p sb1 j -> exists sb, found E s p sb j) as Hback.
  { intros p sb1 j Hf. unfold s, s1, source in *. cbn [acmd on_area c2] in Hf. destruct Hc as [Hcl|[Hov _]]; [|rewrite Hov in *; by exists sb1].
    rewrite Hcl in *. exact (found_back E main m1 _ p sb1 j (fun bp b b1 => land_shell E main a1 off bp b b1) Ea1 Hf). }
  apply state_alike.
  - apply L.
  - apply L12.
  - by rewrite (land_shell _ _ _ _ _ _ _ L), (land_shell _ _ _ _ _ _ _ L12), Hsh.
  - by rewrite (land_timers _ _ _ _ _ _ _ L), (land_timers _ _ _ _ _ _ _ L12), (land_timers _ _ _ _ _ _ _ L1).
  - by rewrite (land_objects _ _ _ _ _ _ _ L), (land_objects _ _ _ _ _ _ _ L12), (land_objects _ _ _ _ _ _ _ L1).
  - intros i Hii. destruct (decide (not_generated b)) as [Hg|Hg].
    { rewrite (land_raw _ _ _ _ _ _ _ L Hg), (land_raw _ _ _ _ _ _ _ L12), (land_raw _ _ _ _ _ _ _ L1 Hg); [done|].
      unfold not_generated. by rewrite Hfl. }
    assert (~ not_generated b1) as Hg1 by (unfold not_generated; by rewrite Hfl).
    set (p := minus (abs_pos bp i) off). destruct (decide (selected a2 false p)) as [H2|H2].
    + apply dec_stable. intros Hno.
      assert (~ exists sb j, found E s p sb j) as Hn'.
      { intros (sb & j & Hf). apply Hno. destruct (Hforth p sb j H2 Hf) as (sb1 & Hf1 & Hst).
        rewrite (land_found _ _ _ _ _ _ _ L Hg i sb j Hii) by (try done; apply Hsel; by right).
        rewrite (land_found _ _ _ _ _ _ _ L12 Hg1 i sb1 j Hii) by done. by rewrite Hv, Hst. }
      apply Hno. rewrite (land_other _ _ _ _ _ _ _ L i Hii) by (by intros [_ ?]).
      rewrite (land_other _ _ _ _ _ _ _ L12 i Hii), (land_other _ _ _ _ _ _ _ L1 i Hii); [done|by intros [_ ?]|].
      intros (_ & sb1 & j & Hf). destruct (Hback p sb1 j Hf) as (sb & ?). apply Hn'. by exists sb, j.
    + rewrite (land_other _ _ _ _ _ _ _ L12 i Hii) by (by intros [? _]).
      apply dec_stable. intros Hno.
      assert (~ (selected a1 false p /\ exists sb j, found E s p sb j)) as Hn'.
      { intros (H1 & sb & j & Hf). apply Hno.
        rewrite (land_found _ _ _ _ _ _ _ L Hg i sb j Hii) by (try done; apply Hsel; by left).
        by rewrite (land_found _ _ _ _ _ _ _ L1 Hg i sb j Hii). }
      apply Hno. rewrite (land_other _ _ _ _ _ _ _ L1 i Hii Hn'). apply (land_other _ _ _ _ _ _ _ L i Hii).
      intros ([H|H]%Hsel & Hf); [|done]. by apply Hn'.
Qed.

(** ** Overlay without offset *)
Lemma acted_data E g d ma mb m1 m2 n k : keys_ok ma -> blocks E ma (healthy n) -> each_block E ma m1 (acted g d) -> each_block E mb m2 (acted g d) ->
  mb !! k = ma !! k -> same_data E (m1 !! k) (m2 !! k).
Proof.
  intros Hk Hb [N1 E1] [N2 E2] He. destruct (ma !! k) as [x|] eqn:Hx; [|by rewrite (N1 k Hx), (N2 k He)].
  destruct (Hk k ltac:(by eexists)) as [bp Hbp]. destruct (E1 k bp x Hbp Hx) as (y1 & -> & H1). destruct (E2 k bp x Hbp He) as (y2 & -> & H2).
  destruct (deserialize E x) as [b|] eqn:Ex; [|left; congruence]. destruct H1 as (b1 & D1 & A1). destruct H2 as (b2 & D2 & A2).
  right. exists b1, b2. split; [done|]. split; [done|]. apply (acted_pair g d bp n b b); [by eapply Hb|by eapply Hb|apply alike_refl|done|done].
Qed.

Lemma mixed_state a inv bp sb b b' i : no_early_private sb -> no_early_private b -> mixed a inv bp sb b b' -> 0 <= i < 4096 ->
  state b' i = import (version b') (if decide (selected a inv (abs_pos bp i)) then state sb i else state b i).
Proof. intros S1 S2 (_ & _ & _ & HN) Hi. specialize (HN i Hi). case_decide; by apply node_import. Qed.

Lemma acted_claims E g d m m1 k bp x y : ext_ok E -> each_block E m m1 (acted g d) -> block_at k bp -> m !! k = Some x -> m1 !! k = Some y ->
  claims_generated E x <-> claims_generated E y.
Proof.
  intros HE [_ He] Hbp Hx Hy. destruct (He k bp x Hbp Hx) as (y' & Hy' & H). assert (y' = y) as -> by congruence.
  destruct (deserialize E x) as [b|] eqn:Ex; [|by subst]. destruct H as (b1 & D1 & A).
  rewrite (claims_flags E x b HE Ex), (claims_flags E y b1 HE D1). unfold not_generated.
  by rewrite (proj2 (shell_version _ _ (acted_shell _ _ _ _ _ A))).
Qed.

Lemma mixed_exchange g d a inv bp sb sb1 b b1 b12 b2 b21 : aarea g = None -> (acmd g = CDeleteTimers -> searched g = []) ->
  no_early_private sb -> no_early_private sb1 -> no_early_private b -> no_early_private b1 -> meta_in b2 ->
  acted g d bp sb sb1 -> acted g d bp b b1 -> mixed a inv bp sb1 b1 b12 -> mixed a inv bp sb b b2 -> acted g d bp b2 b21 -> alike b12 b21.
Proof.
  intros Ha Ht Ss Ss1 Sb Sb1 Hm2 As A1 M12 M2 A21.
  pose proof M12 as (HR12 & _). pose proof M2 as (HR2 & _).
  assert (acted g d bp (if inv then sb else b) (if inv then sb1 else b1)) as A by (by destruct inv).
  destruct (rest_parts _ _ HR12) as (P1 & P2 & P3 & P4). destruct (rest_parts _ _ HR2) as (Q1 & Q2 & Q3 & Q4).
  assert (version b12 = version b2) as Hv.
  { apply shell_version. by rewrite P1, Q1, (acted_shell _ _ _ _ _ A). }
  apply state_alike.
  - done.
  - by apply (acted_meta _ _ _ _ _ A21).
  - by rewrite P1, (acted_shell _ _ _ _ _ A), (acted_shell _ _ _ _ _ A21), Q1.
  - rewrite P2, (acted_timers _ _ _ _ _ A), (acted_timers _ _ _ _ _ A21), Q2. apply list_filter_iff_in. intros t _. by apply stays_anywhere.
  - by rewrite P3, (acted_objects _ _ _ _ _ A), (acted_objects _ _ _ _ _ A21), Q3.
  - intros i Hi. rewrite (acted_nodes _ _ _ _ _ A21 i Hi). change (state b12 i = react g (abs_pos bp i) (state b2 i)).
    rewrite (mixed_state a inv bp sb1 b1 b12 i), (mixed_state a inv bp sb b b2 i), Hv by done.
    case_decide; by eapply acted_import.
Qed.

Lemma overlay_everywhere E W1 W2 W3 W4 W5 g c main ing inc n : fair E W1 g ing -> fair E W2 c inc -> fair E W3 c inc -> fair E W4 g ing ->
  fair E W5 g ing -> keys_ok main -> 4095 <= n -> n + growth g <= 7280 -> blocks E main (healthy n) -> blocks E main no_early_private ->
  blocks E inc (healthy n) -> blocks E inc no_early_private ->
  in_place (acmd g) = true -> acmd c = COverlay -> default (V3 0 0 0) (offset c) = V3 0 0 0 ->
  aarea g = None -> (acmd g = CDeleteTimers -> searched g = []) ->
  exists inc1 l m12 m21, run_ok E g W5 inc ing inc1 l /\ after E W1 W2 g c main ing inc1 m12 /\
    after E W3 W4 c g main inc ing m21 /\ same_contents E m12 m21.
Proof.
  intros F1 F2 F3 F4 F5 Hk Hn Hn2 Hb Hs Hbi Hsi Hp Hc Hz Ha Ht. pose proof (growth_range g) as Hg.
  assert (acmd g <> COverlay) as Hno by (intros Hx; by rewrite Hx in Hp).
  pose proof (fair_input _ _ _ _ F2) as Hki. pose proof (fair_ext _ _ _ _ F2) as HE.
  destruct (local_next E W5 g inc ing n) as (inc1 & l5 & Run5 & Ea5 & K5 & B5); [done..|lia|done|].
  destruct (store_next E W5 g inc ing n inc1 l5) as (_ & _ & S5); [done|done|lia|done|done|done|by left|done|].
  destruct (local_next E W1 g main ing n) as (m1 & l1 & Run1 & Ea1 & K1 & B1); [done..|lia|done|].
  destruct (store_next E W1 g main ing n m1 l1) as (_ & _ & S1); [done|done|lia|done|done|done|by left|done|].
  assert (fair E W2 c inc1) as F2' by (destruct F2; by split).
  destruct (overlay_run E W2 c m1 inc1 from_block_key) as (m12 & f12 & Run12 & _ & N12 & O12); try done.
  { by eapply fair_setting. }
  { by apply (healthy_roomy E c m1 inc1 (n + growth g)). }
  destruct (overlay_run E W3 c main inc from_block_key) as (m2 & f2 & Run2 & _ & N2 & O2); try done.
  { by eapply fair_setting. }
  { apply (healthy_roomy E c main inc n); try done. lia. }
  destruct (store_next E W3 c main inc n m2 _ F3 Hk ltac:(lia) Hb Hs ltac:(done) (or_intror (or_intror Hc)) Run2) as (K2 & B2 & S2).
  assert (growth c = 0) as Hgc by (unfold growth; by rewrite Hc). rewrite Hgc, Z.add_0_r in B2.
  destruct (local_next E W4 g m2 ing n) as (m21 & l21 & Run21 & Ea21 & _); [done..|lia|done|].
  exists inc1, l5, m12, m21. split; [done|]. split; [by exists m1, l1, (warnings c ++ closing f12)|].
  split; [by exists m2, (warnings c ++ closing f2), l21|].
  intros k. change (same_data E (m12 !! k) (m21 !! k)).
  assert (m2 !! k = main !! k -> m12 !! k = m1 !! k -> same_data E (m12 !! k) (m21 !! k)) as Hold.
  { intros H2 ->. by apply (acted_data E g (adel g) main m2 m1 m21 n k). }
  pose proof (area_ok_args c (fair_supplied _ _ _ _ F2) (fair_legal _ _ _ _ F2)) as Hao.
  destruct (inc !! k) as [x|] eqn:Hx.
  2:{ apply Hold; [by apply N2|]. apply N12. by apply Ea5. }
  destruct (Hki k ltac:(by eexists)) as [bp Hbp].
  destruct (proj2 Ea5 k bp x Hbp Hx) as (x1 & Hx1 & Hacx).
  pose proof (acted_claims E g (adel g) inc inc1 k bp x x1 HE Ea5 Hbp Hx Hx1) as Hclx.
  destruct (O12 k bp x1 Hbp Hx1) as (A1 & A2 & A3 & A4). destruct (O2 k bp x Hbp Hx) as (D1 & D2 & D3 & D4).
  destruct (decide (wholeb (aarea c) (invert c) bp = true)) as [Hw|Hw].
  { apply wholeb_iff in Hw; [|apply Hbp|done]. destruct (decide (claims_generated E x)) as [Hcl|Hcl].
    - rewrite (A1 Hw) by (by apply Hclx). rewrite <-Hx1. apply (acted_data E g (adel g) inc m2 inc1 m21 n k); try done.
      by rewrite (D1 Hw Hcl), Hx.
    - apply Hold; [by apply D2|]. apply A2; [done|]. by rewrite <-Hclx. }
  apply not_true_is_false in Hw. apply wholeb_false in Hw; [|apply Hbp|done].
  destruct (decide (visitb (aarea c) (invert c) bp = true)) as [Hv|Hv].
  2:{ apply Hold; [apply D3|apply A3]; intros q Hq Hqs; apply Hv, visitb_iff; by exists q. }
  apply visitb_iff in Hv as (q & Hq & Hqs).
  assert (~ none (aarea c) (invert c) bp) as Hnn by (intros Hnn; by apply (Hnn q)).
  specialize (A4 Hw Hnn). specialize (D4 Hw Hnn).
  destruct (main !! k) as [y|] eqn:Hy.
  2:{ pose proof (proj1 Ea1 k Hy) as Hy1. rewrite Hy1 in *. by apply Hold. }
  destruct (proj2 Ea1 k bp y Hbp Hy) as (y1 & Hy1 & Hacy). rewrite Hy1 in *.
  pose proof (acted_claims E g (adel g) main m1 k bp y y1 HE Ea1 Hbp Hy Hy1) as Hcly.
  destruct A4 as [U4 A4]. destruct D4 as [U4' D4].
  destruct (decide (claims_generated E y)) as [Hcl|Hcl].
  2:{ apply Hold; [by apply U4'|]. apply U4. by rewrite <-Hcly. }
  specialize (D4 Hcl). specialize (A4 (proj1 Hcly Hcl)).
  destruct (deserialize E x) as [sb|] eqn:Ex.
  2:{ subst x1. rewrite Ex in A4. by apply Hold. }
  destruct Hacx as (sb1 & Dx1 & Ax). rewrite Dx1 in A4.
  destruct (deserialize E y) as [b|] eqn:Ey.
  2:{ subst y1. rewrite Ey in A4. by apply Hold. }
  destruct Hacy as (b1 & Dy1 & Ay). rewrite Dy1 in A4.
  destruct D4 as (z2 & b2 & Hz2 & Dz2 & M2). destruct A4 as (z12 & b12 & -> & Dz12 & M12).
  destruct (proj2 Ea21 k bp z2 Hbp Hz2) as (z21 & -> & H21). rewrite Dz2 in H21. destruct H21 as (b21 & Dz21 & A21).
  right. exists b12, b21. split; [done|]. split; [done|].
  eapply (mixed_exchange g (adel g) (aarea c) (invert c) bp sb sb1 b b1 b12 b2 b21); try done.
  - by eapply Hsi.
  - by eapply S5.
  - by eapply Hs.
  - by eapply S1.
  - apply (sound_meta n). by eapply B2.
Qed.

Lemma acted_nowhere g d bp b b' : acmd g <> CDeleteTimers -> (forall o, d bp o = false) -> meta_in b -> acted g d bp b b' ->
  (forall i, 0 <= i < 4096 -> ~ selected (aarea g) (invert g) (abs_pos bp i)) -> alike b b'.
Proof.
  intros Ht Hd Hm A Hno. apply state_alike.
  - by apply meta_norm.
  - by apply (acted_meta _ _ _ _ _ A).
  - by rewrite (acted_shell _ _ _ _ _ A).
  - rewrite (acted_timers _ _ _ _ _ A). symmetry. apply filter_all. intros t _. unfold stays. by destruct (acmd g).
  - rewrite (acted_objects _ _ _ _ _ A). symmetry. apply filter_all. intros o _. apply Hd.
  - intros i Hi. symmetry. apply (acted_name _ _ _ _ _ _ A Hi). by apply Hno.
Qed.
Lemma acted_rest g d bp b b' : acmd g <> CDeleteTimers -> (forall o, d bp o = false) -> acted g d bp b b' -> timers b' = timers b /\ objects b' = objects b.
Proof.
  intros Ht Hd A. rewrite (acted_timers _ _ _ _ _ A), (acted_objects _ _ _ _ _ A). split; apply filter_all; [|by intros].
  intros t _. unfold stays. by destruct (acmd g).
Qed.

Lemma react_import g p v b i : import v (react g p (state b i)) = react g p (import v (state b i)).
Proof.
  unfold react. destruct (decide (hit g p (state b i))) as [H|H].
  - rewrite (decide_True (P := hit g p (import v (state b i)))) by exact H. apply act_import. intros m. apply state_filled.
  - by rewrite (decide_False (P := hit g p (import v (state b i)))) by exact H.
Qed.

Lemma mixed_apart g d a inv bp sb b b1 b12 b2 b21 : acmd g <> CDeleteTimers -> (forall o, d bp o = false) ->
  (forall p, selected (aarea g) (invert g) p -> ~ selected a inv p) -> no_early_private sb -> no_early_private b -> no_early_private b1 -> meta_in b2 ->
  acted g d bp b b1 -> mixed a inv bp sb b1 b12 -> mixed a inv bp sb b b2 -> acted g d bp b2 b21 -> alike b12 b21.
Proof.
  intros Ht Hdl Hdis Ss Sb Sb1 Hm2 A1 M12 M2 A21.
  pose proof M12 as (HR12 & _). pose proof M2 as (HR2 & _).
  destruct (rest_parts _ _ HR12) as (P1 & P2 & P3 & P4). destruct (rest_parts _ _ HR2) as (Q1 & Q2 & Q3 & Q4).
  destruct (acted_rest _ _ _ _ _ Ht Hdl A1) as [T1 O1]. destruct (acted_rest _ _ _ _ _ Ht Hdl A21) as [T2 O2].
  assert (shell b12 = shell b2) as Hsh.
  { rewrite P1, Q1. destruct inv; [done|]. by rewrite (acted_shell _ _ _ _ _ A1). }
  apply state_alike.
  - done.
  - by apply (acted_meta _ _ _ _ _ A21).
  - by rewrite Hsh, (acted_shell _ _ _ _ _ A21).
  - rewrite P2, T2, Q2. by destruct inv.
  - rewrite P3, O2, Q3. by destruct inv.
  - intros i Hi. rewrite (acted_nodes _ _ _ _ _ A21 i Hi). change (state b12 i = react g (abs_pos bp i) (state b2 i)).
    rewrite (mixed_state a inv bp sb b1 b12 i), (mixed_state a inv bp sb b b2 i), (proj1 (shell_version _ _ Hsh)) by done.
    case_decide as Hsel.
    + unfold react. rewrite decide_False; [done|]. intros [Hg _]. by apply (Hdis _ Hg).
    + rewrite (acted_nodes _ _ _ _ _ A1 i Hi). change (import (version b2) (react g (abs_pos bp i) (state b i)) = react g (abs_pos bp i) (import (version b2) (state b i))).
      apply react_import.
Qed.

Lemma overlay_apart E W1 W2 W3 W4 g c main ing inc n : fair E W1 g ing -> fair E W2 c inc -> fair E W3 c inc -> fair E W4 g ing ->
  keys_ok main -> 4095 <= n -> n + growth g <= 7280 -> blocks E main (healthy n) -> blocks E main no_early_private ->
  in_place (acmd g) = true -> blocks E inc (healthy n) -> blocks E inc no_early_private -> apart_overlay g c ->
  exists m12 m21, after E W1 W2 g c main ing inc m12 /\ after E W3 W4 c g main inc ing m21 /\ same_contents E m12 m21.
Proof.
  intros F1 F2 F3 F4 Hk Hn Hn2 Hb Hs Hp Hbi Hsi (Hc & Hz & Hdis & Ht & Hdo). pose proof (growth_range g) as Hg.
  assert (acmd g <> COverlay) as Hno by (intros Hx; by rewrite Hx in Hp).
  pose proof (fair_input _ _ _ _ F2) as Hki. pose proof (fair_ext _ _ _ _ F2) as HE. pose proof (adel_none g Hdo) as Hdl.
  destruct (local_next E W1 g main ing n) as (m1 & l1 & Run1 & Ea1 & K1 & B1); [done..|lia|done|].
  destruct (store_next E W1 g main ing n m1 l1) as (_ & _ & S1); [done|done|lia|done|done|done|by left|done|].
  destruct (overlay_run E W2 c m1 inc from_block_key) as (m12 & f12 & Run12 & _ & N12 & O12); try done.
  { by eapply fair_setting. }
  { apply (healthy_roomy E c m1 inc (n + growth g)); try done. apply (healthy_up E inc n); [lia|done]. }
  destruct (overlay_run E W3 c main inc from_block_key) as (m2 & f2 & Run2 & _ & N2 & O2); try done.
  { by eapply fair_setting. }
  { apply (healthy_roomy E c main inc n); try done. lia. }
  destruct (store_next E W3 c main inc n m2 _ F3 Hk ltac:(lia) Hb Hs ltac:(done) (or_intror (or_intror Hc)) Run2) as (K2 & B2 & S2).
  assert (growth c = 0) as Hgc by (unfold growth; by rewrite Hc). rewrite Hgc, Z.add_0_r in B2.
  destruct (local_next E W4 g m2 ing n) as (m21 & l21 & Run21 & Ea21 & _); [done..|lia|done|].
  exists m12, m21. split; [by exists m1, l1, (warnings c ++ closing f12)|].
  split; [by exists m2, (warnings c ++ closing f2), l21|].
  intros k. change (same_data E (m12 !! k) (m21 !! k)).
  assert (m2 !! k = main !! k -> m12 !! k = m1 !! k -> same_data E (m12 !! k) (m21 !! k)) as Hold.
  { intros H2 ->. by apply (acted_data E g (adel g) main m2 m1 m21 n k). }
  pose proof (area_ok_args c (fair_supplied _ _ _ _ F2) (fair_legal _ _ _ _ F2)) as Hao.
  destruct (inc !! k) as [x|] eqn:Hx; [|by apply Hold; [apply N2|apply N12]].
  destruct (Hki k ltac:(by eexists)) as [bp Hbp].
  destruct (O12 k bp x Hbp Hx) as (A1 & A2 & A3 & A4). destruct (O2 k bp x Hbp Hx) as (D1 & D2 & D3 & D4).
  destruct (decide (wholeb (aarea c) (invert c) bp = true)) as [Hw|Hw].
  { apply wholeb_iff in Hw; [|apply Hbp|done]. destruct (decide (claims_generated E x)) as [Hcl|Hcl].
    - rewrite (A1 Hw Hcl). destruct (proj2 Ea21 k bp x Hbp (D1 Hw Hcl)) as (y & -> & Hy).
      destruct (deserialize E x) as [b|] eqn:Ex; [|left; congruence]. destruct Hy as (b' & D & A).
      right. exists b, b'. split; [done|]. split; [done|].
      apply (acted_nowhere g (adel g) bp b b'); try done; [apply (sound_meta n); by eapply Hbi|].
      intros i Hi Hsel. apply (Hdis _ Hsel), Hw. by apply index_inside.
    - apply Hold; [by apply D2|by apply A2]. }
  apply not_true_is_false in Hw. apply wholeb_false in Hw; [|apply Hbp|done].
  destruct (decide (visitb (aarea c) (invert c) bp = true)) as [Hv|Hv].
  2:{ apply Hold; [apply D3|apply A3]; intros q Hq Hqs; apply Hv, visitb_iff; by exists q. }
  apply visitb_iff in Hv as (q & Hq & Hqs).
  assert (~ none (aarea c) (invert c) bp) as Hnn by (intros Hnn; by apply (Hnn q)).
  specialize (A4 Hw Hnn). specialize (D4 Hw Hnn).
  destruct (main !! k) as [y|] eqn:Hy.
  2:{ pose proof (proj1 Ea1 k Hy) as Hy1. rewrite Hy1 in *. by apply Hold. }
  destruct (proj2 Ea1 k bp y Hbp Hy) as (y1 & Hy1 & Hacy). rewrite Hy1 in *.
  pose proof (acted_claims E g (adel g) main m1 k bp y y1 HE Ea1 Hbp Hy Hy1) as Hcly.
  destruct A4 as [U4 A4]. destruct D4 as [U4' D4].
  destruct (decide (claims_generated E y)) as [Hcl|Hcl].
  2:{ apply Hold; [by apply U4'|]. apply U4. by rewrite <-Hcly. }
  specialize (D4 Hcl). specialize (A4 (proj1 Hcly Hcl)).
  destruct (deserialize E x) as [sb|] eqn:Ex; [|by apply Hold].
  destruct (deserialize E y) as [b|] eqn:Ey.
  2:{ subst y1. rewrite Ey in A4. by apply Hold. }
  destruct Hacy as (b1 & Dy1 & Ay). rewrite Dy1 in A4.
  destruct D4 as (z2 & b2 & Hz2 & Dz2 & M2). destruct A4 as (z12 & b12 & -> & Dz12 & M12).
  destruct (proj2 Ea21 k bp z2 Hbp Hz2) as (z21 & -> & H21). rewrite Dz2 in H21. destruct H21 as (b21 & Dz21 & A21).
  right. exists b12, b21. split; [done|]. split; [done|].
  eapply (mixed_apart g (adel g) (aarea c) (invert c) bp sb b b1 b12 b2 b21); try done.
  - by eapply Hsi.
  - by eapply Hs.
  - by eapply S1.
  - apply (sound_meta n). by eapply B2.
Qed.

(** ** Splitting an overlay between blocks *)
Lemma overlaid_same E a1 a2 inv1 inv2 bp x old new1 new2 : key_range bp -> area_ok a1 -> inv1 = inv2 ->
  (forall q, node_in_block bp q -> selected a1 inv1 q <-> selected a2 inv2 q) ->
  overlaid E a1 inv1 bp x old new1 -> overlaid E a2 inv2 bp x old new2 -> same_data E new1 new2.
Proof.
  intros Hkr Ha <- Hsel (A1 & B1 & C1 & D1) (A2 & B2 & C2 & D2).
  assert (whole a1 inv1 bp <-> whole a2 inv1 bp) as Hwh by (unfold whole; split; intros H q Hq; apply Hsel; auto).
  assert (none a1 inv1 bp <-> none a2 inv1 bp) as Hno.
  { unfold none. split; intros H q Hq Hs; apply (H q Hq); by apply Hsel. }
  destruct (decide (wholeb a1 inv1 bp = true)) as [Hw|Hw].
  { apply wholeb_iff in Hw; [|done..]. destruct (decide (claims_generated E x)) as [Hc|Hc].
    - rewrite (A1 Hw Hc), (A2 (proj1 Hwh Hw) Hc). by left.
    - apply same_data_eq. by rewrite (B1 Hw Hc), (B2 (proj1 Hwh Hw) Hc). }
  apply not_true_is_false in Hw. apply wholeb_false in Hw; [|done..].
  destruct (decide (visitb a1 inv1 bp = true)) as [Hv|Hv].
  2:{ assert (none a1 inv1 bp) as Hn by (intros q Hq Hqs; apply Hv, visitb_iff; by exists q).
      apply same_data_eq. by rewrite (C1 Hn), (C2 (proj1 Hno Hn)). }
  apply visitb_iff in Hv as (q & Hq & Hqs).
  assert (~ none a1 inv1 bp) as Hnn by (intros Hnn; by apply (Hnn q)).
  specialize (D1 Hw Hnn). rewrite Hwh in Hw. rewrite Hno in Hnn. specialize (D2 Hw Hnn).
  destruct old as [y|]; [|by rewrite D1, D2].
  destruct D1 as [N1 D1]. destruct D2 as [N2 D2].
  destruct (decide (claims_generated E y)) as [Hc|Hc]; [|apply same_data_eq; by rewrite N1, N2].
  specialize (D1 Hc). specialize (D2 Hc).
  destruct (deserialize E x) as [sb|]; [|apply same_data_eq; by rewrite D1, D2].
  destruct (deserialize E y) as [b|]; [|apply same_data_eq; by rewrite D1, D2].
  destruct D1 as (z1 & b1 & -> & Hd1 & HR1 & _ & _ & M1). destruct D2 as (z2 & b2 & -> & Hd2 & HR2 & _ & _ & M2).
  right. exists b1, b2. split; [done|]. split; [done|].
  eapply copied_alike; [exact HR1|exact HR2|]. intros i Hi. specialize (M1 i Hi). specialize (M2 i Hi).
  pose proof (fun c j => node_trans (if inv1 then sb else b) b1 b2 i c j (f_equal version (proj1 HR1)) (f_equal version (proj1 HR2))) as Htr.
  pose proof (Hsel _ (index_inside bp i Hi)) as Hs.
  destruct (decide (selected a1 inv1 (abs_pos bp i))) as [H1|H1].
  - rewrite decide_True in M2 by (by apply Hs). by eapply Htr.
  - rewrite decide_False in M2 by (by rewrite <-Hs). by eapply Htr.
Qed.

Lemma overlay_split E W W1 W2 c a1 a2 main input n : let c1 := on_area a1 (invert c) c in let c2 := on_area a2 (invert c) c in
  fair E W c input -> fair E W1 c1 input -> fair E W2 c2 input -> keys_ok main -> 4095 <= n <= 7280 ->
  blocks E main (healthy n) -> blocks E input (healthy n) -> acmd c = COverlay -> default (V3 0 0 0) (offset c) = V3 0 0 0 ->
  (forall p, selected (aarea c) (invert c) p <-> selected a1 (invert c) p \/ selected a2 (invert c) p) ->
  (forall bp, key_range bp -> none a1 (invert c) bp \/ none a2 (invert c) bp) ->
  exists m l m12, run_ok E c W main input m l /\ after E W1 W2 c1 c2 main input input m12 /\ same_contents E m m12.
Proof.
  intros c1 c2 F F1 F2 Hk Hn Hb Hbi Hc Hz Hsel Hdis.
  pose proof (fair_input _ _ _ _ F) as Hki.
  destruct (overlay_run E W c main input from_block_key) as (m & f & Run & _ & N & O); try done.
  { by eapply fair_setting. }
  { apply (healthy_roomy E c main input n); try done. lia. }
  destruct (overlay_run E W1 c1 main input from_block_key) as (m1 & f1 & Run1 & _ & N1 & O1); try done.
  { by eapply fair_setting. }
  { apply (healthy_roomy E c1 main input n); try done. lia. }
  destruct (run_next E W1 c1 main input n F1 Hk Hn Hb) as (m' & l' & Run' & _ & K1 & B1); [done|].
  destruct (run_ok_fun _ _ _ _ _ _ _ _ _ Run1 Run') as [<- _].
  assert (growth c1 = 0) as Hg by (unfold growth; cbn [acmd c1 on_area]; by rewrite Hc). rewrite Hg, Z.add_0_r in B1.
  destruct (overlay_run E W2 c2 m1 input from_block_key) as (m12 & f12 & Run12 & _ & N12 & O12); try done.
  { by eapply fair_setting. }
  { apply (healthy_roomy E c2 m1 input n); try done. lia. }
  exists m, (warnings c ++ closing f), m12. split; [done|]. split; [by exists m1, (warnings c1 ++ closing f1), (warnings c2 ++ closing f12)|].
  intros k. change (same_data E (m !! k) (m12 !! k)).
  destruct (input !! k) as [x|] eqn:Hx; [|apply same_data_eq; by rewrite (N k Hx), (N12 k Hx), (N1 k Hx)].
  destruct (Hki k ltac:(by eexists)) as [bp Hbp].
  specialize (O k bp x Hbp Hx). specialize (O1 k bp x Hbp Hx). specialize (O12 k bp x Hbp Hx).
  cbn [aarea invert c1 c2 on_area] in O1, O12.
  pose proof (area_ok_args c (fair_supplied _ _ _ _ F) (fair_legal _ _ _ _ F)) as Hao.
  destruct (Hdis bp (proj1 Hbp)) as [Hno|Hno].
  - rewrite (proj1 (proj2 (proj2 O1)) Hno) in O12.
    eapply (overlaid_same E (aarea c) a2 (invert c) (invert c) bp x (main !! k)); try done; [apply Hbp|].
    intros q Hq. rewrite Hsel. split; [intros [H|H]; [by apply (Hno q) in H|done]|by right].
  - rewrite (proj1 (proj2 (proj2 O12)) Hno).
    eapply (overlaid_same E (aarea c) a1 (invert c) (invert c) bp x (main !! k)); try done; [apply Hbp|].
    intros q Hq. rewrite Hsel. split; [intros [H|H]; [done|by apply (Hno q) in H]|by left].
Qed.
