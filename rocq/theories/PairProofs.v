(** Proofs of laws about several copies *)
From Verif Require Import CodecProofs BlockProofs UtilsProofs QueryProofs EditProofs NodeProofs MetaProofs ObjProofs WholeProofs SpatialProofs ArgProofs MapProofs MixProofs
  ThreadProofs FragProofs CopyProofs CopyRun OverlayRun ToyRun CmdFacts SpecNodes KeepProofs OrderProofs AgainProofs LocalProofs RestoreProofs CongProofs LawProofs SpecPair SpecAgain SpecLocal Spec.

(** ** What a run leaves as it was *)
Record outside (g : args) (bp : vec3) (b b1 : block) : Prop := {
  out_shell : shell b1 = shell b;
  out_timers : timers b1 = timers b;
  out_objects : objects b1 = objects b;
  out_raw : copying g -> not_generated b -> b1 = b;
  out_state : forall i, 0 <= i < 4096 -> ~ affects g (abs_pos bp i) -> state b1 i = state b i }.

Lemma copying_affects c p : copying c -> affects c p = selected (aarea c) false (minus p (default (V3 0 0 0) (offset c))).
Proof. unfold affects. by intros [->|[-> _]]. Qed.
Lemma landed_outside E src c bp b b1 : copying c -> landed E src (aarea c) (default (V3 0 0 0) (offset c)) bp b b1 -> outside c bp b b1.
Proof.
  intros Hc L. split; [apply L|apply L|apply L|intros _; apply L|]. intros i Hi Hn. apply (land_other _ _ _ _ _ _ _ L i Hi).
  rewrite copying_affects in Hn by done. by intros [? _].
Qed.
Lemma acted_outside g bp b b1 : in_place (acmd g) = true -> acmd g <> CDeleteTimers -> acmd g <> CDeleteObjects ->
  acted g (adel g) bp b b1 -> outside g bp b b1.
Proof.
  intros Hp Ht Ho A. destruct (acted_rest g (adel g) bp b b1 Ht (fun o => adel_none g Ho bp o) A) as [H1 H2].
  split; [apply A|done|done| |].
  - intros [Hc|[Hc _]]; by rewrite Hc in Hp.
  - intros i Hi Hn. apply (acted_name _ _ _ _ _ _ A Hi). unfold affects in Hn. by destruct (acmd g).
Qed.
Lemma each_mono E main m (R R' : vec3 -> block -> block -> Prop) : (forall bp b b', R bp b b' -> R' bp b b') -> each_block E main m R -> each_block E main m R'.
Proof.
  intros H [HN HE]. split; [done|]. intros k bp x Hbp Hx. destruct (HE k bp x Hbp Hx) as (y & Hy & Hd). exists y. split; [done|].
  destruct (deserialize E x); [|done]. destruct Hd as (b' & ? & ?). exists b'. auto.
Qed.

Lemma outside_next E W g main input n : fair E W g input -> keys_ok main -> 4095 <= n -> n + growth g <= 7280 ->
  blocks E main (healthy n) -> blocks E main no_early_private -> only_nodes g ->
  (acmd g = COverlay -> blocks E input (healthy n) /\ blocks E input no_early_private) ->
  exists m l, run_ok E g W main input m l /\ each_block E main m (outside g) /\ keys_ok m /\ blocks E m (healthy (n + growth g)) /\
    blocks E m no_early_private.
Proof.
  intros HF Hk Hn Hn2 Hb Hs Hg Hi. pose proof (growth_range g) as Hgr.
  assert (in_place (acmd g) = true \/ acmd g = CClone \/ acmd g = COverlay) as Hcmd.
  { destruct Hg as [Hg|Hg]; [right; by apply copying_command|left; by apply Hg]. }
  assert (exists m l, run_ok E g W main input m l /\ each_block E main m (outside g)) as (m & l & Run & Ea).
  { destruct Hg as [Hc|(Hp & Ht & Ho)].
    - destruct (copying_landed E W g main input n) as (m & l & f & _ & Run & Ea); [done|done|lia|done..|].
      exists m, l. split; [exact Run|]. eapply each_mono; [|exact Ea]. intros bp b b1. by apply landed_outside.
    - destruct (local_next E W g main input n) as (m & l & Run & Ea & _); [done..|lia|done|].
      exists m, l. split; [exact Run|]. eapply each_mono; [|exact Ea]. intros bp b b1. by apply acted_outside. }
  exists m, l. split; [exact Run|]. split; [done|].
  exact (store_next E W g main input n m l HF Hk ltac:(lia) Hb Hs Hi Hcmd Run).
Qed.

(** ** What is copied after the run *)
Section sources.
  Context (E : ext) (g c : args) (main m1 inc : mapdata).
  Context (Ea : each_block E main m1 (outside g)) (Hc : copying c).
  Context (Hr : forall p, affects g p -> ~ reads_from c p).
  Lemma source_forth p sb j : selected (aarea c) false p -> found E (source c main inc) p sb j ->
    exists sb1, found E (source c m1 inc) p sb1 j /\ state sb1 j = state sb j.
  Proof using All.
    intros Hsel Hf. unfold source in *. destruct Hc as [Hcl|[Hov _]]; [|rewrite Hov in *; by exists sb]. rewrite Hcl in *.
    destruct (found_forth E main m1 _ p sb j (fun bp b b1 => out_shell g bp b b1) Ea Hf) as (bp' & sb1 & Hf1 & Hj & Hp' & A).
    exists sb1. split; [done|]. apply (out_state _ _ _ _ A j Hj). rewrite Hp'. intros Ha. by apply (Hr p Ha).
  Qed.
  Lemma source_back p sb1 j : found E (source c m1 inc) p sb1 j -> exists sb, found E (source c main inc) p sb j.
  Proof using Ea Hc.
    intros Hf. unfold source in *. destruct Hc as [Hcl|[Hov _]]; [|rewrite Hov in *; by exists sb1]. rewrite Hcl in *.
    exact (found_back E main m1 _ p sb1 j (fun bp b b1 => out_shell g bp b b1) Ea Hf).
  Qed.
  Lemma follow_same bp b b1 b2 b12 i : outside g bp b b1 ->
    landed E (source c main inc) (aarea c) (default (V3 0 0 0) (offset c)) bp b b2 ->
    landed E (source c m1 inc) (aarea c) (default (V3 0 0 0) (offset c)) bp b1 b12 ->
    ~ not_generated b -> 0 <= i < 4096 -> state b1 i = state b i -> state b12 i = state b2 i.
  Proof using All.
    intros O L2 L12 Hg Hi Hst.
    eapply (landed_follow E (source c m1 inc) (source c main inc) _ _ bp b b1 b2 b12 i (fun s => s)); try done.
    - by apply O.
    - intros Hsel sb j Hf. destruct (source_forth _ sb j Hsel Hf) as (sb1 & Hf1 & Hs1). exists sb1. split; [done|]. intros v. by rewrite Hs1.
    - intros _ sb1 j. apply source_back.
  Qed.
End sources.

(** ** Exchange *)
Lemma copies_apart E W1 W2 W3 W4 c1 c2 main i1 i2 n : fair E W1 c1 i1 -> fair E W2 c2 i2 -> fair E W3 c2 i2 -> fair E W4 c1 i1 ->
  keys_ok main -> 4095 <= n <= 7280 -> blocks E main (healthy n) -> blocks E main no_early_private -> copying c1 -> copying c2 ->
  (acmd c1 = COverlay -> blocks E i1 (healthy n) /\ blocks E i1 no_early_private) ->
  (acmd c2 = COverlay -> blocks E i2 (healthy n) /\ blocks E i2 no_early_private) -> separate c1 c2 ->
  exists m12 m21, after E W1 W2 c1 c2 main i1 i2 m12 /\ after E W3 W4 c2 c1 main i2 i1 m21 /\ same_contents E m12 m21.
Proof.
  intros F1 F2 F3 F4 Hk Hn Hb Hs C1 C2 Hi1 Hi2 Hsep.
  destruct (copying_landed E W1 c1 main i1 n) as (m1 & l1 & f1 & _ & Run1 & Ea1); [done|done|lia|done..|].
  destruct (copying_landed E W3 c2 main i2 n) as (m2 & l2 & f2 & _ & Run2 & Ea2); [done|done|lia|done..|].
  destruct (store_next E W1 c1 main i1 n m1 l1 F1 Hk Hn Hb Hs Hi1 (or_intror (copying_command _ C1)) Run1) as (K1 & B1 & S1).
  destruct (store_next E W3 c2 main i2 n m2 l2 F3 Hk Hn Hb Hs Hi2 (or_intror (copying_command _ C2)) Run2) as (K2 & B2 & S2).
  rewrite place_growth, Z.add_0_r in B1, B2 by done.
  destruct (copying_landed E W2 c2 m1 i2 n) as (m12 & l12 & f12 & _ & Run12 & Ea12); [done|done|lia|done..|].
  destruct (copying_landed E W4 c1 m2 i1 n) as (m21 & l21 & f21 & _ & Run21 & Ea21); [done|done|lia|done..|].
  exists m12, m21. split; [exists m1, l1, l12; split; [exact Run1|exact Run12]|]. split; [exists m2, l2, l21; split; [exact Run2|exact Run21]|].
  assert (each_block E main m1 (outside c1)) as O1 by (eapply each_mono; [|exact Ea1]; intros bp b b1; by apply landed_outside).
  assert (each_block E main m2 (outside c2)) as O2 by (eapply each_mono; [|exact Ea2]; intros bp b b2; by apply landed_outside).
  eapply each_same; [exact Hk|exact (each_two E main m1 m12 _ _ Ea1 Ea12)|exact (each_two E main m2 m21 _ _ Ea2 Ea21)|].
  cbv beta. intros k bp x b b12 b21 Hbp Hx Hd (k1 & y1 & b1 & Hy1 & Hd1 & L1 & L12) (k2 & y2 & b2 & Hy2 & Hd2 & L2 & L21).
  apply state_alike.
  - apply L12.
  - apply L21.
  - by rewrite (land_shell _ _ _ _ _ _ _ L12), (land_shell _ _ _ _ _ _ _ L1), (land_shell _ _ _ _ _ _ _ L21), (land_shell _ _ _ _ _ _ _ L2).
  - by rewrite (land_timers _ _ _ _ _ _ _ L12), (land_timers _ _ _ _ _ _ _ L1), (land_timers _ _ _ _ _ _ _ L21), (land_timers _ _ _ _ _ _ _ L2).
  - by rewrite (land_objects _ _ _ _ _ _ _ L12), (land_objects _ _ _ _ _ _ _ L1), (land_objects _ _ _ _ _ _ _ L21), (land_objects _ _ _ _ _ _ _ L2).
  - intros i Hi.
    pose proof (shell_version _ _ (land_shell _ _ _ _ _ _ _ L1)) as [_ V1]. pose proof (shell_version _ _ (land_shell _ _ _ _ _ _ _ L2)) as [_ V2].
    destruct (decide (not_generated b)) as [Hg|Hg].
    { rewrite (land_raw _ _ _ _ _ _ _ L12), (land_raw _ _ _ _ _ _ _ L21), (land_raw _ _ _ _ _ _ _ L1 Hg), (land_raw _ _ _ _ _ _ _ L2 Hg); [done|..];
        unfold not_generated; [by rewrite V2|by rewrite V1]. }
    pose proof (landed_outside _ _ _ _ _ _ C1 L1) as P1. pose proof (landed_outside _ _ _ _ _ _ C2 L2) as P2.
    pose proof (landed_outside _ _ _ _ _ _ C2 L12) as P12. pose proof (landed_outside _ _ _ _ _ _ C1 L21) as P21.
    destruct (Hsep (abs_pos bp i)) as [Hsp _].
    assert (affects c1 (abs_pos bp i) \/ ~ affects c1 (abs_pos bp i)) as [Ha|Ha].
    { rewrite copying_affects by done. destruct (decide (selected (aarea c1) false (minus (abs_pos bp i) (default (V3 0 0 0) (offset c1))))); tauto. }
    + rewrite (out_state _ _ _ _ P12 i Hi) by (by apply Hsp).
      symmetry. eapply (follow_same E c2 c1 main m2 i1 O2 C1); [|exact P2|exact L1|exact L21|done|done|].
      * intros p Hp. by apply (Hsep p).
      * apply (out_state _ _ _ _ P2 i Hi). by apply Hsp.
    + rewrite (out_state _ _ _ _ P21 i Hi) by done.
      eapply (follow_same E c1 c2 main m1 i2 O1 C2); [|exact P1|exact L2|exact L12|done|done|].
      * intros p Hp. by apply (Hsep p).
      * by apply (out_state _ _ _ _ P1 i Hi).
Qed.

(** ** Overwriting *)
Lemma claims_all E m k x b : ext_ok E -> all_generated E m -> m !! k = Some x -> deserialize E x = Ok b -> ~ not_generated b.
Proof. intros HE Ha Hx Hd. apply (claims_flags E x b HE Hd). by eapply Ha. Qed.

Lemma copy_overwrites E W W1 W2 g c main ing inc n : fair E W1 g ing -> fair E W2 c inc -> fair E W c inc ->
  keys_ok main -> 4095 <= n -> n + growth g <= 7280 -> blocks E main (healthy n) -> blocks E main no_early_private ->
  only_nodes g -> copying c -> (acmd g = COverlay -> blocks E ing (healthy n) /\ blocks E ing no_early_private) ->
  (acmd c = COverlay -> blocks E inc (healthy n) /\ blocks E inc no_early_private) ->
  (copying g \/ all_generated E main) -> overwritten E g c main inc ->
  exists m l m12, run_ok E c W main inc m l /\ after E W1 W2 g c main ing inc m12 /\ same_contents E m12 m.
Proof.
  intros F1 F2 F Hk Hn Hn2 Hb Hs Hg Hc Hig Hic Hgen Hov. pose proof (growth_range g) as Hgr.
  destruct (outside_next E W1 g main ing n) as (m1 & l1 & Run1 & O1 & K1 & B1 & S1); [done..|].
  destruct (copying_landed E W c main inc n) as (m & l & f & _ & Run & Ea); [done|done|lia|done..|].
  destruct (copying_landed E W2 c m1 inc (n + growth g)) as (m12 & l12 & f12 & _ & Run12 & Ea12); [done|done|lia|done|done|done| |].
  { intros Ho. destruct (Hic Ho). split; [|done]. apply (healthy_up E inc n); [lia|done]. }
  exists m, l, m12. split; [exact Run|]. split; [exists m1, l1, l12; split; [exact Run1|exact Run12]|].
  eapply each_same; [exact Hk|exact (each_two E main m1 m12 _ _ O1 Ea12)|exact Ea|].
  cbv beta. intros k bp x b b12 b2 Hbp Hx Hd (k1 & y1 & b1 & Hy1 & Hd1 & P1 & L12) L2.
  pose proof (out_shell _ _ _ _ P1) as Hsh. pose proof (shell_version _ _ Hsh) as [Hv V1].
  apply state_alike.
  - apply L12.
  - apply L2.
  - by rewrite (land_shell _ _ _ _ _ _ _ L12), Hsh, (land_shell _ _ _ _ _ _ _ L2).
  - by rewrite (land_timers _ _ _ _ _ _ _ L12), (out_timers _ _ _ _ P1), (land_timers _ _ _ _ _ _ _ L2).
  - by rewrite (land_objects _ _ _ _ _ _ _ L12), (out_objects _ _ _ _ P1), (land_objects _ _ _ _ _ _ _ L2).
  - intros i Hi. destruct (decide (not_generated b)) as [Hng|Hng].
    { destruct Hgen as [Hcg|Hgen]; [|by destruct (claims_all E main k x b (fair_ext _ _ _ _ F) Hgen Hx Hd)].
      rewrite (land_raw _ _ _ _ _ _ _ L12), (land_raw _ _ _ _ _ _ _ L2 Hng), (out_raw _ _ _ _ P1 Hcg Hng); [done|]. unfold not_generated. by rewrite V1. }
    assert (~ not_generated b1) as Hng1 by (unfold not_generated; by rewrite V1).
    assert (forall p, affects g p -> ~ reads_from c p) as Hr by (intros p Hp; by apply Hov).
    apply dec_stable. intros Hno.
    assert (~ affects g (abs_pos bp i)) as Ha.
    { intros Ha. apply Hno. destruct (Hov _ Ha) as (_ & Hsel & sb & j & Hf). rewrite copying_affects in Hsel by done.
      change (copied_map c main inc) with (source c main inc) in Hf.
      destruct (source_forth E g c main m1 inc O1 Hc Hr _ sb j Hsel Hf) as (sb1 & Hf1 & Hst).
      rewrite (land_found _ _ _ _ _ _ _ L12 Hng1 i sb1 j Hi Hsel Hf1), (land_found _ _ _ _ _ _ _ L2 Hng i sb j Hi Hsel Hf).
      by rewrite Hv, Hst. }
    apply Hno. eapply (follow_same E g c main m1 inc O1 Hc Hr); [exact P1|exact L2|exact L12|done|done|].
    by apply (out_state _ _ _ _ P1 i Hi).
Qed.

(** ** Overlays without offset *)
Lemma mixed_version a bp sb b b' : mixed a false bp sb b b' -> version b' = version b /\ not_generated b' = not_generated b.
Proof.
  intros (HR & _). destruct (rest_parts _ _ HR) as (P1 & _). cbn in P1. destruct (shell_version _ _ P1) as [Hv Hf].
  split; [done|]. unfold not_generated. by rewrite Hf.
Qed.
(** A node as far as a block of version [v] can express it *)
Definition carried (v : Z) (b : block) (i : Z) : node_state :=
  NodeState (node_name b i) (node_param1 b i) (node_param2 b i) (metadata b !! i ≫= kept v).
Lemma carried_own b i : carried (version b) b i = state b i.
Proof.
  unfold carried, state. f_equal. change (metadata (norm b)) with (norm_metadata (version b) (metadata b)). by rewrite norm_lookup.
Qed.
Lemma mixed_carried a bp sb b b' i : mixed a false bp sb b b' -> 0 <= i < 4096 ->
  state b' i = carried (version b) (if decide (selected a false (abs_pos bp i)) then sb else b) i.
Proof.
  intros M Hi. destruct (mixed_version _ _ _ _ _ M) as [Hv _]. destruct M as (_ & _ & _ & HN). specialize (HN i Hi).
  rewrite <-carried_own, <-Hv. unfold carried. case_decide; destruct HN as (-> & -> & -> & ->); done.
Qed.
Lemma mixed_twice a1 a2 bp s1 s2 b b1 b12 b2 b21 : (forall p, selected a1 false p -> ~ selected a2 false p) ->
  mixed a1 false bp s1 b b1 -> mixed a2 false bp s2 b1 b12 -> mixed a2 false bp s2 b b2 -> mixed a1 false bp s1 b2 b21 -> alike b12 b21.
Proof.
  intros Hdis M1 M12 M2 M21.
  destruct (mixed_version _ _ _ _ _ M1) as [V1 _]. destruct (mixed_version _ _ _ _ _ M2) as [V2 _].
  destruct (rest_parts _ _ (proj1 M1)) as (P1 & P2 & P3 & P4). destruct (rest_parts _ _ (proj1 M12)) as (Q1 & Q2 & Q3 & Q4).
  destruct (rest_parts _ _ (proj1 M2)) as (R1 & R2 & R3 & R4). destruct (rest_parts _ _ (proj1 M21)) as (T1 & T2 & T3 & T4).
  cbn in P1, P2, P3, Q1, Q2, Q3, R1, R2, R3, T1, T2, T3.
  apply state_alike; [done|done|congruence|congruence|congruence|].
  intros i Hi. pose proof (mixed_carried _ _ _ _ _ i M1 Hi) as S1. pose proof (mixed_carried _ _ _ _ _ i M2 Hi) as S2.
  rewrite (mixed_carried _ _ _ _ _ i M12 Hi), (mixed_carried _ _ _ _ _ i M21 Hi).
  destruct (decide (selected a1 false (abs_pos bp i))) as [H1|H1]; destruct (decide (selected a2 false (abs_pos bp i))) as [H2|H2].
  - by destruct (Hdis _ H1).
  - by rewrite carried_own, S1, V2.
  - by rewrite carried_own, S2, V1.
  - by rewrite !carried_own, S1, S2.
Qed.

(** What a run makes of a key: the input map may have nothing there *)
Definition overlaid_key (E : ext) (a : option area) (inv : bool) (bp : vec3) (x old new : option bytes) : Prop :=
  match x with None => new = old | Some x => overlaid E a inv bp x old new end.
Lemma key_none E a inv bp x old new : none a inv bp -> overlaid_key E a inv bp x old new -> new = old.
Proof. intros H. destruct x; [|done]. intros (_ & _ & Hn & _). by apply Hn. Qed.
Lemma key_same E a inv bp x old new1 new2 : key_range bp -> area_ok a ->
  overlaid_key E a inv bp x old new1 -> overlaid_key E a inv bp x old new2 -> same_data E new1 new2.
Proof.
  intros Hk Ha. destruct x as [x|]; [|intros -> ->; by apply same_data_eq]. by apply overlaid_same.
Qed.
Lemma area_cases a inv bp : key_range bp -> area_ok a -> whole a inv bp \/ none a inv bp \/ ~ whole a inv bp /\ ~ none a inv bp.
Proof.
  intros Hk Ha. destruct (decide (wholeb a inv bp = true)) as [Hw|Hw]; [left; by apply wholeb_iff in Hw|].
  apply not_true_is_false in Hw. apply wholeb_false in Hw; [|done..]. right.
  destruct (decide (visitb a inv bp = true)) as [Hv|Hv].
  - right. split; [done|]. apply visitb_iff in Hv as (q & Hq & Hqs). intros Hnn. by apply (Hnn q).
  - left. intros q Hq Hqs; apply Hv, visitb_iff; by exists q.
Qed.
Lemma claims_mixed E a bp sb b b' y z : ext_ok E -> deserialize E y = Ok b -> deserialize E z = Ok b' -> mixed a false bp sb b b' ->
  claims_generated E y <-> claims_generated E z.
Proof. intros HE Hy Hz M. rewrite (claims_flags E y b HE Hy), (claims_flags E z b' HE Hz). by rewrite (proj2 (mixed_version _ _ _ _ _ M)). Qed.

Lemma overlaid_apart E a1 a2 bp x1 x2 old n1 n12 n2 n21 : ext_ok E -> key_range bp -> area_ok a1 -> area_ok a2 ->
  (forall p, selected a1 false p -> ~ selected a2 false p) ->
  overlaid_key E a1 false bp x1 old n1 -> overlaid_key E a2 false bp x2 n1 n12 ->
  overlaid_key E a2 false bp x2 old n2 -> overlaid_key E a1 false bp x1 n2 n21 -> same_data E n12 n21.
Proof.
  intros HE Hk Ha1 Ha2 Hdis O1 O12 O2 O21.
  assert (n1 = old -> n21 = n2 -> same_data E n12 n21) as Idle1 by (intros -> ->; exact (key_same _ _ _ _ _ _ _ _ Hk Ha2 O12 O2)).
  assert (n2 = old -> n12 = n1 -> same_data E n12 n21) as Idle2 by (intros -> ->; exact (key_same _ _ _ _ _ _ _ _ Hk Ha1 O1 O21)).
  destruct (area_cases a1 false bp Hk Ha1) as [W1|[N1|[W1 N1]]].
  { assert (none a2 false bp) as N2 by (intros q Hq; apply Hdis; by apply W1). apply Idle2; [exact (key_none _ _ _ _ _ _ _ N2 O2)|exact (key_none _ _ _ _ _ _ _ N2 O12)]. }
  { apply Idle1; [exact (key_none _ _ _ _ _ _ _ N1 O1)|exact (key_none _ _ _ _ _ _ _ N1 O21)]. }
  destruct (area_cases a2 false bp Hk Ha2) as [W2|[N2|[W2 N2]]].
  { assert (none a1 false bp) as N1' by (intros q Hq Hs; exact (Hdis q Hs (W2 q Hq))). by destruct N1. }
  { apply Idle2; [exact (key_none _ _ _ _ _ _ _ N2 O2)|exact (key_none _ _ _ _ _ _ _ N2 O12)]. }
  destruct x1 as [x1|]; [|by apply Idle1]. destruct x2 as [x2|]; [|by apply Idle2].
  pose proof (proj2 (proj2 (proj2 O1)) W1 N1) as P1. pose proof (proj2 (proj2 (proj2 O2)) W2 N2) as P2.
  pose proof (proj2 (proj2 (proj2 O12)) W2 N2) as P12. pose proof (proj2 (proj2 (proj2 O21)) W1 N1) as P21.
  destruct old as [y|]; [|subst n1 n2; subst; by apply same_data_eq].
  destruct P1 as [U1 P1]. destruct P2 as [U2 P2].
  destruct (decide (claims_generated E y)) as [Hcl|Hcl].
  2:{ rewrite (U1 Hcl) in P12. rewrite (U2 Hcl) in P21. destruct P12 as [U12 _]. destruct P21 as [U21 _]. apply same_data_eq. by rewrite U12, U21. }
  specialize (P1 Hcl). specialize (P2 Hcl).
  destruct (deserialize E y) as [b|] eqn:Ey.
  2:{ assert (n1 = Some y) as -> by (by destruct (deserialize E x1)). assert (n2 = Some y) as -> by (by destruct (deserialize E x2)).
      destruct P12 as [_ P12]. destruct P21 as [_ P21]. specialize (P12 Hcl). specialize (P21 Hcl). rewrite Ey in P12, P21.
      apply same_data_eq. destruct (deserialize E x1), (deserialize E x2); congruence. }
  destruct (deserialize E x1) as [s1|] eqn:E1.
  2:{ apply Idle1; [done|]. destruct n2 as [z|]; [|done]. destruct P21 as [U21 P21].
      destruct (decide (claims_generated E z)) as [Hz|Hz]; [|by apply U21]. by apply P21. }
  destruct (deserialize E x2) as [s2|] eqn:E2.
  2:{ apply Idle2; [done|]. destruct n1 as [z|]; [|done]. destruct P12 as [U12 P12].
      destruct (decide (claims_generated E z)) as [Hz|Hz]; [|by apply U12]. by apply P12. }
  destruct P1 as (z1 & b1 & -> & D1 & M1). destruct P2 as (z2 & b2 & -> & D2 & M2).
  destruct P12 as [_ P12]. destruct P21 as [_ P21].
  specialize (P12 (proj1 (claims_mixed E _ _ _ _ _ _ _ HE Ey D1 M1) Hcl)). specialize (P21 (proj1 (claims_mixed E _ _ _ _ _ _ _ HE Ey D2 M2) Hcl)).
  rewrite D1 in P12. rewrite D2 in P21.
  destruct P12 as (z12 & b12 & -> & D12 & M12). destruct P21 as (z21 & b21 & -> & D21 & M21).
  right. exists b12, b21. split; [done|]. split; [done|].
  by apply (mixed_twice a1 a2 bp s1 s2 b b1 b12 b2 b21).
Qed.

Lemma overlays_apart E W1 W2 W3 W4 c1 c2 main i1 i2 n : fair E W1 c1 i1 -> fair E W2 c2 i2 -> fair E W3 c2 i2 -> fair E W4 c1 i1 ->
  keys_ok main -> 4095 <= n <= 7280 -> blocks E main (healthy n) ->
  blocks E i1 (healthy n) -> blocks E i2 (healthy n) ->
  separate_overlays c1 c2 ->
  exists m12 m21, after E W1 W2 c1 c2 main i1 i2 m12 /\ after E W3 W4 c2 c1 main i2 i1 m21 /\ same_contents E m12 m21.
Proof.
  intros F1 F2 F3 F4 Hk Hn Hb Hb1 Hb2 (C1 & C2 & Z1 & Z2 & I1 & I2 & Hdis).
  assert (growth c1 = 0) as G1 by (unfold growth; by rewrite C1). assert (growth c2 = 0) as G2 by (unfold growth; by rewrite C2).
  assert (forall W c m i, fair E W c i -> keys_ok m -> blocks E m (healthy n) -> blocks E i (healthy n) ->
    acmd c = COverlay -> default (V3 0 0 0) (offset c) = V3 0 0 0 -> invert c = false ->
    exists m' l, run_ok E c W m i m' l /\ keys_ok m' /\ blocks E m' (healthy n) /\
      (forall k, i !! k = None -> m' !! k = m !! k) /\
      forall k bp, block_at k bp -> overlaid_key E (aarea c) false bp (i !! k) (m !! k) (m' !! k)) as Step.
  { intros W c m i F K B Bi C Z I.
    destruct (overlay_run E W c m i from_block_key) as (m' & f & Run & _ & N & O); try done; [by eapply fair_setting|by apply F| |].
    { apply (healthy_roomy E c m i n); try done. lia. }
    eexists m', _. split; [exact Run|].
    destruct (run_next E W c m i n F K Hn B (fun _ => Bi)) as (m2 & l2 & Run2 & _ & K' & B').
    destruct (run_ok_fun _ _ _ _ _ _ _ _ _ Run Run2) as [<- _].
    assert (growth c = 0) as G by (unfold growth; by rewrite C). rewrite G, Z.add_0_r in B'. do 2 (split; [done|]).
    split; [done|]. intros k bp Hbp. unfold overlaid_key. destruct (i !! k) as [x|] eqn:Hx; [|by apply N]. rewrite <-I. by apply O. }
  destruct (Step W1 c1 main i1) as (m1 & l1 & Run1 & K1 & B1 & N1 & O1); [done..|].
  destruct (Step W3 c2 main i2) as (m2 & l2 & Run2 & K2 & B2 & N2 & O2); [done..|].
  destruct (Step W2 c2 m1 i2) as (m12 & l12 & Run12 & _ & _ & N12 & O12); [done..|].
  destruct (Step W4 c1 m2 i1) as (m21 & l21 & Run21 & _ & _ & N21 & O21); [done..|].
  exists m12, m21. split; [exists m1, l1, l12; split; [exact Run1|exact Run12]|]. split; [exists m2, l2, l21; split; [exact Run2|exact Run21]|].
  intros k. change (same_data E (m12 !! k) (m21 !! k)).
  assert ((exists bp, block_at k bp) \/ i1 !! k = None /\ i2 !! k = None) as [[bp Hbp]|[H1 H2]].
  { destruct (i1 !! k) eqn:H1; [left; apply (fair_input _ _ _ _ F1); by eexists|].
    destruct (i2 !! k) eqn:H2; [left; apply (fair_input _ _ _ _ F2); by eexists|]. by right. }
  2:{ apply same_data_eq. by rewrite (N12 k H2), (N1 k H1), (N21 k H1), (N2 k H2). }
  eapply (overlaid_apart E (aarea c1) (aarea c2) bp (i1 !! k) (i2 !! k) (main !! k) (m1 !! k) (m12 !! k) (m2 !! k) (m21 !! k)).
  - by apply F1.
  - apply Hbp.
  - by apply (area_ok_args c1 (fair_supplied _ _ _ _ F1) (fair_legal _ _ _ _ F1)).
  - by apply (area_ok_args c2 (fair_supplied _ _ _ _ F2) (fair_legal _ _ _ _ F2)).
  - unfold disjoint_areas in Hdis. by rewrite I1, I2 in Hdis.
  - by apply O1.
  - by apply O12.
  - by apply O2.
  - by apply O21.
Qed.

(** ** Copies of copies *)
Lemma import_new v v1 s : 28 <= v1 -> import v (import v1 s) = import v s.
Proof.
  intros Hv. unfold import. cbn. f_equal. destruct (st_meta s) as [m|]; [|done]. cbn. unfold kept. case_decide as Hb; [done|]. cbn.
  rewrite (proj2 (Z.leb_le 28 v1) Hv). by rewrite decide_False.
Qed.
Lemma import_new_state v b i : 28 <= v -> import v (state b i) = state b i.
Proof.
  intros Hv. unfold import. destruct (state b i) as [nm p1 p2 mt] eqn:Es. cbn. f_equal. destruct mt as [m|]; [|done]. cbn. unfold kept.
  rewrite decide_False; [by rewrite (proj2 (Z.leb_le 28 v) Hv)|]. apply (state_filled b i). by rewrite Es.
Qed.
Lemma minus_plus q o1 o2 : minus (plus q (plus o1 o2)) (plus o1 o2) = q.
Proof. destruct q, o1, o2. unfold minus, plus. cbn. f_equal; lia. Qed.
Lemma minus_half q o1 o2 : minus (plus q (plus o1 o2)) o2 = plus q o1.
Proof. destruct q, o1, o2. unfold minus, plus. cbn. f_equal; lia. Qed.
Lemma minus_last q o : minus (plus q o) o = q.
Proof. destruct q, o. unfold minus, plus. cbn. f_equal; lia. Qed.

Lemma copy_chain E W W1 W2 c1 c2 c main input n : fair E W1 c1 input -> fair E W2 c2 input -> fair E W c input ->
  keys_ok main -> 4095 <= n <= 7280 -> blocks E main (healthy n) -> blocks E main (fun b => 28 <= version b) ->
  copying c1 -> acmd c2 = CClone -> copying c -> (acmd c1 = COverlay -> blocks E input (healthy n) /\ blocks E input no_early_private) ->
  in_one_go c1 c2 c ->
  exists m l m12, run_ok E c W main input m l /\ after E W1 W2 c1 c2 main input input m12 /\
    forall p o1 q, selected (aarea c1) false p -> offset c1 = Some o1 -> minus q (default (V3 0 0 0) (offset c)) = p ->
      (exists sb j, found E (copied_map c1 main input) p sb j) -> (exists mb j, found E main (plus p o1) mb j) ->
      forall b i, found E m q b i -> exists b12, found E m12 q b12 i /\ state b12 i = state b i.
Proof.
  intros F1 F2 F Hk Hn Hb Hnew C1 C2 C Hi (o1 & o2 & E1 & E2 & Eo & Ec & Ea & Hsel).
  assert (copying c2) as C2' by (by left).
  assert (blocks E main no_early_private) as Hs.
  { intros k x b Hx Hd Hv. pose proof (Hnew k x b Hx Hd) as H. cbv beta in H. lia. }
  assert (acmd c = COverlay -> blocks E input (healthy n) /\ blocks E input no_early_private) as Hi' by (by rewrite Ec).
  destruct (copying_landed E W c main input n) as (m & l & f & _ & Run & La); [done|done|lia|done..|].
  destruct (copying_landed E W1 c1 main input n) as (m1 & l1 & f1 & _ & Run1 & L1a); [done|done|lia|done..|].
  destruct (store_next E W1 c1 main input n m1 l1 F1 Hk Hn Hb Hs Hi (or_intror (copying_command _ C1)) Run1) as (K1 & B1 & S1).
  rewrite place_growth, Z.add_0_r in B1 by done.
  destruct (copying_landed E W2 c2 m1 input n) as (m12 & l12 & f12 & _ & Run12 & L12a); [done|done|lia|done..|by rewrite C2|].
  exists m, l, m12. split; [exact Run|]. split; [exists m1, l1, l12; split; [exact Run1|exact Run12]|].
  rewrite Eo. cbn [default]. intros p o1' q Hp Eo1 Hq (sb & sj & Hfs) (mb & mj & Hfm) b i Hf.
  rewrite E1 in Eo1. injection Eo1 as <-.
  assert (q = plus p (plus o1 o2)) as -> by (subst p; destruct q, o1, o2; unfold plus, minus; cbn; f_equal; lia). clear Hq.
  destruct Hf as (bp & Hw & (k & y & Hbp & Hy & Hd & Hg) & Hii & Hpos).
  destruct (main !! k) as [x|] eqn:Hx; [|by rewrite (proj1 La k Hx) in Hy].
  destruct (proj2 La k bp x Hbp Hx) as (y' & Hy' & H). assert (y' = y) as -> by congruence.
  destruct (proj2 L1a k bp x Hbp Hx) as (y1 & Hy1 & H1). destruct (proj2 L12a k bp y1 Hbp Hy1) as (y12 & Hy12 & H12).
  destruct (deserialize E x) as [b0|] eqn:Ex; [|congruence].
  destruct H as (b' & Hd' & L). assert (b' = b) as -> by congruence.
  destruct H1 as (b1 & Hd1 & L1). rewrite Hd1 in H12. destruct H12 as (b12 & Hd12 & L12).
  pose proof (shell_version _ _ (land_shell _ _ _ _ _ _ _ L)) as [V Fl]. pose proof (shell_version _ _ (land_shell _ _ _ _ _ _ _ L1)) as [V1 Fl1].
  pose proof (shell_version _ _ (land_shell _ _ _ _ _ _ _ L12)) as [V12 Fl12].
  assert (~ not_generated b0) as Hg0 by (unfold not_generated in *; by rewrite <-Fl).
  assert (~ not_generated b1) as Hg1 by (unfold not_generated in *; by rewrite Fl1).
  rewrite Eo in L. rewrite E1 in L1, L1a. rewrite E2 in L12. cbn [default] in *.
  exists b12. split.
  { exists bp. split; [done|]. split; [|done]. exists k, y12. split; [done|]. split; [done|]. split; [done|]. unfold not_generated in *. by rewrite Fl12. }
  change (copied_map c1 main input) with (source c1 main input) in Hfs.
  assert (source c main input = source c1 main input) as Hsrc by (unfold source; by rewrite Ec).
  rewrite (land_found _ _ _ _ _ _ _ L Hg0 i sb sj Hii); [|rewrite Hpos, minus_plus, Ea; exact Hp|rewrite Hpos, minus_plus, Hsrc; exact Hfs].
  destruct (found_forth E main m1 _ _ mb mj (fun bp b b1 => land_shell E (source c1 main input) (aarea c1) o1 bp b b1) L1a Hfm) as (bp' & mb1 & Hfm1 & Hmj & Hmp & LM).
  assert (~ not_generated mb) as Hgm by (destruct Hfm as (? & _ & (? & ? & _ & _ & _ & ?) & _); done).
  assert (28 <= version mb) as Hvm by (destruct Hfm as (? & _ & (km & xm & _ & Hxm & Hdm & _) & _); exact (Hnew km xm mb Hxm Hdm)).
  assert (source c2 m1 input = m1) as Hsrc2 by (unfold source; by rewrite C2).
  rewrite (land_found _ _ _ _ _ _ _ L12 Hg1 i mb1 mj Hii); [|rewrite Hpos, minus_half; by apply Hsel|rewrite Hpos, minus_half, Hsrc2; exact Hfm1].
  rewrite (land_found _ _ _ _ _ _ _ LM Hgm mj sb sj Hmj); [|rewrite Hmp, minus_last; exact Hp|rewrite Hmp, minus_last; exact Hfs].
  rewrite import_new by done. by rewrite V1.
Qed.
