(** Proofs about runs on maps with the same contents *)
From Verif Require Import CodecProofs BlockProofs UtilsProofs QueryProofs EditProofs NodeProofs MetaProofs ObjProofs InvProofs WholeProofs SpatialProofs ArgProofs MapProofs MixProofs
  ThreadProofs FragProofs CopyProofs CopyRun OverlayRun ToyRun CmdFacts SpecNodes KeepProofs OrderProofs AgainProofs LocalProofs RestoreProofs SpecCong SpecAgain SpecLocal Spec.

(** ** Blocks *)
Lemma alike_refl b : alike b b.
Proof. split; [|done]. unfold same_but_nodes. by destruct b. Qed.
Lemma alike_sym b1 b2 : alike b1 b2 -> alike b2 b1.
Proof.
  intros [H1 H2]. split.
  - unfold same_but_nodes in *. rewrite H1. by destruct b1.
  - intros i Hi. destruct (H2 i Hi) as (? & ? & ?). done.
Qed.
Lemma alike_trans b1 b2 b3 : alike b1 b2 -> alike b2 b3 -> alike b1 b3.
Proof.
  intros [H1 H2] [H3 H4]. split.
  - unfold same_but_nodes in *. rewrite H3, H1. by destruct b1.
  - intros i Hi. destruct (H2 i Hi) as (? & ? & ?). destruct (H4 i Hi) as (? & ? & ?). repeat split; congruence.
Qed.
Lemma alike_state b1 b2 i : alike b1 b2 -> 0 <= i < 4096 -> state b1 i = state b2 i.
Proof.
  intros [H1 H2] Hi. destruct (H2 i Hi) as (? & ? & ?). unfold state.
  assert (metadata (norm b2) = metadata (norm b1)) as Hm by (rewrite H1; done). by f_equal; [..|rewrite Hm].
Qed.
Lemma alike_shell b1 b2 : alike b1 b2 -> shell b1 = shell b2 /\ timers b1 = timers b2 /\ objects b1 = objects b2.
Proof.
  intros [H1 _]. split; [|split].
  - rewrite <-(shell_norm b2), H1. symmetry. apply (shell_norm b1).
  - exact (eq_sym (f_equal timers H1)).
  - exact (eq_sym (f_equal objects H1)).
Qed.
Lemma alike_meta b1 b2 : storable b1 -> storable b2 -> alike b1 b2 -> metadata b1 = metadata b2.
Proof. intros S1 S2 [H1 _]. unfold storable, same_but_nodes in *. rewrite S1, S2 in H1. by rewrite H1. Qed.
Lemma alike_chosen a inv names bp b1 b2 i : alike b1 b2 -> 0 <= i < 4096 -> chosen a inv names bp b1 i <-> chosen a inv names bp b2 i.
Proof. intros [_ H] Hi. unfold chosen. by rewrite (proj1 (H i Hi)). Qed.
Lemma alike_generated b1 b2 : alike b1 b2 -> not_generated b1 <-> not_generated b2.
Proof. intros H. unfold not_generated. by rewrite (proj2 (shell_version _ _ (proj1 (alike_shell _ _ H)))). Qed.

(** ** Maps *)
Definition same_data (E : ext) (o1 o2 : option bytes) : Prop :=
  match o1, o2 with
  | None, None => True
  | Some y1, Some y2 => y1 = y2 \/ exists b1 b2, deserialize E y1 = Ok b1 /\ deserialize E y2 = Ok b2 /\ alike b1 b2
  | _, _ => False
  end.
Lemma same_data_eq E o1 o2 : o1 = o2 -> same_data E o1 o2.
Proof. intros <-. destruct o1; [by left|done]. Qed.
Lemma contents_refl E m : same_contents E m m.
Proof. intros k. by apply same_data_eq. Qed.
Lemma contents_sym E m1 m2 : same_contents E m1 m2 -> same_contents E m2 m1.
Proof.
  intros H k. specialize (H k). destruct (m1 !! k), (m2 !! k); try done. destruct H as [->|(b1 & b2 & ? & ? & ?)]; [by left|].
  right. exists b2, b1. split; [done|]. split; [done|]. by apply alike_sym.
Qed.
Lemma contents_trans E m1 m2 m3 : same_contents E m1 m2 -> same_contents E m2 m3 -> same_contents E m1 m3.
Proof.
  intros H1 H2 k. specialize (H1 k). specialize (H2 k). destruct (m1 !! k), (m2 !! k), (m3 !! k); try done.
  destruct H1 as [->|(b1 & b2 & ? & ? & ?)]; [done|].
  destruct H2 as [<-|(b2' & b3 & Hd & ? & ?)]; [right; by exists b1, b2|]. right. exists b1, b3. split; [done|]. split; [done|].
  assert (b2' = b2) as -> by congruence. by eapply alike_trans.
Qed.

Section pair.
  Context (E : ext) (m1 m2 : mapdata) (Hsame : same_contents E m1 m2).

  Lemma pair_none k : m1 !! k = None -> m2 !! k = None.
  Proof. intros H. specialize (Hsame k). rewrite H in Hsame. by destruct (m2 !! k). Qed.
  Lemma pair_none' k : m2 !! k = None -> m1 !! k = None.
  Proof. intros H. specialize (Hsame k). rewrite H in Hsame. by destruct (m1 !! k). Qed.
  Lemma pair_some k x1 : m1 !! k = Some x1 -> exists x2, m2 !! k = Some x2 /\
    match deserialize E x1 with
    | Ok b1 => exists b2, deserialize E x2 = Ok b2 /\ alike b1 b2
    | Err _ => x2 = x1
    end.
  Proof.
    intros H. specialize (Hsame k). rewrite H in Hsame. destruct (m2 !! k) as [x2|]; [|done]. exists x2. split; [done|].
    destruct Hsame as [<-|(b1 & b2 & -> & D2 & Ha)]; [|by exists b2].
    destruct (deserialize E x1) as [b|]; [|done]. exists b. split; [done|]. apply alike_refl.
  Qed.
  Lemma pair_keys : keys_ok m1 -> keys_ok m2.
  Proof.
    intros Hk k [x Hx]. apply Hk. destruct (m1 !! k) eqn:H1; [by eexists|]. by rewrite (pair_none k H1) in Hx.
  Qed.

  Lemma pair_total pos f : (forall k x1 x2 b1 b2, m1 !! k = Some x1 -> m2 !! k = Some x2 ->
      deserialize E x1 = Ok b1 -> deserialize E x2 = Ok b2 -> alike b1 b2 -> f (pos k) b1 = f (pos k) b2) ->
    total E m1 pos f = total E m2 pos f.
  Proof.
    intros Hf. set (F := fun k x => match deserialize E x with Ok b => f (pos k) b | Err _ => 0 end).
    assert (forall m, total E m pos f = zsum snd (map_to_list (map_imap (fun k x => Some (F k x)) m))) as Ht.
    { intros m. unfold total. transitivity (zsum snd ((fun kx => (kx.1, F kx.1 kx.2)) <$> map_to_list m)).
      { induction (map_to_list m) as [|[k x] l IH]; [done|]. cbn. f_equal. exact IH. }
      apply zsum_perm. apply NoDup_Permutation.
      - apply (NoDup_fmap_1 fst). rewrite <-list_fmap_compose. apply NoDup_fst_map_to_list.
      - apply NoDup_map_to_list.
      - intros [k v]. rewrite elem_of_list_fmap, elem_of_map_to_list, map_lookup_imap. split.
        + intros ([k' x] & [= -> ->] & Hx%elem_of_map_to_list). by rewrite Hx.
        + intros Hv. destruct (m !! k) as [x|] eqn:Hx; [|done]. injection Hv as <-. exists (k, x). split; [done|].
          by apply elem_of_map_to_list. }
    rewrite !Ht. f_equal. f_equal. apply map_eq. intros k. rewrite !map_lookup_imap.
    destruct (m1 !! k) as [x1|] eqn:H1; [|by rewrite (pair_none k H1)].
    destruct (pair_some k x1 H1) as (x2 & H2 & Hr). rewrite H2. cbn. f_equal. unfold F.
    destruct (deserialize E x1) as [b1|] eqn:D1.
    - destruct Hr as (b2 & D2 & Ha). rewrite D2. by eapply Hf.
    - subst x2. by rewrite D1.
  Qed.
End pair.

Lemma len_same (l1 l2 : list Z) : NoDup l1 -> NoDup l2 -> (forall k, k ∈ l1 -> k ∈ l2) -> (forall k, k ∈ l2 -> k ∈ l1) ->
  length l1 = length l2.
Proof. intros H1 H2 H3 H4. apply Permutation_length, NoDup_Permutation; [done..|]. intros k. by split; [apply H3|apply H4]. Qed.

Lemma skipped_pair E m1 m2 a inv names n1 n2 : same_contents E m1 m2 ->
  skipped E m1 a inv names n1 -> skipped E m2 a inv names n2 -> n1 = n2.
Proof.
  intros Hs (l1 & N1 & -> & H1) (l2 & N2 & -> & H2). f_equal.
  assert (forall m m' k, same_contents E m m' ->
    (exists bp x e, block_at k bp /\ m !! k = Some x /\ visit a inv true bp /\ mentions names x /\ deserialize E x = Err e) ->
    exists bp x e, block_at k bp /\ m' !! k = Some x /\ visit a inv true bp /\ mentions names x /\ deserialize E x = Err e) as K.
  { intros m m' k Hmm (bp & x & e & ? & Hx & ? & ? & Hd). destruct (pair_some E m m' Hmm k x Hx) as (x' & Hx' & Hr).
    rewrite Hd in Hr. subst x'. by exists bp, x, e. }
  apply len_same; [done..| |]; intros k Hk%H1 || intros k Hk%H2; [apply H2|apply H1]; (eapply K; [|exact Hk]); [done|by apply contents_sym].
Qed.

(** ** Commands that edit in place *)
Lemma count_if_same (P Q : Z -> Prop) {HP : forall i, Decision (P i)} {HQ : forall i, Decision (Q i)} :
  (forall i, 0 <= i < 4096 -> P i <-> Q i) -> count_if P = count_if Q.
Proof.
  intros H. unfold count_if. do 2 f_equal. apply list_filter_iff_in. intros i Hi. apply H. apply elem_of_seqZ in Hi. lia.
Qed.
Lemma count_of_same {A} (P Q : A -> Prop) {HP : forall i, Decision (P i)} {HQ : forall i, Decision (Q i)} l :
  (forall x, x ∈ l -> P x <-> Q x) -> count_of P l = count_of Q l.
Proof. intros H. unfold count_of. do 2 f_equal. by apply list_filter_iff_in. Qed.
Lemma entries_same (P Q : Z -> node_meta -> Prop) {HP : forall i m, Decision (P i m)} {HQ : forall i m, Decision (Q i m)} md :
  (forall i m, md !! i = Some m -> P i m <-> Q i m) -> entries P md = entries Q md.
Proof. intros H. unfold entries. apply count_of_same. intros [i m] Hm%elem_of_map_to_list. by apply H. Qed.

(** Maps with the same contents, without contradictions. *)
Record cong (E : ext) (n : Z) (m1 m2 : mapdata) : Prop := {
  cg_same : same_contents E m1 m2;
  cg_h1 : blocks E m1 (healthy n);
  cg_h2 : blocks E m2 (healthy n);
  cg_s1 : blocks E m1 storable;
  cg_s2 : blocks E m2 storable }.

Lemma cong_meta E n m1 m2 k x1 x2 b1 b2 : cong E n m1 m2 -> m1 !! k = Some x1 -> m2 !! k = Some x2 ->
  deserialize E x1 = Ok b1 -> deserialize E x2 = Ok b2 -> alike b1 b2 -> metadata b1 = metadata b2 /\
  (forall i m, metadata b2 !! i = Some m -> 0 <= i < 4096) /\ (forall t, t ∈ timers b2 -> 0 <= tpos t < 4096).
Proof.
  intros [_ H1 H2 S1 S2] ? ? ? ? Ha. split; [apply alike_meta; [by eapply S1|by eapply S2|done]|].
  assert (sound n b2) as Hs by (by eapply H2). split.
  - intros i m Hm. by eapply (sound_meta n b2 Hs).
  - intros t Ht. pose proof (sound_timers n b2 Hs) as Hti. unfold timers_in in Hti. rewrite Forall_forall in Hti. by apply Hti.
Qed.

Definition msgs_as (E : ext) (g : args) (msg_of : mapdata -> msg) : Prop :=
  forall n m1 m2, cong E n m1 m2 -> msg_of m1 = msg_of m2.

Lemma place_known E g W0 input0 : fair E W0 g input0 -> in_place (acmd g) = true ->
  exists names msg_of u R, msgs_as E g msg_of /\ forall input, runs_as E g input names msg_of u R.
Proof.
  intros F1 Hin. pose proof (fair_supplied _ _ _ _ F1) as [_ Hs].
  assert (forall m k c, k <= c -> blocks E m (healthy k) -> blocks E m (sound c)) as Hsound.
  { intros m k c Hc Hm q x b Hx Hd. apply (sound_mono k); [lia|]. by eapply Hm. }
  assert (forall m k, blocks E m (healthy k) -> blocks E m meta_in /\ blocks E m timers_in /\ blocks E m unique_names) as Hparts.
  { intros m k Hm. split; [|split]; intros q x b Hx Hd; [apply (sound_meta k)|apply (sound_timers k)|]; by eapply Hm. }
  destruct (acmd g) eqn:Hc; try done.
  - (* deletemeta *)
    eexists _, (fun m => MMeta (total E m from_block_key (fun bp b =>
      entries (fun i _ => chosen (aarea g) (invert g) (to_slice (anode g)) bp b i) (metadata b)))), _, _. split.
    + intros n m1 m2 C. f_equal. apply pair_total; [apply C|]. intros k x1 x2 b1 b2 ? ? ? ? Ha.
      destruct (cong_meta E n m1 m2 k x1 x2 b1 b2 C) as (-> & Hm & _); try done. apply entries_same. intros i m Him.
      apply alike_chosen; [done|]. by eapply Hm.
    + intros input W m k HF Hkm Hkr Hbm. destruct (Hparts m k Hbm) as (? & ? & ?). apply delmeta_run; try done. by eapply fair_setting.
  - (* deleteobjects *)
    eexists _, (fun m => MObjects (total E m from_block_key (fun bp b => count_of (fun o => cdel g bp o = true) (objects b)))), _, _. split.
    + intros n m1 m2 C. f_equal. apply pair_total; [apply C|]. intros k x1 x2 b1 b2 ? ? ? ? Ha.
      by destruct (alike_shell _ _ Ha) as (_ & _ & ->).
    + intros input W m k HF Hkm Hkr Hbm. apply delobj_fn; [by eapply fair_setting|done].
  - (* deletetimers *)
    eexists _, (fun m => MTimers (total E m from_block_key (fun bp b =>
      count_of (fun t => chosen (aarea g) (invert g) (to_slice (anode g)) bp b (tpos t)) (timers b)))), _, _. split.
    + intros n m1 m2 C. f_equal. apply pair_total; [apply C|]. intros k x1 x2 b1 b2 ? ? ? ? Ha.
      destruct (cong_meta E n m1 m2 k x1 x2 b1 b2 C) as (_ & _ & Ht); try done.
      destruct (alike_shell _ _ Ha) as (_ & -> & _). apply count_of_same. intros t Htb.
      apply alike_chosen; [done|]. by apply Ht.
    + intros input W m k HF Hkm Hkr Hbm. destruct (Hparts m k Hbm) as (? & ? & ?). apply deltimers_run; try done. by eapply fair_setting.
  - (* fill *)
    destruct Hs as [[a Ea] [node Eo]].
    eexists _, (fun m => MFilled (total E m from_block_key (fun bp _ => fill_count (Some a) (invert g) bp))), _, _. split.
    + intros n m1 m2 C. f_equal. apply pair_total; [apply C|]. done.
    + intros input W m k HF Hkm Hkr Hbm. apply fill_run; try done; [by eapply fair_setting|by apply HF|].
      apply (Hsound m k); [lia|done].
  - (* replacenodes *)
    destruct Hs as [[old Ea] [new Eo]].
    eexists _, (fun m => MReplaced (total E m from_block_key (fun bp b => count_if (chosen (aarea g) (invert g) [old] bp b)))), _, _. split.
    + intros n m1 m2 C. f_equal. apply pair_total; [apply C|]. intros k x1 x2 b1 b2 ? ? ? ? Ha.
      apply count_if_same. intros i Hi. by apply alike_chosen.
    + intros input W m k HF Hkm Hkr Hbm. destruct (Hparts m k Hbm) as (? & ? & ?).
      apply replace_run; try done; [by eapply fair_setting|by apply HF|]. apply (Hsound m k); [lia|done].
  - (* replaceininv *)
    destruct Hs as [item Ei].
    eexists _, (fun m => MStacks
      (total E m from_block_key (fun bp b => zsum (fun e => if decide (chosen (aarea g) (invert g) (anodes g) bp b e.1) then stacks item (inv e.2) else 0)
                         (map_to_list (metadata b))) mod 18446744073709551616)
      (total E m from_block_key (fun bp b => entries (fun i m => chosen (aarea g) (invert g) (anodes g) bp b i /\ 0 < stacks item (inv m)) (metadata b)))), _, _. split.
    + intros n m1 m2 C. f_equal; [f_equal|]; (apply pair_total; [apply C|]; intros k x1 x2 b1 b2 ? ? ? ? Ha;
        destruct (cong_meta E n m1 m2 k x1 x2 b1 b2 C) as (-> & Hm & _); try done).
      * apply zsum_ext. intros [i m] Him%elem_of_map_to_list. cbn [fst snd].
        pose proof (alike_chosen (aarea g) (invert g) (anodes g) (from_block_key k) b1 b2 i Ha (Hm i m Him)) as Hch.
        do 2 case_decide; tauto.
      * apply entries_same. intros i m Him. rewrite (alike_chosen _ _ _ _ b1 b2 i Ha) by (by eapply Hm). done.
    + intros input W m k HF Hkm Hkr Hbm. destruct (Hparts m k Hbm) as (? & ? & ?). apply replinv_run; try done; [by eapply fair_setting| |].
      * intros n Hn. apply (fair_tame _ _ _ _ HF). destruct (adelete g); [done|]. destruct (new_item g); naive_solver.
      * intros q bp x b i e _ Hx Hd He _. by eapply (hl_inv k); [eapply Hbm|].
  - (* setmetavar *)
    destruct Hs as [key Ek].
    eexists _, (fun m => MVars (total E m from_block_key (fun bp b =>
      entries (fun i m => chosen (aarea g) (invert g) (anodes g) bp b i /\ is_Some (vars m !! key)) (metadata b)))), _, _. split.
    + intros n m1 m2 C. f_equal. apply pair_total; [apply C|]. intros k x1 x2 b1 b2 ? ? ? ? Ha.
      destruct (cong_meta E n m1 m2 k x1 x2 b1 b2 C) as (-> & Hm & _); try done. apply entries_same. intros i m Him.
      rewrite (alike_chosen _ _ _ _ b1 b2 i Ha) by (by eapply Hm). done.
    + intros input W m k HF Hkm Hkr Hbm. destruct (Hparts m k Hbm) as (? & ? & ?). apply setvar_run; try done; [by eapply fair_setting|by apply HF].
  - (* setparam2 *)
    destruct (fair_param2 _ _ _ _ F1 Hc) as [v Ev].
    eexists _, (fun m => MParam2 (total E m from_block_key (fun bp b =>
      count_if (chosen (aarea g) (invert g) (to_slice (anode g)) bp b)))), _, _. split.
    + intros n m1 m2 C. f_equal. apply pair_total; [apply C|]. intros k x1 x2 b1 b2 ? ? ? ? Ha.
      apply count_if_same. intros i Hi. by apply alike_chosen.
    + intros input W m k HF Hkm Hkr Hbm. destruct (Hparts m k Hbm) as (? & ? & ?). apply param2_run; try done. by eapply fair_setting.
Qed.

Lemma acted_pair g d bp n b1 b2 b1' b2' : sound n b1 -> sound n b2 -> alike b1 b2 ->
  acted g d bp b1 b1' -> acted g d bp b2 b2' -> alike b1' b2'.
Proof.
  intros S1 S2 Ha A1 A2. destruct (alike_shell _ _ Ha) as (Hs & Ht & Ho).
  eapply acted_alike; [exact A1|exact A2|by apply (sound_meta n)|by apply (sound_meta n)|..].
  - by rewrite (acted_shell _ _ _ _ _ A1), (acted_shell _ _ _ _ _ A2).
  - rewrite (acted_timers _ _ _ _ _ A1), (acted_timers _ _ _ _ _ A2), Ht. apply list_filter_iff_in. intros t Htm.
    pose proof (sound_timers n b2 S2) as Hti. unfold timers_in in Hti. rewrite Forall_forall in Hti.
    unfold stays. by rewrite (alike_state b1 b2 (tpos t) Ha (Hti t Htm)).
  - by rewrite (acted_objects _ _ _ _ _ A1), (acted_objects _ _ _ _ _ A2), Ho.
  - intros i Hi. rewrite (acted_nodes _ _ _ _ _ A1 i Hi), (acted_nodes _ _ _ _ _ A2 i Hi), (alike_state b1 b2 i Ha Hi). done.
Qed.

Lemma effect_storable E main main' u R : keys_ok main -> effect E main main' u R -> blocks E main storable -> blocks E main' storable.
Proof.
  intros Hk [Hno He] Hb k y b' Hy Hd. destruct (main !! k) as [x|] eqn:Hx; [|by rewrite (Hno k Hx) in Hy].
  destruct (Hk k ltac:(by eexists)) as [bp Hbp]. destruct (He k bp x Hbp Hx) as (y' & Hy' & H).
  assert (y' = y) as -> by congruence. destruct (deserialize E x) as [b|] eqn:Ex; [|congruence].
  destruct H as (Hu & b2 & Hd2 & [Hun|Hn] & _); [|assert (b2 = b') as <- by congruence; done].
  rewrite (Hu Hun) in Hd. assert (b = b') as -> by congruence. by eapply Hb.
Qed.

(** ** Copies *)
Lemma claims_pair E m1 m2 k x1 x2 : ext_ok E -> same_contents E m1 m2 -> m1 !! k = Some x1 -> m2 !! k = Some x2 ->
  claims_generated E x1 <-> claims_generated E x2.
Proof.
  intros HE Hs H1 H2. destruct (pair_some E m1 m2 Hs k x1 H1) as (x2' & H2' & Hr). assert (x2' = x2) as -> by congruence.
  destruct (deserialize E x1) as [b1|] eqn:D1; [|by subst x2]. destruct Hr as (b2 & D2 & Ha).
  by rewrite (claims_flags E x1 b1 HE D1), (claims_flags E x2 b2 HE D2), (alike_generated b1 b2 Ha).
Qed.

Lemma refused_pair E m1 m2 a off n1 n2 : same_contents E m1 m2 -> refused E m1 a off n1 -> refused E m2 a off n2 -> n1 = n2.
Proof.
  intros Hs (l1 & N1 & -> & H1) (l2 & N2 & -> & H2). f_equal.
  assert (forall (m m' : mapdata) k, same_contents E m m' ->
    (exists bp x e, block_at k bp /\ m !! k = Some x /\ target a off bp /\ claims_generated E x /\ deserialize E x = Err e) ->
    exists bp x e, block_at k bp /\ m' !! k = Some x /\ target a off bp /\ claims_generated E x /\ deserialize E x = Err e) as K.
  { intros m m' k Hmm (bp & x & e & ? & Hx & ? & ? & Hd). destruct (pair_some E m m' Hmm k x Hx) as (x' & Hx' & Hr).
    rewrite Hd in Hr. subst x'. by exists bp, x, e. }
  apply len_same; [done..| |]; intros k Hk%H1 || intros k Hk%H2; [apply H2|apply H1]; (eapply K; [|exact Hk]); [done|by apply contents_sym].
Qed.

Lemma unmixed_pair E m1 m2 s1 s2 a inv n1 n2 : ext_ok E -> same_contents E m1 m2 -> same_contents E s1 s2 ->
  unmixed E m1 s1 a inv n1 -> unmixed E m2 s2 a inv n2 -> n1 = n2.
Proof.
  intros HE Hm Hs (l1 & N1 & -> & H1) (l2 & N2 & -> & H2). f_equal.
  assert (forall (m m' s s' : mapdata) k, same_contents E m m' -> same_contents E s s' ->
    (exists bp x y, block_at k bp /\ s !! k = Some x /\ m !! k = Some y /\ ~ whole a inv bp /\ ~ none a inv bp /\
      claims_generated E y /\ ((exists e, deserialize E x = Err e) \/ exists e, deserialize E y = Err e)) ->
    exists bp x y, block_at k bp /\ s' !! k = Some x /\ m' !! k = Some y /\ ~ whole a inv bp /\ ~ none a inv bp /\
      claims_generated E y /\ ((exists e, deserialize E x = Err e) \/ exists e, deserialize E y = Err e)) as K.
  { intros m m' s s' k Hmm Hss (bp & x & y & ? & Hx & Hy & ? & ? & Hc & Hd).
    destruct (pair_some E s s' Hss k x Hx) as (x' & Hx' & Hrx). destruct (pair_some E m m' Hmm k y Hy) as (y' & Hy' & Hry).
    exists bp, x', y'. split; [done|]. split; [done|]. split; [done|]. split; [done|]. split; [done|].
    split; [by apply (claims_pair E m m' k y y')|].
    destruct Hd as [[e Hd]|[e Hd]]; [left|right]; [rewrite Hd in Hrx; subst x'|rewrite Hd in Hry; subst y']; by exists e. }
  apply len_same; [done..| |]; intros k Hk%H1 || intros k Hk%H2; [apply H2|apply H1]; (eapply K; [..|exact Hk]);
    try done; by apply contents_sym.
Qed.

Lemma node_pair b' i b1 b2 j : alike b1 b2 -> metadata b1 = metadata b2 -> 0 <= j < 4096 ->
  same_node b' i b1 j -> same_node b' i b2 j.
Proof.
  intros [_ Ha] Hm Hj (H1 & H2 & H3 & H4). destruct (Ha j Hj) as (A1 & A2 & A3). unfold same_node. rewrite <-Hm.
  repeat split; congruence.
Qed.

Lemma found_pair E n s1 s2 p b j : cong E n s1 s2 -> found E s1 p b j -> exists b2, found E s2 p b2 j /\
  alike b b2 /\ metadata b = metadata b2 /\ 0 <= j < 4096.
Proof.
  intros C (bp & Hw & (k & x & Hbp & Hx & Hd & Hg) & Hj & Hp).
  destruct (pair_some E s1 s2 (cg_same _ _ _ _ C) k x Hx) as (x2 & Hx2 & Hr). rewrite Hd in Hr. destruct Hr as (b2 & D2 & Ha).
  exists b2. split; [|split; [done|split; [|done]]].
  - exists bp. split; [done|]. split; [|done]. exists k, x2. split; [done|]. split; [done|]. split; [done|].
    by rewrite <-(alike_generated b b2 Ha).
  - apply alike_meta; [by eapply (cg_s1 _ _ _ _ C)|by eapply (cg_s2 _ _ _ _ C)|done].
Qed.
Lemma cong_sym E n m1 m2 : cong E n m1 m2 -> cong E n m2 m1.
Proof. intros []. split; try done. by apply contents_sym. Qed.

(** New blocks made of the same old ones *)
Lemma rest_alike c1 c2 b1 b2 : alike c1 c2 -> same_rest c1 b1 -> same_rest c2 b2 ->
  (forall i, 0 <= i < 4096 -> same_node b1 i b2 i) -> alike b1 b2.
Proof.
  intros Ha R1 R2 HN. destruct (rest_parts _ _ R1) as (A1 & A2 & A3 & A4). destruct (rest_parts _ _ R2) as (B1 & B2 & B3 & B4).
  destruct (alike_shell _ _ Ha) as (Hs & Ht & Ho).
  assert (shell b1 = shell b2) as Hsh by congruence.
  apply state_alike; try done; try congruence. intros i Hi. apply same_state; [by apply shell_version|]. by apply HN.
Qed.

Lemma pasted_pair E n s1 s2 a off bp b1 b2 b1' b2' : cong E n s1 s2 -> alike b1 b2 -> metadata b1 = metadata b2 ->
  pasted E s1 a off bp b1 b1' -> pasted E s2 a off bp b2 b2' -> alike b1' b2'.
Proof.
  intros C Ha Hm (R1 & _ & P1) (R2 & _ & P2). eapply rest_alike; [exact Ha|exact R1|exact R2|].
  assert (version b1' = version b2') as HV.
  { destruct (rest_parts _ _ R1) as (A1 & _). destruct (rest_parts _ _ R2) as (B1 & _).
    destruct (alike_shell _ _ Ha) as (Hs & _). apply (shell_version b1' b2'). congruence. }
  intros i Hi. apply dec_stable. intros Hno.
  destruct (P1 i Hi) as [G1 O1]. destruct (P2 i Hi) as [G2 O2]. set (p := minus (abs_pos bp i) off) in *.
  pose proof (fun c j => node_trans b2' b1' b2' i c j HV eq_refl) as Htr.
  assert (~ (selected a false p /\ exists sb j, found E s1 p sb j)) as Hn.
  { intros (Hs & sb & j & Hf). destruct (found_pair E n s1 s2 p sb j C Hf) as (sb2 & Hf2 & Hab & Hmb & Hj).
    apply Hno, (Htr sb2 j); [|by apply G2]. eapply node_pair; [exact Hab|done|done|]. by apply G1. }
  assert (~ (selected a false p /\ exists sb j, found E s2 p sb j)) as Hn2.
  { intros (Hs & sb & j & Hf). destruct (found_pair E n s2 s1 p sb j (cong_sym _ _ _ _ C) Hf) as (sb2 & Hf2 & _). apply Hn.
    split; [done|]. by exists sb2, j. }
  apply Hno, (Htr b2 i); [|by apply O2]. eapply node_pair; [exact Ha|done|done|]. by apply O1.
Qed.

Lemma mixed_pair a inv bp s1 s2 b1 b2 b1' b2' : alike s1 s2 -> metadata s1 = metadata s2 -> alike b1 b2 -> metadata b1 = metadata b2 ->
  mixed a inv bp s1 b1 b1' -> mixed a inv bp s2 b2 b2' -> alike b1' b2'.
Proof.
  intros As Ms Ab Mb (R1 & _ & _ & P1) (R2 & _ & _ & P2).
  assert (alike (if inv then s1 else b1) (if inv then s2 else b2)) as Ha by (by destruct inv).
  eapply rest_alike; [exact Ha|exact R1|exact R2|].
  assert (version b1' = version b2') as HV.
  { destruct (rest_parts _ _ R1) as (A1 & _). destruct (rest_parts _ _ R2) as (B1 & _).
    destruct (alike_shell _ _ Ha) as (Hs & _). apply (shell_version b1' b2'). congruence. }
  pose proof (fun i c j => node_trans b2' b1' b2' i c j HV eq_refl) as Htr.
  intros i Hi. specialize (P1 i Hi). specialize (P2 i Hi). case_decide.
  - apply (Htr i s2 i); [|done]. by eapply node_pair.
  - apply (Htr i b2 i); [|done]. by eapply node_pair.
Qed.

(** Both runs log the same and leave the same contents again. *)
Definition onward (E : ext) (g : args) (W1 W2 : world) (m1 m2 in1 in2 : mapdata) : Prop :=
  exists m1' m2' l, run_ok E g W1 m1 in1 m1' l /\ run_ok E g W2 m2 in2 m2' l /\ same_contents E m1' m2' /\
    blocks E m1' storable /\ blocks E m2' storable.

Section onward.
  Context (E : ext) (g : args) (W1 W2 : world) (m1 m2 in1 in2 : mapdata) (n : Z).
  Context (F1 : fair E W1 g in1) (F2 : fair E W2 g in2) (K1 : keys_ok m1) (Hn : 4095 <= n <= 7280) (C : cong E n m1 m2).

  Lemma place_cong : in_place (acmd g) = true -> onward E g W1 W2 m1 m2 in1 in2.
  Proof using F1 F2 K1 Hn C.
    intros Hin. pose proof (pair_keys E m1 m2 (cg_same _ _ _ _ C) K1) as K2.
    destruct (place_known E g W1 in1 F1 Hin) as (names & msg_of & u & R & Hmsg & HR).
    destruct (HR in1 W1 m1 n F1 K1 Hn (cg_h1 _ _ _ _ C)) as (m1' & f1 & Run1 & S1 & E1).
    destruct (HR in2 W2 m2 n F2 K2 Hn (cg_h2 _ _ _ _ C)) as (m2' & f2 & Run2 & S2 & E2).
    rewrite <-(Hmsg n m1 m2 C), <-(skipped_pair E m1 m2 _ _ _ _ _ (cg_same _ _ _ _ C) S1 S2) in Run2.
    exists m1', m2'. eexists. split; [exact Run1|]. split; [exact Run2|].
    split; [|split; [exact (effect_storable E m1 m1' u R K1 E1 (cg_s1 _ _ _ _ C))|exact (effect_storable E m2 m2' u R K2 E2 (cg_s2 _ _ _ _ C))]].
    destruct (local_next E W1 g m1 in1 n F1 K1 Hin Hn (cg_h1 _ _ _ _ C)) as (m & l & Run & [N1 A1] & _).
    destruct (run_ok_fun _ _ _ _ _ _ _ _ _ Run1 Run) as [<- _]. clear Run.
    destruct (local_next E W2 g m2 in2 n F2 K2 Hin Hn (cg_h2 _ _ _ _ C)) as (m & l' & Run & [N2 A2] & _).
    destruct (run_ok_fun _ _ _ _ _ _ _ _ _ Run2 Run) as [<- _]. clear Run.
    intros k. destruct (m1 !! k) as [x1|] eqn:H1.
    2:{ by rewrite (N1 k H1), (N2 k (pair_none E m1 m2 (cg_same _ _ _ _ C) k H1)). }
    destruct (pair_some E m1 m2 (cg_same _ _ _ _ C) k x1 H1) as (x2 & H2 & Hr).
    destruct (K1 k ltac:(by eexists)) as [bp Hbp].
    destruct (A1 k bp x1 Hbp H1) as (y1 & -> & G1). destruct (A2 k bp x2 Hbp H2) as (y2 & -> & G2).
    destruct (deserialize E x1) as [b1|] eqn:D1; [|left; subst x2; rewrite D1 in G2; congruence].
    destruct Hr as (b2 & D2 & Ha). rewrite D2 in G2. destruct G1 as (b1' & ? & P1). destruct G2 as (b2' & ? & P2).
    right. exists b1', b2'. split; [done|]. split; [done|].
    eapply (acted_pair g (adel g) bp n b1 b2); try done; [by eapply (cg_h1 _ _ _ _ C)|by eapply (cg_h2 _ _ _ _ C)].
  Qed.

  Lemma delblocks_cong : acmd g = CDeleteBlocks -> onward E g W1 W2 m1 m2 in1 in2.
  Proof using F1 F2 K1 C.
    intros Hc. pose proof (pair_keys E m1 m2 (cg_same _ _ _ _ C) K1) as K2.
    destruct (delblocks_run E W1 g m1 in1 _ (fair_setting _ _ _ _ _ F1 K1) Hc) as (m1' & Run1 & N1 & A1).
    destruct (delblocks_run E W2 g m2 in2 _ (fair_setting _ _ _ _ _ F2 K2) Hc) as (m2' & Run2 & N2 & A2).
    exists m1', m2'. eexists. split; [exact Run1|]. split; [exact Run2|].
    pose proof (area_ok_args g (fair_supplied _ _ _ _ F1) (fair_legal _ _ _ _ F1)) as Ha.
    assert (forall m m' : mapdata, keys_ok m -> (forall k, m !! k = None -> m' !! k = None) ->
      (forall k bp, block_at k bp -> (visit (aarea g) (invert g) false bp -> m' !! k = None) /\
        (~ visit (aarea g) (invert g) false bp -> m' !! k = m !! k)) ->
      forall k, m' !! k = None \/ m' !! k = m !! k) as Hsub.
    { intros m m' K N A k. destruct (m !! k) as [x|] eqn:Hx; [|by left; apply N].
      destruct (K k ltac:(by eexists)) as [bp Hbp]. destruct (A k bp Hbp) as [Av An].
      destruct (decide (wholeb (aarea g) (invert g) bp = true)) as [Hw|Hw].
      - apply wholeb_iff in Hw; [|apply Hbp|done]. left. by apply Av.
      - apply not_true_is_false in Hw. apply wholeb_false in Hw; [|apply Hbp|done]. right. rewrite An by done. done. }
    split; [|split].
    - intros k. destruct (m1 !! k) as [x1|] eqn:H1.
      2:{ by rewrite (N1 k H1), (N2 k (pair_none E m1 m2 (cg_same _ _ _ _ C) k H1)). }
      destruct (K1 k ltac:(by eexists)) as [bp Hbp]. destruct (A1 k bp Hbp) as [Av1 An1]. destruct (A2 k bp Hbp) as [Av2 An2].
      destruct (decide (wholeb (aarea g) (invert g) bp = true)) as [Hw|Hw].
      + apply wholeb_iff in Hw; [|apply Hbp|done]. by rewrite Av1, Av2.
      + apply not_true_is_false in Hw. apply wholeb_false in Hw; [|apply Hbp|done]. rewrite An1, An2 by done. apply C.
    - intros k x b Hx Hd. destruct (Hsub m1 m1' K1 N1 A1 k) as [H|H]; [congruence|]. rewrite H in Hx. by eapply (cg_s1 _ _ _ _ C).
    - intros k x b Hx Hd. destruct (Hsub m2 m2' K2 N2 A2 k) as [H|H]; [congruence|]. rewrite H in Hx. by eapply (cg_s2 _ _ _ _ C).
  Qed.

  Lemma vacuum_cong : acmd g = CVacuum -> onward E g W1 W2 m1 m2 in1 in2.
  Proof using F1 F2 C.
    intros Hc. eexists m1, m2, _. split; [apply vacuum_run; try done; apply F1|]. split; [apply vacuum_run; try done; apply F2|].
    split; [apply C|]. split; apply C.
  Qed.

  Lemma copies_cong s1 s2 a off : cong E n s1 s2 -> copies E W1 g m1 in1 s1 a off -> copies E W2 g m2 in2 s2 a off ->
    onward E g W1 W2 m1 m2 in1 in2.
  Proof using K1 C.
    intros Cs (m1' & f1 & Run1 & R1 & E1) (m2' & f2 & Run2 & R2 & E2).
    pose proof (pair_keys E m1 m2 (cg_same _ _ _ _ C) K1) as K2.
    rewrite <-(refused_pair E m1 m2 _ _ _ _ (cg_same _ _ _ _ C) R1 R2) in Run2.
    exists m1', m2'. eexists. split; [exact Run1|]. split; [exact Run2|].
    split; [|split; [exact (effect_storable E m1 m1' _ _ K1 E1 (cg_s1 _ _ _ _ C))|exact (effect_storable E m2 m2' _ _ K2 E2 (cg_s2 _ _ _ _ C))]].
    destruct E1 as [N1 A1]. destruct E2 as [N2 A2].
    intros k. destruct (m1 !! k) as [x1|] eqn:H1.
    2:{ by rewrite (N1 k H1), (N2 k (pair_none E m1 m2 (cg_same _ _ _ _ C) k H1)). }
    destruct (pair_some E m1 m2 (cg_same _ _ _ _ C) k x1 H1) as (x2 & H2 & Hr).
    destruct (K1 k ltac:(by eexists)) as [bp Hbp].
    destruct (A1 k bp x1 Hbp H1) as (y1 & -> & G1). destruct (A2 k bp x2 Hbp H2) as (y2 & -> & G2).
    destruct (deserialize E x1) as [b1|] eqn:D1; [|left; subst x2; rewrite D1 in G2; congruence].
    destruct Hr as (b2 & D2 & Ha). rewrite D2 in G2.
    destruct G1 as (U1 & b1' & Hd1 & _ & P1). destruct G2 as (U2 & b2' & Hd2 & _ & P2).
    right. exists b1', b2'. split; [done|]. split; [done|].
    pose proof (alike_generated b1 b2 Ha) as Hgen.
    destruct (decide (not_generated b1)) as [Hg|Hg].
    { rewrite U1 in Hd1 by (by left). rewrite U2 in Hd2 by (left; by apply Hgen). congruence. }
    destruct P1 as [P1|P1]; [done|]. destruct P2 as [P2|P2]; [by rewrite <-Hgen in P2|].
    eapply (pasted_pair E n s1 s2 a off bp b1 b2); try done.
    apply alike_meta; [by eapply (cg_s1 _ _ _ _ C)|by eapply (cg_s2 _ _ _ _ C)|done].
  Qed.

  (** One block of an overlay: where the new data comes from *)
  Lemma overlaid_source bp x old new y b : key_range bp ->
    overlaid E (aarea g) (invert g) bp x old new -> new = Some y -> deserialize E y = Ok b ->
    y = x \/ old = Some y \/ norm b = b.
  Proof using F1.
    intros Hbp (A & B & D & M) Hy Hd.
    pose proof (area_ok_args g (fair_supplied _ _ _ _ F1) (fair_legal _ _ _ _ F1)) as Ha.
    destruct (decide (wholeb (aarea g) (invert g) bp = true)) as [Hw|Hw].
    { apply wholeb_iff in Hw; [|apply Hbp|done]. destruct (decide (claims_generated E x)) as [Hc|Hc].
      - left. rewrite A in Hy by done. congruence.
      - right. left. rewrite B in Hy by done. congruence. }
    apply not_true_is_false in Hw. apply wholeb_false in Hw; [|apply Hbp|done].
    destruct (decide (visitb (aarea g) (invert g) bp = true)) as [Hv|Hv].
    2:{ right. left. rewrite D in Hy; [congruence|]. intros q Hq Hs; apply Hv, visitb_iff; by exists q. }
    apply visitb_iff in Hv as (q & Hq & Hs).
    assert (~ none (aarea g) (invert g) bp) as Hnn by (intros Hnn; by apply (Hnn q)).
    specialize (M Hw Hnn). destruct old as [z|]; [|congruence]. destruct M as [M1 M2].
    destruct (decide (claims_generated E z)) as [Hc|Hc]; [|right; left; rewrite M1 in Hy by done; congruence].
    specialize (M2 Hc). destruct (deserialize E x) as [sb|]; [|right; left; congruence].
    destruct (deserialize E z) as [c|]; [|right; left; congruence].
    destruct M2 as (z' & b' & H1 & H2 & _ & _ & H3 & _). right. right. congruence.
  Qed.
End onward.

Lemma overlaid_storable E g W main input main' : fair E W g input -> keys_ok input -> blocks E input storable -> blocks E main storable ->
  (forall k, input !! k = None -> main' !! k = main !! k) ->
  (forall k bp x, block_at k bp -> input !! k = Some x -> overlaid E (aarea g) (invert g) bp x (main !! k) (main' !! k)) ->
  blocks E main' storable.
Proof.
  intros HF Hk Hi Hm HN HO k y b Hy Hd. destruct (input !! k) as [x|] eqn:Hx; [|rewrite HN in Hy by done; by eapply Hm].
  destruct (Hk k ltac:(by eexists)) as [bp Hbp].
  destruct (overlaid_source E g W input HF bp x (main !! k) (main' !! k) y b (proj1 Hbp) (HO k bp x Hbp Hx) Hy Hd) as [->|[H|H]]; [by eapply Hi|by eapply Hm|done].
Qed.

Lemma overlays_cong E g W1 W2 m1 m2 in1 in2 n : fair E W1 g in1 -> fair E W2 g in2 -> cong E n m1 m2 -> cong E n in1 in2 ->
  overlays E W1 g m1 in1 -> overlays E W2 g m2 in2 -> onward E g W1 W2 m1 m2 in1 in2.
Proof.
  intros F1 F2 C Ci (m1' & f1 & Run1 & R1 & N1 & O1) (m2' & f2 & Run2 & R2 & N2 & O2).
  pose proof (fair_ext _ _ _ _ F1) as HE. pose proof (cg_same _ _ _ _ C) as Hmm. pose proof (cg_same _ _ _ _ Ci) as Hii.
  rewrite <-(unmixed_pair E m1 m2 in1 in2 _ _ _ _ HE Hmm Hii R1 R2) in Run2.
  exists m1', m2'. eexists. split; [exact Run1|]. split; [exact Run2|].
  pose proof (fair_input _ _ _ _ F1) as Hk1. pose proof (fair_input _ _ _ _ F2) as Hk2.
  split; [|split; [exact (overlaid_storable E g W1 m1 in1 m1' F1 Hk1 (cg_s1 _ _ _ _ Ci) (cg_s1 _ _ _ _ C) N1 O1)
    |exact (overlaid_storable E g W2 m2 in2 m2' F2 Hk2 (cg_s2 _ _ _ _ Ci) (cg_s2 _ _ _ _ C) N2 O2)]].
  pose proof (area_ok_args g (fair_supplied _ _ _ _ F1) (fair_legal _ _ _ _ F1)) as Ha.
  intros k. destruct (in1 !! k) as [x1|] eqn:H1.
  2:{ rewrite (N1 k H1), (N2 k (pair_none E in1 in2 Hii k H1)). apply Hmm. }
  destruct (pair_some E in1 in2 Hii k x1 H1) as (x2 & H2 & Hr).
  destruct (Hk1 k ltac:(by eexists)) as [bp Hbp].
  destruct (O1 k bp x1 Hbp H1) as (A1 & B1 & D1 & M1). destruct (O2 k bp x2 Hbp H2) as (A2 & B2 & D2 & M2).
  pose proof (claims_pair E in1 in2 k x1 x2 HE Hii H1 H2) as Hcl.
  destruct (decide (wholeb (aarea g) (invert g) bp = true)) as [Hw|Hw].
  { apply wholeb_iff in Hw; [|apply Hbp|done]. destruct (decide (claims_generated E x1)) as [Hc|Hc].
    - rewrite A1, A2; [|done|by apply Hcl|done|done]. pose proof (Hii k) as Hik. by rewrite H1, H2 in Hik.
    - rewrite B1, B2; [|done|by rewrite <-Hcl|done|done]. apply Hmm. }
  apply not_true_is_false in Hw. apply wholeb_false in Hw; [|apply Hbp|done].
  destruct (decide (visitb (aarea g) (invert g) bp = true)) as [Hv|Hv].
  2:{ rewrite D1, D2; [apply Hmm|..]; intros q Hq Hs; apply Hv, visitb_iff; by exists q. }
  apply visitb_iff in Hv as (q & Hq & Hs).
  assert (~ none (aarea g) (invert g) bp) as Hnn by (intros Hnn; by apply (Hnn q)).
  specialize (M1 Hw Hnn). specialize (M2 Hw Hnn). pose proof (Hmm k) as Hmk.
  destruct (m1 !! k) as [y1|] eqn:Y1.
  2:{ rewrite (pair_none E m1 m2 Hmm k Y1) in M2. by rewrite M1, M2. }
  destruct (pair_some E m1 m2 Hmm k y1 Y1) as (y2 & Y2 & Hry). rewrite Y2 in M2, Hmk.
  pose proof (claims_pair E m1 m2 k y1 y2 HE Hmm Y1 Y2) as Hcy.
  destruct M1 as [M1 M1']. destruct M2 as [M2 M2'].
  destruct (decide (claims_generated E y1)) as [Hc|Hc].
  2:{ rewrite M1, M2; [done|by rewrite <-Hcy|done]. }
  specialize (M1' Hc). specialize (M2' (proj1 Hcy Hc)).
  destruct (deserialize E x1) as [s1|] eqn:X1; [|subst x2; rewrite X1 in M2'; by rewrite M1', M2'].
  destruct Hr as (s2 & X2 & Has). rewrite X2 in M2'.
  destruct (deserialize E y1) as [b1|] eqn:Z1; [|subst y2; rewrite Z1 in M2'; rewrite M1', M2'; by left].
  destruct Hry as (b2 & Z2 & Hab). rewrite Z2 in M2'.
  destruct M1' as (z1 & b1' & -> & Hd1 & P1). destruct M2' as (z2 & b2' & -> & Hd2 & P2).
  right. exists b1', b2'. split; [done|]. split; [done|].
  eapply (mixed_pair _ _ bp s1 s2 b1 b2); try done; apply alike_meta; try done.
  - by eapply (cg_s1 _ _ _ _ Ci).
  - by eapply (cg_s2 _ _ _ _ Ci).
  - by eapply (cg_s1 _ _ _ _ C).
  - by eapply (cg_s2 _ _ _ _ C).
Qed.

(** ** All commands *)
Lemma healthy_roomy E g m1 m2 n : n <= 7280 -> blocks E m1 (healthy n) -> blocks E m2 (healthy n) -> roomy E g m1 m2.
Proof. intros Hn H1 H2. apply roomy_7280; intros k x b Hx Hd; (apply (sound_mono n); [lia|]); [by eapply H1|by eapply H2]. Qed.

Lemma cong_run E g W1 W2 m1 m2 in1 in2 n : fair E W1 g in1 -> fair E W2 g in2 -> keys_ok m1 -> 4095 <= n <= 7280 ->
  cong E n m1 m2 -> (acmd g = COverlay -> cong E n in1 in2) -> onward E g W1 W2 m1 m2 in1 in2.
Proof.
  intros F1 F2 K1 Hn C Ci. pose proof (pair_keys E m1 m2 (cg_same _ _ _ _ C) K1) as K2.
  destruct (in_place (acmd g)) eqn:Hin; [by eapply place_cong|].
  pose proof (fair_setting E W1 g m1 in1 F1 K1) as S1. pose proof (fair_setting E W2 g m2 in2 F2 K2) as S2.
  pose proof (fair_supplied _ _ _ _ F1) as [_ Hsup].
  destruct (acmd g) eqn:Hc; try done.
  - destruct Hsup as [[a Ha] [off Ho]].
    eapply (copies_cong E g W1 W2 m1 m2 in1 in2 n K1 C m1 m2 (Some a) off C); eapply clone_run; try done.
    + eapply healthy_roomy; [|apply C..]; lia.
    + eapply healthy_roomy; [|apply C..]; lia.
  - by eapply delblocks_cong.
  - specialize (Ci eq_refl). destruct (decide (default (V3 0 0 0) (offset g) = V3 0 0 0)) as [Hz|Hz].
    + eapply (overlays_cong E g W1 W2 m1 m2 in1 in2 n); try done.
      * apply (overlay_run E W1 g m1 in1 from_block_key); try done; [by apply F1|]. eapply healthy_roomy; [|apply C|apply Ci]; lia.
      * apply (overlay_run E W2 g m2 in2 from_block_key); try done; [by apply F2|]. eapply healthy_roomy; [|apply C|apply Ci]; lia.
    + destruct (offset g) as [off|] eqn:Ho; [|done].
      eapply (copies_cong E g W1 W2 m1 m2 in1 in2 n K1 C in1 in2 (aarea g) off Ci).
      * apply (offset_run E W1 g m1 in1 from_block_key); try done. eapply healthy_roomy; [|apply C|apply Ci]; lia.
      * apply (offset_run E W2 g m2 in2 from_block_key); try done. eapply healthy_roomy; [|apply C|apply Ci]; lia.
  - by eapply vacuum_cong.
Qed.

(** ** Other environments *)
Lemma fair_change E1 E2 W g input : ext_ok E2 -> full_writes E2 -> fair E1 W g input -> fair E2 W g input.
Proof. intros H1 H2 []. by split. Qed.

Lemma fair_plausible E W g main input n : fair E W g input -> n <= 7280 -> blocks E main (healthy n) ->
  (acmd g = COverlay -> blocks E input (healthy n)) -> plausible E g main input.
Proof.
  intros HF Hn Hb Hi. destruct (in_place (acmd g)) eqn:Hin; [exact (healthy_plausible E W g main input n HF Hin ltac:(lia) Hb)|].
  unfold plausible. destruct (acmd g) eqn:Hc; try done.
  - by apply (healthy_roomy E g main main n).
  - split; [apply HF|]. apply (healthy_roomy E g main input n); try done. by apply Hi.
Qed.

Lemma storable_same E1 E2 m : same_reading E1 E2 -> blocks E1 m storable <-> blocks E2 m storable.
Proof. intros Hr. split; intros H k x b Hx Hd; [rewrite <-(deser_same E1 E2 Hr) in Hd|rewrite (deser_same E1 E2 Hr) in Hd]; by eapply H. Qed.
Lemma healthy_same E1 E2 m n : same_reading E1 E2 -> blocks E1 m (healthy n) <-> blocks E2 m (healthy n).
Proof. intros Hr. split; intros H k x b Hx Hd; [rewrite <-(deser_same E1 E2 Hr) in Hd|rewrite (deser_same E1 E2 Hr) in Hd]; by eapply H. Qed.
Lemma contents_same E1 E2 m1 m2 : same_reading E1 E2 -> same_contents E1 m1 m2 -> same_contents E2 m1 m2.
Proof.
  intros Hr H k. specialize (H k). destruct (m1 !! k), (m2 !! k); try done. destruct H as [H|(b1 & b2 & H1 & H2 & H)]; [by left|].
  right. exists b1, b2. by rewrite <-!(deser_same E1 E2 Hr).
Qed.

Lemma cong_refl E n m : blocks E m (healthy n) -> blocks E m storable -> cong E n m m.
Proof. intros ??. split; try done. apply contents_refl. Qed.

Lemma cong_across E1 E2 g W1 W2 m1 m2 in1 in2 n : same_reading E1 E2 -> fair E1 W1 g in1 -> fair E2 W2 g in2 -> keys_ok m1 ->
  4095 <= n <= 7280 -> cong E1 n m1 m2 -> (acmd g = COverlay -> cong E1 n in1 in2) ->
  exists m1' m2' l, run_ok E1 g W1 m1 in1 m1' l /\ run_ok E2 g W2 m2 in2 m2' l /\ keys_ok m1' /\ cong E1 (n + growth g) m1' m2'.
Proof.
  intros Hr F1 F2 K1 Hn C Ci. pose proof (pair_keys E1 m1 m2 (cg_same _ _ _ _ C) K1) as K2.
  assert (fair E1 W2 g in2) as F12 by (apply (fair_change E2); [apply F1..|done]).
  destruct (cong_run E1 g W1 W2 m1 m2 in1 in2 n F1 F12 K1 Hn C Ci) as (m1' & m2' & l & Run1 & Run2 & Hs & St1 & _).
  assert (blocks E2 m2 (healthy n)) as Hh2 by (apply (healthy_same E1 E2); [done|apply C]).
  assert (acmd g = COverlay -> blocks E2 in2 (healthy n)) as Hi2 by (intros Hc; apply (healthy_same E1 E2); [done|]; by apply Ci).
  destruct (same_run E1 E2 Hr W2 W2 g m2 in2 from_block_key) as (a & b & l' & RunA & RunB & Hs2).
  { by eapply fair_setting. }
  { by eapply fair_setting. }
  { eapply (fair_plausible E1 W2 g m2 in2 n); [done|lia|apply C|]. intros Hc. by apply Ci. }
  destruct (run_ok_fun _ _ _ _ _ _ _ _ _ Run2 RunA) as [-> ->].
  destruct (cong_run E2 g W2 W2 m2 m2 in2 in2 n F2 F2 K2 Hn) as (b' & b2 & l2 & RunC & _ & _ & St2 & _).
  { apply cong_refl; [done|]. apply (storable_same E1 E2); [done|apply C]. }
  { intros Hc. apply cong_refl; [by apply Hi2|]. apply (storable_same E1 E2); [done|]. by apply Ci. }
  destruct (run_ok_fun _ _ _ _ _ _ _ _ _ RunB RunC) as [<- <-].
  destruct (run_next E1 W1 g m1 in1 n F1 K1 Hn (cg_h1 _ _ _ _ C)) as (c & lc & RunD & _ & Kc & Hc1).
  { intros Hc. by apply Ci. }
  destruct (run_ok_fun _ _ _ _ _ _ _ _ _ Run1 RunD) as [<- <-].
  destruct (run_next E2 W2 g m2 in2 n F2 K2 Hn Hh2 Hi2) as (d & ld & RunE & _ & _ & Hd1).
  destruct (run_ok_fun _ _ _ _ _ _ _ _ _ RunB RunE) as [<- _].
  exists m1', b, l'. split; [done|]. split; [done|]. split; [done|].
  split; [by eapply contents_trans|done|by apply (healthy_same E1 E2)|done|by apply (storable_same E1 E2)].
Qed.

Lemma job_up E1 E2 n d r1 r2 : 0 <= d -> same_job E1 E2 n r1 r2 -> same_job E1 E2 (n + d) r1 r2.
Proof.
  destruct r1 as [[W1 g1] in1], r2 as [[W2 g2] in2]. intros Hd (-> & F1 & F2 & H). split; [done|]. split; [done|]. split; [done|].
  intros Hc. destruct (H Hc) as (A & ? & B & ? & ?).
  split; [intros k x b Hx Hb; apply (healthy_up n); [lia|by eapply A]|]. split; [done|].
  split; [intros k x b Hx Hb; apply (healthy_up n); [lia|by eapply B]|]. done.
Qed.

Lemma diary_cong E1 E2 runs1 : forall runs2 n m1 m2, same_reading E1 E2 -> 4095 <= n -> n + growths runs1 <= 7280 ->
  keys_ok m1 -> cong E1 n m1 m2 -> Forall2 (same_job E1 E2 n) runs1 runs2 ->
  exists m1' m2' ls, diary E1 runs1 m1 m1' ls /\ diary E2 runs2 m2 m2' ls /\ same_contents E1 m1' m2'.
Proof.
  induction runs1 as [|[[W1 g] in1] runs1 IH]; intros runs2 n m1 m2 Hr Hn Hg K1 C HF.
  - apply Forall2_nil_inv_l in HF as ->. exists m1, m2, []. split; [done|]. split; [done|]. apply C.
  - apply Forall2_cons_inv_l in HF as ([[W2 g2] in2] & runs2' & (<- & F1 & F2 & Hi) & HF & ->).
    cbn [growths] in Hg. pose proof (growths_nonneg runs1) as Hg1.
    assert (0 <= growth g) as Hg0 by (unfold growth; destruct (acmd g); lia).
    destruct (cong_across E1 E2 g W1 W2 m1 m2 in1 in2 n Hr F1 F2 K1 ltac:(lia) C) as (a & b & l & Run1 & Run2 & Ka & Cab).
    { intros Hc. destruct (Hi Hc) as (? & ? & ? & ? & ?). split; try done; [by apply (healthy_same E1 E2)|by apply (storable_same E1 E2)]. }
    destruct (IH runs2' (n + growth g) a b Hr ltac:(lia) ltac:(lia) Ka Cab) as (m1' & m2' & ls & D1 & D2 & Hs).
    { eapply Forall2_impl; [exact HF|]. intros. by apply job_up. }
    exists m1', m2', (l :: ls). split; [by exists a|]. split; [by exists b|done].
Qed.

(** ** As stated *)
Lemma run_cong E1 E2 W1 W2 g m1 m2 input1 input2 n : same_reading E1 E2 ->
  keys_ok m1 -> 4095 <= n <= 7280 -> blocks E1 m1 (healthy n) -> blocks E1 m2 (healthy n) ->
  blocks E1 m1 storable -> blocks E1 m2 storable -> same_contents E1 m1 m2 ->
  same_job E1 E2 n (W1, g, input1) (W2, g, input2) ->
  exists m1' m2' l, run_ok E1 g W1 m1 input1 m1' l /\ run_ok E2 g W2 m2 input2 m2' l /\
    same_contents E1 m1' m2' /\ blocks E1 m1' storable /\ blocks E1 m2' storable.
Proof.
  intros Hr K1 Hn H1 H2 S1 S2 Hs (_ & F1 & F2 & Hi).
  destruct (cong_across E1 E2 g W1 W2 m1 m2 input1 input2 n Hr F1 F2 K1 Hn) as (a & b & l & Run1 & Run2 & _ & C).
  { by split. }
  { intros Hc. destruct (Hi Hc) as (? & ? & ? & ? & ?). split; try done; [by apply (healthy_same E1 E2)|by apply (storable_same E1 E2)]. }
  exists a, b, l. split; [done|]. split; [done|]. split; [apply C|]. split; apply C.
Qed.

Lemma session_cong E1 E2 runs1 runs2 m1 m2 n : same_reading E1 E2 ->
  keys_ok m1 -> 4095 <= n -> n + growths runs1 <= 7280 -> blocks E1 m1 (healthy n) -> blocks E1 m2 (healthy n) ->
  blocks E1 m1 storable -> blocks E1 m2 storable -> same_contents E1 m1 m2 ->
  Forall2 (same_job E1 E2 n) runs1 runs2 ->
  exists m1' m2' ls, diary E1 runs1 m1 m1' ls /\ diary E2 runs2 m2 m2' ls /\ same_contents E1 m1' m2'.
Proof. intros. eapply diary_cong; try done. Qed.
