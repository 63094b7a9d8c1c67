(** Lemmas about Block.v *)
From Verif Require Import Block SpecBlock SpatialProofs CodecProofs MapProofs CodecRound.

(** *** Saving *)

Definition enc_29 (E : ext) (b : block) : bytes :=
  [flags b] ++ be16 (lighting b) ++ be32 (timestamp b) ++ enc_nimap (nimap b) ++
  [content_width b] ++ [params_width b] ++ enc_node_data (ndata b) ++
  enc_metadata E (metadata b) (version b) ++ enc_objects (objects b) ++ enc_timers (timers b).

Definition enc_28 (E : ext) (b : block) : bytes :=
  [flags b] ++ (if 27 <=? version b then be16 (lighting b) else []) ++
  [content_width b] ++ [params_width b] ++
  zl_enc E (enc_node_data (ndata b)) ++
  zl_enc E (enc_metadata E (metadata b) (version b)) ++
  enc_objects (objects b) ++ be32 (timestamp b) ++ enc_nimap (nimap b) ++ enc_timers (timers b).

(** Blocks that can be saved, though perhaps not read back *)
Record savable (b : block) : Prop := {
  sv_version : 25 <= version b <= 29;
  sv_nd : wf_nodes (ndata b);
  sv_md : fit_metadata (metadata b);
  sv_os : wf_objects (objects b);
  sv_nm : wf_nimap (nimap b) }.
Lemma wf_savable b : wf_block b -> savable b.
Proof. intros []. split; [done..| |done|done]. by apply wf_fit_metadata. Qed.

Lemma emits_ser_29 E b : ext_ok E -> full E Zstd -> savable b -> emits (ser_29 E b) (enc_29 E b).
Proof.
  intros HE Hf Hb. unfold ser_29, enc_29. rewrite !app_assoc.
  apply emits_seq; [|apply emits_timers].
  apply emits_seq; [|apply emits_objects; [done|apply Hb]].
  apply emits_seq; [|apply emits_metadata; [done..|apply Hb]].
  apply emits_seq; [|apply emits_node_data, Hb].
  do 2 (apply emits_seq; [|apply emits_all]).
  apply emits_seq; [|apply emits_nimap; [done|apply Hb]].
  do 2 (apply emits_seq; [|apply emits_all]).
  apply emits_all.
Qed.

Lemma emits_ser_28 E b : ext_ok E -> full E Zlib -> savable b -> emits (ser_28 E b) (enc_28 E b).
Proof.
  intros HE Hf Hb. pose proof (full_plain E HE) as Hp.
  unfold ser_28, enc_28. rewrite !app_assoc.
  apply emits_seq; [|apply emits_timers].
  apply emits_seq; [|apply emits_nimap; [done|apply Hb]].
  apply emits_seq; [|apply emits_all].
  apply emits_seq; [|apply emits_objects; [done|apply Hb]].
  apply emits_seq.
  2:{ intros buf. unfold wr_metadata_z. rewrite emits_metadata by (done || apply Hb). done. }
  apply emits_seq.
  2:{ intros buf. unfold wr_node_data_z. rewrite emits_node_data by apply Hb. done. }
  do 2 (apply emits_seq; [|apply emits_all]).
  apply emits_seq; [apply emits_all|].
  destruct (27 <=? version b); [apply emits_all|apply emits_nop].
Qed.

Definition enc_block (E : ext) (b : block) : bytes :=
  if 29 <=? version b then z2b (version b) :: zs_enc E (enc_29 E b)
  else z2b (version b) :: enc_28 E b.

Lemma serialize_savable E b : ext_ok E -> full_writes E -> savable b ->
  serialize E b = Ret (enc_block E b).
Proof.
  intros HE Hf Hb. unfold serialize, enc_block.
  pose proof (sv_version b Hb) as Hv.
  unfold MIN_BLOCK_VER, MAX_BLOCK_VER.
  replace (_ || _) with false by lia.
  destruct (29 <=? version b).
  - rewrite (emits_ser_29 E b) by (done || by apply full_of_full_writes). done.
  - rewrite (emits_ser_28 E b) by (done || by apply full_of_full_writes). done.
Qed.

Lemma serialize_ok E b : ext_ok E -> full_writes E -> wf_block b ->
  serialize E b = Ret (enc_block E b).
Proof. intros HE Hf Hb. apply serialize_savable; [done..|by apply wf_savable]. Qed.

(** *** Loading what was saved *)

Lemma deser_29_enc E b : ext_ok E -> wf_block b -> version b = 29 ->
  deser_29 29 (enc_29 E b) = Ok (norm b).
Proof.
  intros HE Hb Hv. unfold deser_29, enc_29.
  rewrite decodes_byte. cbn [bindR].
  rewrite decodes_u16 by apply Hb. cbn [bindR].
  rewrite decodes_u32 by apply Hb. cbn [bindR].
  rewrite decodes_nimap by apply Hb. cbn [bindR].
  rewrite decodes_byte. cbn [bindR]. rewrite decodes_byte. cbn [bindR].
  rewrite (wf_cw b Hb), (wf_pw b Hb). cbn [Z.eqb Pos.eqb negb orb].
  rewrite decodes_node_data by apply Hb. cbn [bindR].
  rewrite decodes_metadata by (done || apply Hb). cbn [bindR].
  rewrite decodes_objects by apply Hb. cbn [bindR].
  rewrite (decodes_nil _ _ _ (decodes_timers _ (wf_tm b Hb))). cbn [bindR].
  unfold norm. rewrite Hv. done.
Qed.

Lemma zl_parse {A} E (d rest : bytes) (k : bytes -> nat -> res A) : ext_ok E ->
  match zl_dec E (zl_enc E d ++ rest) with None => Err BadData | Some (x, n) => k x n end
  = k d (length (zl_enc E d)).
Proof. intros HE. by rewrite zl_round. Qed.

Lemma deser_28_enc E b : ext_ok E -> wf_block b -> version b <= 28 ->
  deser_28 E (version b) (enc_28 E b) = Ok (norm b).
Proof.
  intros HE Hb Hv. unfold deser_28, enc_28.
  rewrite decodes_byte. cbn [bindR].
  assert (Hl : forall r, (if 27 <=? version b then rd_u16 ((if 27 <=? version b then be16 (lighting b) else []) ++ r)
     else Ok (65535, (if 27 <=? version b then be16 (lighting b) else []) ++ r)) =
     Ok (if 27 <=? version b then lighting b else 65535, r)).
  { intros r. destruct (27 <=? version b); [|done]. apply decodes_u16, Hb. }
  rewrite Hl. cbn [bindR].
  rewrite decodes_byte. cbn [bindR]. rewrite decodes_byte. cbn [bindR].
  rewrite (wf_cw b Hb), (wf_pw b Hb). cbn [Z.eqb Pos.eqb negb orb].
  unfold rd_node_data_z. rewrite zl_round by done.
  rewrite (decodes_nil _ _ _ (decodes_node_data _ (wf_nd b Hb))). cbn [bindR].
  cbn [length]. change (Z.of_nat 0) with 0. rewrite drop_app. cbn [Z.eqb negb bindR].
  unfold rd_metadata_z. rewrite zl_round by done.
  rewrite (decodes_nil _ _ _ (decodes_metadata E _ (version b) HE (wf_md b Hb))). cbn [bindR].
  rewrite drop_app. cbn [bindR].
  rewrite decodes_objects by apply Hb. cbn [bindR].
  rewrite decodes_u32 by apply Hb. cbn [bindR].
  rewrite decodes_nimap by apply Hb. cbn [bindR].
  rewrite (decodes_nil _ _ _ (decodes_timers _ (wf_tm b Hb))). cbn [bindR].
  done.
Qed.

Lemma deserialize_enc E b : ext_ok E -> wf_block b -> deserialize E (enc_block E b) = Ok (norm b).
Proof.
  intros HE Hb. pose proof (wf_version b Hb) as Hv.
  assert (Hvb : b2z (z2b (version b)) = version b) by (rewrite b2z_z2b; lia).
  unfold deserialize, enc_block, MIN_BLOCK_VER, MAX_BLOCK_VER.
  destruct (Z.leb_spec 29 (version b)) as [Hge|Hlt]; cbn [rd_byte bindR]; rewrite Hvb.
  - replace (_ || _) with false by lia. replace (29 <=? version b) with true by lia.
    rewrite zs_round by done. replace (version b) with 29 by lia.
    by apply deser_29_enc; [..|lia].
  - replace (_ || _) with false by lia. replace (29 <=? version b) with false by lia.
    apply deser_28_enc; [done..|lia].
Qed.

(** Decoding an encoded block gives its normal form. *)
Lemma block_roundtrip E b : ext_ok E -> full_writes E -> wf_block b ->
  exists s, serialize E b = Ret s /\ deserialize E s = Ok (norm b).
Proof.
  intros HE Hf Hb. exists (enc_block E b). split; [by apply serialize_ok|by apply deserialize_enc].
Qed.

(** *** Loaded blocks are representable *)

Lemma yields_u16 : yields rd_u16 u16_ok.
Proof.
  intros [|a [|b s]] x r H; inv H. unfold be16_dec, u16_ok.
  pose proof (b2z_range a). pose proof (b2z_range b). lia.
Qed.
Lemma yields_u32 : yields rd_u32 u32_ok.
Proof.
  intros [|a [|b [|c [|d s]]]] x r H; inv H. unfold u32_ok.
  pose proof (b2z_range a). pose proof (b2z_range b).
  pose proof (b2z_range c). pose proof (b2z_range d). lia.
Qed.
Lemma yields_i32 : yields rd_i32 i32_ok.
Proof.
  intros s x r H. unfold rd_i32 in H. apply bindR_Ok in H as ([z t] & _ & H). inv H.
  unfold w32, i32_ok. lia.
Qed.
Lemma yields_try n : 0 <= n -> yields (try_read_n n) (fun d => Z.of_nat (length d) = n).
Proof.
  intros Hn s x r H. rewrite try_read_n_eq in H by done. unfold rd_n in H.
  case_decide; [|done]. inv H. rewrite take_length. lia.
Qed.
Lemma yields_str16 : yields read_string16 fits16.
Proof.
  intros s x r H. unfold read_string16 in H. apply bindR_Ok in H as ([n t] & H1 & H).
  apply yields_u16 in H1. unfold u16_ok in H1.
  apply yields_try in H; [|lia]. unfold fits16. lia.
Qed.
Lemma yields_str32 : yields read_string32 fits32.
Proof.
  intros s x r H. unfold read_string32 in H. apply bindR_Ok in H as ([n t] & H1 & H).
  apply yields_u32 in H1. unfold u32_ok in H1.
  apply yields_try in H; [|lia]. unfold fits32. lia.
Qed.
Lemma yields_rd_n n : yields (rd_n n) (fun d => length d = n).
Proof.
  intros s x r H. unfold rd_n in H. case_decide; [|done]. inv H. rewrite take_length. lia.
Qed.

Ltac dbind H := let E := fresh "E" in apply bindR_Ok in H as ([? ?] & E & H).

Lemma yields_nimap : yields rd_nimap wf_nimap.
Proof.
  intros s x r H. unfold rd_nimap in H. dbind H.
  destruct (negb _); [done|]. dbind H. dbind H. inv H.
  pose proof (yields_u16 _ _ _ E0) as Hn. unfold u16_ok in Hn.
  pose proof (rep_length _ _ _ _ _ consuming_nimap_entry E1) as Hl. split.
  - pose proof (insert_all_size l1). lia.
  - apply insert_all_Forall. eapply rep_Forall; [apply consuming_nimap_entry| |exact E1].
    intros s' [id name] r' H. unfold rd_nimap_entry in H. dbind H. dbind H. inv H.
    split; [by eapply yields_u16|by eapply yields_str16].
Qed.

Lemma dec16s_length s : length (dec16s s) = (length s / 2)%nat.
Proof.
  remember (length s) as n eqn:Hn. revert s Hn.
  induction n as [n IH] using lt_wf_ind. intros s ->.
  destruct s as [|a [|b s]]; [done..|]. cbn [dec16s length].
  rewrite (IH (length s)); [|simpl; lia|done].
  replace (S (S (length s))) with (1 * 2 + length s)%nat by lia.
  rewrite Nat.div_add_l by lia. done.
Qed.
Lemma dec16s_ok s : Forall u16_ok (dec16s s).
Proof.
  remember (length s) as n eqn:Hn. revert s Hn.
  induction n as [n IH] using lt_wf_ind. intros s ->.
  destruct s as [|a [|b s]]; [constructor..|]. cbn [dec16s]. constructor.
  - unfold be16_dec, u16_ok. pose proof (b2z_range a). pose proof (b2z_range b). lia.
  - eapply IH; [|done]. simpl. lia.
Qed.

Lemma yields_node_data_gen n m s x r : 0 <= n -> 0 <= m -> m / 2 = n ->
  (try (nb, s1) := rd_n (Z.to_nat m) s in
   try (p1, s2) := rd_n (Z.to_nat n) s1 in
   try (p2, s3) := rd_n (Z.to_nat n) s2 in
   Ok (ND (dec16s nb) p1 p2, s3)) = Ok (x, r) ->
  Z.of_nat (length (nodes x)) = n /\ Z.of_nat (length (param1 x)) = n /\
  Z.of_nat (length (param2 x)) = n /\ Forall u16_ok (nodes x).
Proof.
  intros Hn Hm Hd H. dbind H. dbind H. dbind H. inv H.
  apply yields_rd_n in E, E0, E1.
  split; [|split; [|split]]; cbn [nodes param1 param2].
  - rewrite dec16s_length, Nat2Z.inj_div, E. by rewrite Z2Nat.id.
  - lia.
  - lia.
  - apply dec16s_ok.
Qed.
Lemma rd_node_data_eq : rd_node_data = fun s =>
  try (nb, s1) := rd_n (Z.to_nat 8192) s in
  try (p1, s2) := rd_n (Z.to_nat 4096) s1 in
  try (p2, s3) := rd_n (Z.to_nat 4096) s2 in
  Ok (ND (dec16s nb) p1 p2, s3).
Proof. reflexivity. Qed.
Lemma yields_node_data : yields rd_node_data wf_nodes.
Proof.
  intros s x r H. rewrite rd_node_data_eq in H. cbv beta in H.
  apply yields_node_data_gen in H; [exact H|lia|lia|reflexivity].
Qed.

Lemma yields_var v : yields (rd_var v) (fun e => fits16 e.1 /\ fits32 e.2.1).
Proof.
  intros s x r H. unfold rd_var in H. dbind H. dbind H.
  apply yields_str16 in E. apply yields_str32 in E0.
  destruct (2 <=? v).
  - dbind H. inv H. done.
  - inv H. done.
Qed.
Lemma yields_meta v : yields (rd_meta v) wf_meta.
Proof.
  intros s x r H. rewrite rd_meta_eq in H. dbind H. dbind H. dbind H. inv H.
  pose proof (yields_u32 _ _ _ E) as Hn. unfold u32_ok in Hn.
  pose proof (rep_length _ _ _ _ _ (consuming_var v) E0) as Hl. split; [|split].
  - cbn [vars]. pose proof (insert_all_size l0). lia.
  - cbn [vars]. apply insert_all_Forall. eapply rep_Forall; [apply consuming_var| |exact E0].
    apply yields_var.
  - cbn [inv]. by apply rd_inv_Ok in E1 as [_ ?].
Qed.
Lemma yields_metadata : yields rd_metadata wf_metadata.
Proof.
  intros s x r H. unfold rd_metadata in H. dbind H. cbv zeta in H.
  destruct (2 <? b2z b); [done|]. destruct (b2z b =? 0).
  - inv H. split; [rewrite map_size_empty; lia|]. apply map_Forall_empty.
  - dbind H. dbind H. inv H.
    pose proof (yields_u16 _ _ _ E0) as Hn. unfold u16_ok in Hn.
    pose proof (rep_length _ _ _ _ _ (consuming_meta_entry _) E1) as Hl. split.
    + pose proof (insert_all_size l1). lia.
    + apply insert_all_Forall. eapply rep_Forall; [apply consuming_meta_entry| |exact E1].
      intros s' [pos m] r' H. unfold rd_meta_entry in H. dbind H. dbind H. inv H.
      split; [by eapply yields_u16|by eapply yields_meta].
Qed.
Lemma yields_objects : yields rd_objects wf_objects.
Proof.
  intros s x r H. unfold rd_objects in H. dbind H. destruct (negb _); [done|]. dbind H.
  pose proof (yields_u16 _ _ _ E0) as Hn. unfold u16_ok in Hn.
  pose proof (rep_length _ _ _ _ _ consuming_object H) as Hl. split; [lia|].
  eapply rep_Forall; [apply consuming_object| |exact H].
  clear. intros s o r H. unfold rd_object in H. dbind H. dbind H. dbind H. dbind H. dbind H. inv H.
  split; [by eapply yields_i32|]. split; [by eapply yields_i32|].
  split; [by eapply yields_i32|by eapply yields_str16].
Qed.
Lemma yields_timers : yields rd_timers wf_timers.
Proof.
  intros s x r H. unfold rd_timers in H. dbind H. destruct (negb _); [done|]. dbind H.
  pose proof (yields_u16 _ _ _ E0) as Hn. unfold u16_ok in Hn.
  pose proof (rep_length _ _ _ _ _ consuming_timer H) as Hl. split; [lia|].
  eapply rep_Forall; [apply consuming_timer| |exact H].
  clear. intros s o r H. unfold rd_timer in H. dbind H. dbind H. dbind H. inv H.
  split; [by eapply yields_u16|]. split; by eapply yields_u32.
Qed.

Lemma deser_29_wf s b : deser_29 29 s = Ok b -> wf_block b.
Proof.
  intros H. unfold deser_29 in H. do 6 dbind H.
  destruct (negb _ || negb _) eqn:Ew; [done|]. do 4 dbind H. inv H.
  split; cbn [version lighting content_width params_width ndata metadata objects timestamp nimap timers].
  - lia.
  - by eapply yields_u16.
  - lia.
  - lia.
  - by eapply yields_node_data.
  - by eapply yields_metadata.
  - by eapply yields_objects.
  - by eapply yields_u32.
  - by eapply yields_nimap.
  - by eapply yields_timers.
Qed.

Lemma deser_28_wf E v s b : 25 <= v <= 28 -> deser_28 E v s = Ok b -> wf_block b.
Proof.
  intros Hv H. unfold deser_28 in H. do 4 dbind H.
  destruct (negb _ || negb _) eqn:Ew; [done|]. do 6 dbind H. inv H.
  split; cbn [version lighting content_width params_width ndata metadata objects timestamp nimap timers].
  - lia.
  - destruct (27 <=? v); [by eapply yields_u16|]. inv E1. unfold u16_ok. lia.
  - lia.
  - lia.
  - unfold rd_node_data_z in E4. destruct (zl_dec E _) as [[d k]|]; [|done].
    dbind E4. destruct (negb (Z.of_nat _ =? 0)); [done|]. inv E4. eapply yields_node_data. eassumption.
  - unfold rd_metadata_z in E5. destruct (zl_dec E _) as [[d k]|]; [|done].
    dbind E5. inv E5. eapply yields_metadata. eassumption.
  - by eapply yields_objects.
  - by eapply yields_u32.
  - by eapply yields_nimap.
  - by eapply yields_timers.
Qed.

Lemma deserialize_wf E s b : deserialize E s = Ok b -> wf_block b.
Proof.
  unfold deserialize, MIN_BLOCK_VER, MAX_BLOCK_VER. intros H. dbind H. cbv zeta in H.
  destruct (_ || _) eqn:Ev; [done|].
  destruct (Z.leb_spec 29 (b2z b0)).
  - destruct (zs_dec E _); [|done]. replace (b2z b0) with 29 in H by lia. by eapply deser_29_wf.
  - eapply deser_28_wf; [|exact H]. lia.
Qed.

(** A loaded block of version below 27 has the default lighting and one below
    28 has ... nothing stored beyond [norm]; loading is idempotent. *)
Lemma load_save_load E s b : ext_ok E -> full_writes E -> deserialize E s = Ok b ->
  exists s', serialize E b = Ret s' /\ deserialize E s' = Ok (norm b).
Proof. intros HE Hf H. apply block_roundtrip; [done..|]. by eapply deserialize_wf. Qed.

Lemma deserialize_lighting E s b : deserialize E s = Ok b -> version b < 27 -> lighting b = 65535.
Proof.
  unfold deserialize, MIN_BLOCK_VER, MAX_BLOCK_VER. intros H. dbind H. cbv zeta in H.
  destruct (_ || _) eqn:Ev; [done|].
  destruct (Z.leb_spec 29 (b2z b0)).
  - destruct (zs_dec E _); [|done]. unfold deser_29 in H. do 6 dbind H.
    destruct (negb _ || negb _) eqn:Ew; [done|]. do 4 dbind H. inv H. cbn [version]. lia.
  - unfold deser_28 in H. do 4 dbind H.
    destruct (negb _ || negb _) eqn:Ew; [done|]. do 6 dbind H. inv H.
    cbn [version lighting]. intros Hlt. replace (27 <=? b2z b0) with false in E2 by lia. by inv E2.
Qed.

(** *** The normal form *)

Lemma norm_metadata_idem v m : norm_metadata v (norm_metadata v m) = norm_metadata v m.
Proof.
  unfold norm_metadata. destruct (28 <=? v).
  - unfold id. rewrite map_filter_filter_r; [done|]. naive_solver.
  - apply map_eq. intros k. rewrite !lookup_fmap.
    destruct (filter (fun e => ~ blank e.2) m !! k) as [x|] eqn:E.
    + assert (filter (λ e : Z * node_meta, ¬ blank e.2)
        (strip_private <$> filter (λ e : Z * node_meta, ¬ blank e.2) m) !! k
        = Some (strip_private x)) as ->.
      { apply map_filter_lookup_Some. rewrite lookup_fmap, E. split; [done|].
        apply map_filter_lookup_Some in E as [_ Hn]. intros [H1 H2]. apply Hn.
        split; [|done]. simpl in H1. by apply fmap_empty_inv in H1. }
      simpl. f_equal. unfold strip_private; simpl. f_equal.
      rewrite <-map_fmap_compose. apply map_fmap_ext. done.
    + assert (filter (λ e : Z * node_meta, ¬ blank e.2)
        (strip_private <$> filter (λ e : Z * node_meta, ¬ blank e.2) m) !! k = None) as ->.
      { apply map_filter_lookup_None. left. by rewrite lookup_fmap, E. }
      done.
Qed.

Lemma norm_idem b : norm (norm b) = norm b.
Proof.
  unfold norm; cbn [version lighting metadata]. f_equal.
  - by destruct (27 <=? version b).
  - apply norm_metadata_idem.
Qed.

Lemma strip_private_wf m : wf_meta m -> wf_meta (strip_private m).
Proof.
  intros (H1 & H2 & H3). split; [|split]; simpl; [by rewrite map_size_fmap| |done].
  intros k v Hk. rewrite lookup_fmap in Hk. apply fmap_Some in Hk as (w & Hw & ->).
  by apply (H2 k w).
Qed.

Lemma norm_metadata_wf v m : wf_metadata m -> wf_metadata (norm_metadata v m).
Proof.
  intros [H1 H2]. unfold norm_metadata. split.
  - assert (size (filter (fun e : Z * node_meta => ~ blank e.2) m) <= size m)%nat.
    { rewrite <-!(size_dom (D:=gset Z)). apply subseteq_size, dom_filter_subseteq. }
    destruct (28 <=? v); unfold id; rewrite ?map_size_fmap; lia.
  - destruct (28 <=? v); unfold id; intros k e Hk.
    + apply map_filter_lookup_Some in Hk as [Hk _]. by apply H2.
    + rewrite lookup_fmap in Hk. apply fmap_Some in Hk as (w & Hw & ->).
      apply map_filter_lookup_Some in Hw as [Hw _]. apply H2 in Hw as [? ?].
      split; [done|by apply strip_private_wf].
Qed.

Lemma norm_wf b : wf_block b -> wf_block (norm b).
Proof.
  intros []. split; cbn [norm version lighting content_width params_width ndata metadata
    objects timestamp nimap timers]; try done.
  - destruct (27 <=? version b); [done|unfold u16_ok; lia].
  - by apply norm_metadata_wf.
Qed.

(** *** Generated flag *)

Lemma is_valid_generated_flags E s b : ext_ok E -> deserialize E s = Ok b ->
  is_valid_generated E s = (Z.land (b2z (flags b)) 8 =? 0).
Proof.
  intros HE. unfold deserialize, is_valid_generated, MIN_BLOCK_VER, MAX_BLOCK_VER.
  intros H. destruct s as [|v s]; [done|]. cbn [rd_byte bindR] in H.
  destruct (_ || _) eqn:Ev; [done|].
  destruct (Z.leb_spec 29 (b2z v)).
  - destruct (zs_dec E s) as [d|] eqn:Ed; [|done].
    unfold deser_29 in H. destruct d as [|fl d]; [done|]. cbn [rd_byte bindR] in H.
    do 5 dbind H. destruct (negb _ || negb _) eqn:Ew; [done|]. do 4 dbind H. inv H.
    pose proof (zs_first_ok E HE s fl d Ed) as Hf.
    destruct s as [|f t]; [by apply zs_nil in Ed|by rewrite Hf].
  - unfold deser_28 in H. destruct s as [|fl s]; [done|]. cbn [rd_byte bindR] in H.
    do 3 dbind H. destruct (negb _ || negb _) eqn:Ew; [done|]. do 6 dbind H. inv H. done.
Qed.
