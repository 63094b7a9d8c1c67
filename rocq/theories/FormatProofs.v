(** The model reads and writes the format of SpecFormat.v *)
From Verif Require Import Block SpecFormat SpatialProofs CodecProofs MapProofs CodecRound BlockProofs.

Lemma int_be_2 z : int_be 2 z = be16 z.
Proof. done. Qed.
Lemma int_be_4 z : int_be 4 z = be32 z.
Proof. unfold be32. simpl. rewrite !Zdiv_Zdiv by lia. done. Qed.
Lemma str16_enc d : str16 d = enc_str16 d.
Proof. done. Qed.
Lemma str32_enc d : str32 d = enc_str32 d.
Proof. unfold str32. by rewrite int_be_4. Qed.

Lemma stored_nodes_enc nd : stored_nodes nd = enc_node_data nd.
Proof. done. Qed.
Lemma stored_objects_enc l : stored_objects l = enc_objects l.
Proof.
  unfold stored_objects, enc_objects. do 3 f_equal. apply list_fmap_ext. intros _ o _.
  unfold enc_object. by rewrite !int_be_4.
Qed.
Lemma stored_timers_enc l : stored_timers l = enc_timers l.
Proof.
  unfold stored_timers, enc_timers. do 3 f_equal. apply list_fmap_ext. intros _ o _.
  unfold enc_timer. by rewrite !int_be_4.
Qed.
Lemma stored_var_enc v e : stored_var v e = enc_var (if 28 <=? v then 2 else 1) e.
Proof. unfold stored_var, enc_var. rewrite str32_enc. by destruct (28 <=? v). Qed.

(** *** What is written is in the format *)

Lemma stored_nimap_enc m : stored_nimap m (enc_nimap m).
Proof. exists (sorted_list m). split; [apply sorted_list_perm|done]. Qed.

Lemma stored_meta_enc E v e : ext_ok E ->
  stored_meta v e (enc_meta_entry E (if 28 <=? v then 2 else 1) e).
Proof.
  intros HE. exists (vars_iter E e.1 (vars e.2)). split; [by apply vars_iter_perm|].
  unfold enc_meta_entry, enc_meta. rewrite int_be_4. do 4 f_equal.
  apply list_fmap_ext. intros. by rewrite stored_var_enc.
Qed.

Lemma kept_perm m : wf_metadata m ->
  kept m ≡ₚ map_to_list (filter (fun e => ~ blank e.2) m).
Proof.
  intros Hm. rewrite <-kept_norm by done. symmetry.
  assert (NoDup (kept m).*1) by apply NoDup_fst_filter, sorted_list_NoDup.
  rewrite insert_all_NoDup by done. by apply map_to_list_to_map.
Qed.

Lemma stored_metadata_enc E v m : ext_ok E -> wf_metadata m ->
  stored_metadata v m (enc_metadata E m v).
Proof.
  intros HE Hm. unfold stored_metadata, enc_metadata. cbv zeta.
  pose proof (kept_perm m Hm) as Hp.
  destruct (Z.eqb_spec (Z.of_nat (length (kept m))) 0) as [E0|E0].
  - left. split; [|done]. assert (kept m = []) as Hn by (destruct (kept m); [done|simpl in E0; lia]).
    rewrite Hn in Hp. symmetry in Hp. apply Permutation_nil_r in Hp. by apply map_to_list_empty_iff.
  - right. split.
    { intros Hn. rewrite Hn, map_to_list_empty in Hp. apply Permutation_nil_r in Hp.
      rewrite Hp in E0. done. }
    exists (kept m), (enc_meta_entry E (if 28 <=? v then 2 else 1) <$> kept m).
    split; [done|]. split.
    + apply Forall2_fmap_r, Forall_Forall2_diag, Forall_true. intros e. by apply stored_meta_enc.
    + do 3 f_equal. f_equal. rewrite Hp. done.
Qed.

Lemma stored_enc E b : ext_ok E -> wf_block b -> stored E b (enc_block E b).
Proof.
  intros HE Hb. unfold stored, enc_block. pose proof (wf_version b Hb) as Hv.
  destruct (Z.eqb_spec (version b) 29) as [E9|E9].
  - replace (29 <=? version b) with true by lia. rewrite E9.
    exists (enc_29 E b), (zs_enc E (enc_29 E b)).
    split; [done|]. split; [by apply zs_round|].
    exists (enc_nimap (nimap b)), (enc_metadata E (metadata b) (version b)).
    split; [apply stored_nimap_enc|]. split; [apply stored_metadata_enc; [done|apply Hb]|].
    by rewrite stored_objects_enc, stored_timers_enc, int_be_4.
  - replace (29 <=? version b) with false by lia. exists (enc_28 E b). split; [done|].
    exists (zl_enc E (enc_node_data (ndata b))), (enc_metadata E (metadata b) (version b)),
      (zl_enc E (enc_metadata E (metadata b) (version b))), (enc_nimap (nimap b)).
    split; [intros r; by apply zl_round|].
    split; [apply stored_metadata_enc; [done|apply Hb]|].
    split; [intros r; by apply zl_round|]. split; [apply stored_nimap_enc|].
    by rewrite stored_objects_enc, stored_timers_enc, int_be_4.
Qed.

Lemma serialize_stored E b : ext_ok E -> full_writes E -> wf_block b ->
  exists s, serialize E b = Ret s /\ stored E b s.
Proof.
  intros HE Hf Hb. exists (enc_block E b). split; [by apply serialize_ok|by apply stored_enc].
Qed.

(** *** What is in the format is read *)

Lemma decodes_stored_nimap m s : wf_nimap m -> stored_nimap m s -> decodes rd_nimap s m.
Proof.
  intros Hm (l & Hl & ->) r. unfold rd_nimap.
  assert (Hlen : size m = length l) by by rewrite Hl.
  rewrite int_be_2, <-!app_assoc. rewrite decodes_byte. cbn [bindR].
  change (b2z (z2b 0)) with 0. cbn [Z.eqb negb].
  rewrite decodes_u16 by (destruct Hm; unfold u16_ok; lia). cbn [bindR]. rewrite Hlen.
  rewrite (decodes_rep rd_nimap_entry l (fun e => int_be 2 e.1 ++ str16 e.2)).
  - simpl. by rewrite (insert_all_perm m l).
  - apply consuming_nimap_entry.
  - apply Forall_forall. intros [id name] Hin. rewrite Hl in Hin.
    apply elem_of_map_to_list in Hin. apply Hm in Hin as [H1 H2]. intros r'.
    unfold rd_nimap_entry. cbn [fst snd]. rewrite int_be_2, str16_enc, <-app_assoc.
    rewrite decodes_u16 by done. cbn [bindR]. by rewrite decodes_str16.
Qed.

Lemma decodes_stored_meta v e s : u16_ok e.1 -> wf_meta e.2 -> stored_meta v e s ->
  decodes (rd_meta_entry (if 28 <=? v then 2 else 1)) s
    (e.1, see_meta (if 28 <=? v then 2 else 1) e.2).
Proof.
  intros H1 Hm (l & Hl & ->) r. set (mv := if 28 <=? v then 2 else 1).
  unfold rd_meta_entry. rewrite int_be_2, int_be_4, <-!app_assoc.
  rewrite decodes_u16 by done. cbn [bindR]. rewrite rd_meta_eq.
  assert (Hlen : size (vars e.2) = length l) by by rewrite Hl.
  rewrite decodes_u32 by (destruct Hm; unfold u32_ok; lia). cbn [bindR]. rewrite Hlen.
  assert (Hd : decodes (rep (rd_var mv) (Z.of_nat (length l))) (concat (stored_var v <$> l))
    ((fun x => (x.1, see_var mv x.2)) <$> l)).
  { apply decodes_rep_map; [apply consuming_var|]. apply Forall_forall.
    intros [k x] Hin. rewrite Hl in Hin. apply elem_of_map_to_list in Hin.
    destruct Hm as (_ & Hm & _). apply Hm in Hin as [? ?].
    rewrite stored_var_enc. by apply decodes_var. }
  rewrite Hd. cbn [bindR]. rewrite decodes_rd_inv by apply Hm. cbn [bindR].
  rewrite (insert_all_fmap (see_var mv) l (vars e.2)) by done. done.
Qed.

Lemma decodes_rep_Forall2 {A X} (p : parser A) (l : list X) (ss : list bytes) (f : X -> A) :
  consuming p -> Forall2 (fun x d => decodes p d (f x)) l ss ->
  decodes (rep p (Z.of_nat (length l))) (concat ss) (f <$> l).
Proof.
  intros Hc Hl r. revert r. induction Hl as [|x d l ss Hx Hl IH]; intros r.
  - rewrite rep_unfold by done. done.
  - rewrite rep_unfold by done. simpl length.
    replace (Z.of_nat (S (length l)) <=? 0) with false by lia.
    csimpl. rewrite <-app_assoc, Hx. simpl.
    replace (Z.of_nat (S (length l)) - 1) with (Z.of_nat (length l)) by lia.
    rewrite IH. done.
Qed.

Lemma Forall2_impl_l {A B} (P : A -> Prop) (Q R : A -> B -> Prop) l k :
  (forall x y, P x -> Q x y -> R x y) -> Forall P l -> Forall2 Q l k -> Forall2 R l k.
Proof. intros H Hl Hk. induction Hk; inversion Hl; subst; constructor; auto. Qed.

Lemma decodes_stored_metadata v m s : wf_metadata m -> stored_metadata v m s ->
  decodes rd_metadata s (norm_metadata v m).
Proof.
  intros Hm Hs r. rewrite <-see_metadata_norm. unfold see_metadata. cbv zeta in Hs.
  unfold stored_metadata in Hs. cbv zeta in Hs.
  set (m' := filter (fun e => ~ blank e.2) m) in *. unfold rd_metadata.
  destruct Hs as [[Hn ->]|(Hn & l & ss & Hl & Hss & ->)].
  { rewrite Hn, decodes_byte. cbn [bindR]. change (b2z (z2b 0)) with 0. simpl.
    by rewrite fmap_empty. }
  set (mv := if 28 <=? v then 2 else 1) in *.
  assert (Hv : b2z (z2b mv) = mv /\ (mv = 1 \/ mv = 2)).
  { unfold mv. destruct (28 <=? v); split; auto. }
  destruct Hv as [Hv Hv']. rewrite <-!app_assoc. rewrite decodes_byte. cbn [bindR]. rewrite Hv.
  replace (2 <? mv) with false by lia. replace (mv =? 0) with false by lia.
  assert (Hlen : size m' = length l) by by rewrite Hl.
  assert (Hle : (size m' <= size m)%nat).
  { rewrite <-!(size_dom (D:=gset Z)). apply subseteq_size, dom_filter_subseteq. }
  rewrite int_be_2, decodes_u16 by (destruct Hm; unfold u16_ok; lia). cbn [bindR]. rewrite Hlen.
  rewrite (decodes_rep_Forall2 (rd_meta_entry mv) l ss (fun e => (e.1, see_meta mv e.2))).
  - cbn [bindR]. rewrite insert_all_fmap_snd. by rewrite (insert_all_perm m' l).
  - apply consuming_meta_entry.
  - apply (Forall2_impl_l (fun e => e ∈ l) (stored_meta v)); [|by apply Forall_forall|done].
    intros e s' He Hs'. rewrite Hl in He. destruct e as [k e]. apply elem_of_map_to_list in He.
    apply map_filter_lookup_Some in He as [He _]. apply Hm in He as [? ?].
    by apply decodes_stored_meta.
Qed.

Lemma deser_29_stored b s : wf_block b -> version b = 29 -> stored_29 b s ->
  deser_29 29 s = Ok (norm b).
Proof.
  intros Hb Hv (nm & md & Hnm & Hmd & ->). unfold deser_29.
  rewrite stored_objects_enc, stored_timers_enc, stored_nodes_enc, int_be_2, int_be_4.
  rewrite decodes_byte. cbn [bindR].
  rewrite decodes_u16 by apply Hb. cbn [bindR].
  rewrite decodes_u32 by apply Hb. cbn [bindR].
  rewrite (decodes_stored_nimap _ _ (wf_nm b Hb) Hnm). cbn [bindR].
  cbn [app rd_byte bindR].
  rewrite (wf_cw b Hb), (wf_pw b Hb). cbn [Z.eqb Pos.eqb negb orb].
  rewrite decodes_node_data by apply Hb. cbn [bindR].
  rewrite (decodes_stored_metadata _ _ _ (wf_md b Hb) Hmd). cbn [bindR].
  rewrite decodes_objects by apply Hb. cbn [bindR].
  rewrite (decodes_nil _ _ _ (decodes_timers _ (wf_tm b Hb))). cbn [bindR].
  unfold norm. rewrite Hv. done.
Qed.

Lemma deser_28_stored E b s : wf_block b -> version b <= 28 -> stored_28 E b s ->
  deser_28 E (version b) s = Ok (norm b).
Proof.
  intros Hb Hv (zn & md & zm & nm & Hzn & Hmd & Hzm & Hnm & ->). unfold deser_28.
  rewrite stored_objects_enc, stored_timers_enc, int_be_2, int_be_4.
  rewrite stored_nodes_enc in Hzn.
  rewrite decodes_byte. cbn [bindR].
  assert (Hl : forall r, (if 27 <=? version b then rd_u16 ((if 27 <=? version b then be16 (lighting b) else []) ++ r)
     else Ok (65535, (if 27 <=? version b then be16 (lighting b) else []) ++ r)) =
     Ok (if 27 <=? version b then lighting b else 65535, r)).
  { intros r. destruct (27 <=? version b); [|done]. apply decodes_u16, Hb. }
  rewrite Hl. cbn [bindR]. cbn [app rd_byte bindR].
  rewrite (wf_cw b Hb), (wf_pw b Hb). cbn [Z.eqb Pos.eqb negb orb].
  unfold rd_node_data_z. rewrite Hzn.
  rewrite (decodes_nil _ _ _ (decodes_node_data _ (wf_nd b Hb))). cbn [bindR].
  cbn [length]. change (Z.of_nat 0) with 0. rewrite drop_app. cbn [Z.eqb negb bindR].
  unfold rd_metadata_z. rewrite Hzm.
  rewrite (decodes_nil _ _ _ (decodes_stored_metadata _ _ _ (wf_md b Hb) Hmd)). cbn [bindR].
  rewrite drop_app. cbn [bindR].
  rewrite decodes_objects by apply Hb. cbn [bindR].
  rewrite decodes_u32 by apply Hb. cbn [bindR].
  rewrite (decodes_stored_nimap _ _ (wf_nm b Hb) Hnm). cbn [bindR].
  rewrite (decodes_nil _ _ _ (decodes_timers _ (wf_tm b Hb))). cbn [bindR].
  done.
Qed.

Lemma deserialize_stored E b s : wf_block b -> stored E b s -> deserialize E s = Ok (norm b).
Proof.
  intros Hb Hs. pose proof (wf_version b Hb) as Hv.
  unfold stored in Hs. unfold deserialize, MIN_BLOCK_VER, MAX_BLOCK_VER.
  destruct (Z.eqb_spec (version b) 29) as [E9|E9].
  - destruct Hs as (p & z & -> & Hz & Hs). cbn [rd_byte bindR].
    change (b2z (z2b 29)) with 29. cbn [Z.ltb Z.leb Z.compare Pos.compare Pos.compare_cont orb].
    rewrite Hz. by apply deser_29_stored.
  - destruct Hs as (t & -> & Hs). cbn [rd_byte bindR].
    assert (Hvb : b2z (z2b (version b)) = version b) by (rewrite b2z_z2b; lia).
    rewrite Hvb. replace (_ || _) with false by lia. replace (29 <=? version b) with false by lia.
    apply deser_28_stored; [done|lia|done].
Qed.

(** *** Rejection *)

Lemma reject_version E v s : b2z v < 25 \/ 29 < b2z v ->
  deserialize E (v :: s) = Err InvalidBlockVersion.
Proof.
  intros H. unfold deserialize, MIN_BLOCK_VER, MAX_BLOCK_VER. cbn [rd_byte bindR].
  replace (_ || _) with true by lia. done.
Qed.
Lemma reject_empty E : deserialize E [] = Err BadData.
Proof. done. Qed.
Lemma reject_zstd E s : zs_dec E s = None -> deserialize E (z2b 29 :: s) = Err BadData.
Proof.
  intros H. unfold deserialize. cbn [rd_byte bindR].
  change (b2z (z2b 29)) with 29. cbn. by rewrite H.
Qed.

(** Widths, versions 27 and 28 (with the lighting field), 25 and 26 *)
Lemma reject_width_28 E v fl lc cw pw s : 27 <= b2z v <= 28 -> length lc = 2%nat ->
  b2z cw <> 2 \/ b2z pw <> 2 ->
  deserialize E ([v; fl] ++ lc ++ [cw; pw] ++ s) = Err InvalidFeature.
Proof.
  intros Hv Hl Hw. destruct lc as [|a [|b [|]]]; try done.
  unfold deserialize, MIN_BLOCK_VER, MAX_BLOCK_VER. cbn [app rd_byte bindR].
  replace (_ || _) with false by lia. replace (29 <=? b2z v) with false by lia.
  unfold deser_28. cbn [rd_byte bindR]. replace (27 <=? b2z v) with true by lia.
  cbn [rd_u16 rd_byte bindR]. replace (_ || _) with true by lia. done.
Qed.
Lemma reject_width_26 E v fl cw pw s : 25 <= b2z v <= 26 ->
  b2z cw <> 2 \/ b2z pw <> 2 ->
  deserialize E ([v; fl; cw; pw] ++ s) = Err InvalidFeature.
Proof.
  intros Hv Hw.
  unfold deserialize, MIN_BLOCK_VER, MAX_BLOCK_VER. cbn [app rd_byte bindR].
  replace (_ || _) with false by lia. replace (29 <=? b2z v) with false by lia.
  unfold deser_28. cbn [rd_byte bindR]. replace (27 <=? b2z v) with false by lia.
  cbn [rd_u16 rd_byte bindR]. replace (_ || _) with true by lia. done.
Qed.
Lemma reject_width_29 E z fl lc ts m nm cw pw s : wf_nimap m -> stored_nimap m nm ->
  length lc = 2%nat -> length ts = 4%nat ->
  zs_dec E z = Some ([fl] ++ lc ++ ts ++ nm ++ [cw; pw] ++ s) ->
  b2z cw <> 2 \/ b2z pw <> 2 ->
  deserialize E (z2b 29 :: z) = Err InvalidFeature.
Proof.
  intros Hm Hnm Hl Ht Hz Hw.
  destruct lc as [|a [|b [|]]]; try done.
  destruct ts as [|t1 [|t2 [|t3 [|t4 [|]]]]]; try done.
  unfold deserialize, MIN_BLOCK_VER, MAX_BLOCK_VER. cbn [app rd_byte bindR].
  change (b2z (z2b 29)) with 29. cbn [Z.ltb Z.leb Z.compare Pos.compare Pos.compare_cont orb].
  rewrite Hz. unfold deser_29. cbn [app rd_byte rd_u16 rd_u32 bindR].
  rewrite (decodes_stored_nimap m nm Hm Hnm). cbn [app rd_byte bindR].
  replace (_ || _) with true by lia. done.
Qed.

(** Decoded blocks only have supported versions and widths. *)
Lemma accept_only E s b : deserialize E s = Ok b ->
  exists v t, s = v :: t /\ version b = b2z v /\ 25 <= b2z v <= 29 /\
    b2z (content_width b) = 2 /\ b2z (params_width b) = 2.
Proof.
  intros H. pose proof (deserialize_wf E s b H) as [].
  unfold deserialize in H. destruct s as [|v t]; [done|]. exists v, t. split; [done|].
  cbn [rd_byte bindR] in H. destruct (_ || _); [done|].
  assert (version b = b2z v) as Hv.
  { destruct (29 <=? b2z v).
    - destruct (zs_dec E t); [|done]. unfold deser_29 in H. do 6 dbind H.
      destruct (negb _ || negb _); [done|]. do 4 dbind H. by inv H.
    - unfold deser_28 in H. do 4 dbind H.
      destruct (negb _ || negb _); [done|]. do 6 dbind H. by inv H. }
  rewrite <-Hv. done.
Qed.

(** *** Truncation *)

Lemma exact_deser_29 v s b : deser_29 v s = Ok b ->
  exists c r, s = c ++ r /\ (forall r', deser_29 v (c ++ r') = Ok b) /\
    forall c' t, c = c' ++ t -> t <> [] -> deser_29 v c' = Err BadData.
Proof.
  set (p := fun s => 
    try (fl, s1) := rd_byte s in
    try (lc, s2) := rd_u16 s1 in
    try (ts, s3) := rd_u32 s2 in
    try (nm, s4) := rd_nimap s3 in
    try (cw, s5) := rd_byte s4 in
    try (pw, s6) := rd_byte s5 in
    if negb (b2z cw =? 2) || negb (b2z pw =? 2) then Err InvalidFeature else
    try (nd, s7) := rd_node_data s6 in
    try (md, s8) := rd_metadata s7 in
    try (os, s9) := rd_objects s8 in
    try (tm, s10) := rd_timers s9 in
    Ok (Block v fl lc cw pw nd md os ts nm tm, s10)).
  assert (Hp : exact p).
  { unfold p. exact_step; [apply exact_rd_byte|]. exact_step; [apply exact_rd_u16|].
    exact_step; [apply exact_rd_u32|]. exact_step; [apply exact_nimap|].
    exact_step; [apply exact_rd_byte|]. exact_step; [apply exact_rd_byte|].
    exact_step; [apply exact_err|].
    exact_step; [apply exact_node_data|]. exact_step; [apply exact_metadata|].
    exact_step; [apply exact_objects|]. exact_step; [apply exact_timers|]. apply exact_ret. }
  assert (He : forall s, deser_29 v s = match p s with Ok (x, _) => Ok x | Err e => Err e end).
  { clear. intros s. unfold deser_29, p.
    repeat match goal with
    | |- context [bindR (?q ?x) _] => destruct (q x) as [[? ?]|]; [|done]; cbn [bindR]
    | |- context [if ?b then _ else _] => destruct b; [done|]
    end. done. }
  intros H. rewrite He in H. destruct (p s) as [[x r]|] eqn:Eq; [|done]. inv H.
  destruct (Hp _ _ _ Eq) as (c & Hc & H1 & H2). exists c, r. split; [done|]. split.
  - intros r'. by rewrite He, H1.
  - intros c' t Ht Hne. by rewrite He, (H2 c' t).
Qed.

(** *** Statements about strings and sections *)

Lemma str16_roundtrip E k d : ext_ok E -> full_writes E -> fits16 d -> forall buf,
  write_string16 E k d buf = Ret (buf ++ str16 d) /\
  forall r, read_string16 (str16 d ++ r) = Ok (d, r).
Proof.
  intros HE Hf Hd buf. split; [by apply emits_str16; [apply full_of_full_writes|]|].
  apply (decodes_str16 d Hd).
Qed.
Lemma str32_roundtrip E k d : ext_ok E -> full_writes E -> fits32 d -> forall buf,
  write_string32 E k d buf = Ret (buf ++ str32 d) /\
  forall r, read_string32 (str32 d ++ r) = Ok (d, r).
Proof.
  intros HE Hf Hd buf. rewrite str32_enc. split; [by apply emits_str32; [apply full_of_full_writes|]|].
  apply (decodes_str32 d Hd).
Qed.
Lemma str16_truncated n t : 0 <= n < 65536 -> len t < n ->
  read_string16 (int_be 2 n ++ t) = Err BadData.
Proof.
  intros Hn Ht. unfold read_string16. rewrite int_be_2, decodes_u16 by done. cbn [bindR].
  unfold try_read_n. unfold len in Ht. by replace (_ <? n) with true by lia.
Qed.
Lemma str32_truncated n t : 0 <= n < 4294967296 -> len t < n ->
  read_string32 (int_be 4 n ++ t) = Err BadData.
Proof.
  intros Hn Ht. unfold read_string32. rewrite int_be_4, decodes_u32 by done. cbn [bindR].
  unfold try_read_n. unfold len in Ht. by replace (_ <? n) with true by lia.
Qed.
Lemma str16_no_length s : len s < 2 -> read_string16 s = Err BadData.
Proof. unfold len. destruct s as [|a [|b s]]; simpl; [done..|lia]. Qed.
Lemma str32_no_length s : len s < 4 -> read_string32 s = Err BadData.
Proof. unfold len. destruct s as [|a [|b [|c [|d s]]]]; simpl; [done..|lia]. Qed.
Lemma str16_too_long E k d buf : ~ fits16 d -> write_string16 E k d buf = Panic.
Proof. unfold fits16, write_string16. intros H. by replace (65536 <=? _) with true by lia. Qed.
Lemma str32_too_long E k d buf : ~ fits32 d -> write_string32 E k d buf = Panic.
Proof. unfold fits32, write_string32. intros H. by replace (4294967296 <=? _) with true by lia. Qed.

(** [w] writes [x] so that [p] reads it back as [y]. *)
Definition section_trip {A} (w : writer) (p : parser A) (y : A) : Prop :=
  forall buf, exists d, w buf = Ret (buf ++ d) /\ forall r, p (d ++ r) = Ok (y, r).

Lemma trip_of {A} w (p : parser A) d y : emits w d -> decodes p d y -> section_trip w p y.
Proof. intros H1 H2 buf. exists d. split; [apply H1|apply H2]. Qed.

Lemma nimap_trip E k m : ext_ok E -> full_writes E -> wf_nimap m ->
  section_trip (wr_nimap E k m) rd_nimap m.
Proof.
  intros. eapply trip_of; [apply emits_nimap; [by apply full_of_full_writes|done]|by apply decodes_nimap].
Qed.
Lemma node_data_trip nd : wf_nodes nd -> section_trip (wr_node_data nd) rd_node_data nd.
Proof. intros. eapply trip_of; [by apply emits_node_data|by apply decodes_node_data]. Qed.
Lemma metadata_trip E k m bv : ext_ok E -> full_writes E -> wf_metadata m ->
  section_trip (wr_metadata E k m bv) rd_metadata (norm_metadata bv m).
Proof.
  intros. eapply trip_of; [apply emits_metadata; [done|by apply full_of_full_writes|by apply wf_fit_metadata]|].
  by apply decodes_metadata.
Qed.
Lemma objects_trip E k l : ext_ok E -> full_writes E -> wf_objects l ->
  section_trip (wr_objects E k l) rd_objects l.
Proof.
  intros. eapply trip_of; [apply emits_objects; [by apply full_of_full_writes|done]|by apply decodes_objects].
Qed.
Lemma timers_trip l : wf_timers l -> section_trip (wr_timers l) rd_timers l.
Proof. intros. eapply trip_of; [by apply emits_timers|by apply decodes_timers]. Qed.

(** Unknown section versions *)
Lemma reject_nimap_version v s : b2z v <> 0 -> rd_nimap (v :: s) = Err InvalidSubVersion.
Proof. intros H. unfold rd_nimap. cbn [rd_byte bindR]. by replace (b2z v =? 0) with false by lia. Qed.
Lemma reject_metadata_version v s : 2 < b2z v -> rd_metadata (v :: s) = Err InvalidSubVersion.
Proof. intros H. unfold rd_metadata. cbn [rd_byte bindR]. by replace (2 <? b2z v) with true by lia. Qed.
Lemma reject_objects_version v s : b2z v <> 0 -> rd_objects (v :: s) = Err InvalidSubVersion.
Proof. intros H. unfold rd_objects. cbn [rd_byte bindR]. by replace (b2z v =? 0) with false by lia. Qed.
Lemma reject_timers_version v s : b2z v <> 10 -> rd_timers (v :: s) = Err InvalidFeature.
Proof. intros H. unfold rd_timers. cbn [rd_byte bindR]. by replace (b2z v =? 10) with false by lia. Qed.

(** Cutting a section short makes it unreadable. *)
Lemma sections_cut : 
  (forall m s r, rd_nimap s = Ok (m, r) -> exists c, s = c ++ r /\
     forall c' t, c = c' ++ t -> t <> [] -> rd_nimap c' = Err BadData) /\
  (forall m s r, rd_metadata s = Ok (m, r) -> exists c, s = c ++ r /\
     forall c' t, c = c' ++ t -> t <> [] -> rd_metadata c' = Err BadData) /\
  (forall m s r, rd_objects s = Ok (m, r) -> exists c, s = c ++ r /\
     forall c' t, c = c' ++ t -> t <> [] -> rd_objects c' = Err BadData) /\
  (forall m s r, rd_timers s = Ok (m, r) -> exists c, s = c ++ r /\
     forall c' t, c = c' ++ t -> t <> [] -> rd_timers c' = Err BadData).
Proof.
  assert (Hx : forall A (p : parser A), exact p -> forall m s r, p s = Ok (m, r) ->
    exists c, s = c ++ r /\ forall c' t, c = c' ++ t -> t <> [] -> p c' = Err BadData).
  { intros A p Hp m s r H. destruct (Hp _ _ _ H) as (c & ? & _ & ?). eauto. }
  split; [|split; [|split]]; apply Hx;
    [apply exact_nimap|apply exact_metadata|apply exact_objects|apply exact_timers].
Qed.
