(** Round trips of the sections of a mapblock *)
From Verif Require Import Codec SpecBlock CodecProofs MapProofs.

Definition emits (w : writer) (d : bytes) : Prop := forall buf, w buf = Ret (buf ++ d).

(** Encoders of kind [k] take whole buffers. *)
Definition full (E : ext) (k : sink) : Prop :=
  forall buf d, accept E k buf d = length d.

Lemma full_of_full_writes E k : full_writes E -> full E k.
Proof. intros H buf d. apply H. Qed.
Lemma full_plain E : ext_ok E -> full E Plain.
Proof. intros H buf d. by apply accept_plain. Qed.

Lemma emits_seq w1 w2 d1 d2 : emits w1 d1 -> emits w2 d2 -> emits (w1 >>> w2) (d1 ++ d2).
Proof. intros H1 H2 buf. unfold wseq. rewrite H1. simpl. rewrite H2, app_assoc. done. Qed.
Lemma emits_all d : emits (wr_all d) d.
Proof. intros buf. done. Qed.
Lemma emits_nop : emits wnop [].
Proof. intros buf. unfold wnop. by rewrite app_nil_r. Qed.
Lemma emits_once E k d : full E k -> emits (wr_once E k d) d.
Proof. intros H buf. unfold wr_once. rewrite H, firstn_all. done. Qed.
Lemma emits_list {A} (f : A -> writer) (e : A -> bytes) l :
  Forall (fun x => emits (f x) (e x)) l -> emits (wlist f l) (concat (e <$> l)).
Proof.
  intros H. induction H as [|x l Hx Hl IH]; intros buf; simpl.
  - by rewrite app_nil_r.
  - unfold wseq. rewrite Hx. simpl. rewrite IH, app_assoc. done.
Qed.

Lemma decodes_rep_map {A X} (p : parser A) (l : list X) (e : X -> bytes) (f : X -> A) :
  consuming p -> Forall (fun x => decodes p (e x) (f x)) l ->
  decodes (rep p (Z.of_nat (length l))) (concat (e <$> l)) (f <$> l).
Proof.
  intros Hc Hl r. revert r. induction Hl as [|x l Hx Hl IH]; intros r.
  - rewrite rep_unfold by done. done.
  - rewrite rep_unfold by done. simpl length.
    replace (Z.of_nat (S (length l)) <=? 0) with false by lia.
    csimpl. rewrite <-app_assoc, Hx. simpl.
    replace (Z.of_nat (S (length l)) - 1) with (Z.of_nat (length l)) by lia.
    rewrite IH. done.
Qed.

(** *** Integers and strings *)

Lemma decodes_byte b : decodes rd_byte [b] b.
Proof. intros r. done. Qed.
Lemma decodes_u16 z : u16_ok z -> decodes rd_u16 (be16 z) z.
Proof.
  intros Hz r. unfold rd_u16, be16, be16_dec; simpl.
  rewrite !b2z_z2b. do 2 f_equal. unfold u16_ok in Hz. lia.
Qed.
Lemma decodes_u32 z : u32_ok z -> decodes rd_u32 (be32 z) z.
Proof.
  intros Hz r. unfold rd_u32, be32; simpl.
  rewrite !b2z_z2b. do 2 f_equal. unfold u32_ok in Hz. lia.
Qed.
Lemma decodes_i32 z : i32_ok z -> decodes rd_i32 (be32 z) z.
Proof.
  intros Hz r. unfold rd_i32, rd_u32, be32; simpl.
  rewrite !b2z_z2b. do 2 f_equal. unfold i32_ok in Hz. unfold w32.
  assert (((((z / 16777216) mod 256 * 256 + (z / 65536) mod 256) * 256 + (z / 256) mod 256) * 256
    + z mod 256) = z mod 4294967296) as -> by lia. lia.
Qed.

Lemma decodes_rd_n d : decodes (rd_n (length d)) d d.
Proof.
  intros r. unfold rd_n. rewrite app_length, decide_True by lia.
  by rewrite take_app, drop_app.
Qed.
Lemma decodes_try_read_n d n : n = Z.of_nat (length d) -> decodes (try_read_n n) d d.
Proof.
  intros -> r. rewrite try_read_n_eq by lia. rewrite Nat2Z.id. apply decodes_rd_n.
Qed.

Definition enc_str16 (d : bytes) : bytes := be16 (Z.of_nat (length d)) ++ d.
Definition enc_str32 (d : bytes) : bytes := be32 (Z.of_nat (length d)) ++ d.

Lemma decodes_str16 d : fits16 d -> decodes read_string16 (enc_str16 d) d.
Proof.
  intros H. apply (decodes_bind rd_u16 try_read_n _ _ (Z.of_nat (length d))).
  - apply decodes_u16. unfold u16_ok, fits16 in *. lia.
  - by apply decodes_try_read_n.
Qed.
Lemma decodes_str32 d : fits32 d -> decodes read_string32 (enc_str32 d) d.
Proof.
  intros H. apply (decodes_bind rd_u32 try_read_n _ _ (Z.of_nat (length d))).
  - apply decodes_u32. unfold u32_ok, fits32 in *. lia.
  - by apply decodes_try_read_n.
Qed.
Lemma emits_str16 E k d : full E k -> fits16 d -> emits (write_string16 E k d) (enc_str16 d).
Proof.
  intros Hf H buf. unfold write_string16, fits16 in *.
  destruct (Z.leb_spec 65536 (Z.of_nat (length d))); [lia|].
  apply emits_seq; [apply emits_all|by apply emits_once].
Qed.
Lemma emits_str32 E k d : full E k -> fits32 d -> emits (write_string32 E k d) (enc_str32 d).
Proof.
  intros Hf H buf. unfold write_string32, fits32 in *.
  destruct (Z.leb_spec 4294967296 (Z.of_nat (length d))); [lia|].
  apply emits_seq; [apply emits_all|by apply emits_once].
Qed.

(** *** Name-ID map *)

Definition enc_nimap_entry (e : Z * bytes) : bytes := be16 e.1 ++ enc_str16 e.2.
Definition enc_nimap (m : nimap_t) : bytes :=
  [z2b 0] ++ be16 (Z.of_nat (size m)) ++ concat (enc_nimap_entry <$> sorted_list m).

Lemma nimap_entries m : wf_nimap m ->
  Forall (fun e => u16_ok e.1 /\ fits16 e.2) (sorted_list m).
Proof.
  intros [_ H]. apply Forall_forall. intros [k v] Hk. apply elem_of_sorted_list in Hk.
  by apply (H k v).
Qed.

Lemma emits_nimap E k m : full E k -> wf_nimap m -> emits (wr_nimap E k m) (enc_nimap m).
Proof.
  intros Hf Hm. unfold enc_nimap. rewrite app_assoc. repeat apply emits_seq.
  - apply emits_all.
  - apply emits_all.
  - apply emits_list. eapply Forall_impl; [by apply nimap_entries|].
    intros e [H1 H2]. apply emits_seq; [apply emits_all|by apply emits_str16].
Qed.

Lemma decodes_nimap m : wf_nimap m -> decodes rd_nimap (enc_nimap m) m.
Proof.
  intros Hm r. unfold rd_nimap, enc_nimap. rewrite <-(sorted_list_length m).
  rewrite <-!app_assoc.
  rewrite decodes_byte. cbn [bindR]. change (b2z (z2b 0)) with 0. cbn [Z.eqb negb].
  rewrite decodes_u16.
  2:{ rewrite sorted_list_length. destruct Hm. unfold u16_ok. lia. }
  cbn [bindR].
  rewrite (decodes_rep rd_nimap_entry (sorted_list m) enc_nimap_entry).
  - simpl. by rewrite insert_all_sorted.
  - apply consuming_nimap_entry.
  - eapply Forall_impl; [by apply nimap_entries|]. intros [id name] [H1 H2].
    apply (decodes_bind rd_u16 (fun id s1 => try (name, s2) := read_string16 s1 in
      Ok ((id, name), s2)) _ _ id); [by apply decodes_u16|].
    rewrite <-(app_nil_r (enc_str16 _)).
    apply (decodes_bind read_string16 (fun name s2 => Ok ((id, name), s2)) _ _ name).
    + by apply decodes_str16.
    + apply decodes_ret.
Qed.

(** *** Node data *)

Definition enc_node_data (nd : node_data) : bytes :=
  concat (be16 <$> nodes nd) ++ param1 nd ++ param2 nd.

Lemma emits_node_data nd : wf_nodes nd -> emits (wr_node_data nd) (enc_node_data nd).
Proof.
  intros (H1 & H2 & H3 & H4) buf. unfold wr_node_data. rewrite H1. simpl negb. cbv iota.
  unfold enc_node_data. rewrite (app_assoc (concat _)).
  apply (emits_seq (wr_all _ >>> wr_all _)); [apply emits_seq; apply emits_all|apply emits_all].
Qed.

Lemma dec16s_enc l : Forall u16_ok l -> dec16s (concat (be16 <$> l)) = l.
Proof.
  intros H. induction H as [|z l Hz Hl IH]; [done|]. csimpl. unfold be16. simpl.
  f_equal; [|done]. unfold be16_dec. rewrite !b2z_z2b. unfold u16_ok in Hz. lia.
Qed.
Lemma enc16_length l : length (concat (be16 <$> l)) = (2 * length l)%nat.
Proof. induction l as [|z l IH]; [done|]. csimpl. rewrite IH. lia. Qed.

Lemma decodes_node_data nd : wf_nodes nd -> decodes rd_node_data (enc_node_data nd) nd.
Proof.
  intros (H1 & H2 & H3 & H4) r. unfold rd_node_data, enc_node_data.
  rewrite <-app_assoc.
  replace (Z.to_nat 8192) with (length (concat (be16 <$> nodes nd))) by (rewrite enc16_length; lia).
  rewrite decodes_rd_n. cbn [bindR]. rewrite <-app_assoc.
  replace (Z.to_nat 4096) with (length (param1 nd)) at 1 by lia.
  rewrite decodes_rd_n. cbn [bindR].
  replace (Z.to_nat 4096) with (length (param2 nd)) at 1 by lia.
  rewrite decodes_rd_n. cbn [bindR]. rewrite dec16s_enc by done. by destruct nd.
Qed.

(** *** Metadata *)

Definition enc_var (v : Z) (e : bytes * (bytes * bool)) : bytes :=
  enc_str16 e.1 ++ enc_str32 e.2.1 ++ (if 2 <=? v then [z2b (if e.2.2 then 1 else 0)] else []).
Definition enc_meta (E : ext) (v pos : Z) (m : node_meta) : bytes :=
  be32 (Z.of_nat (size (vars m))) ++ concat (enc_var v <$> vars_iter E pos (vars m)) ++ inv m.

(** The entry as a reader of version [v] metadata sees it *)
Definition see_var (v : Z) (x : bytes * bool) : bytes * bool :=
  (x.1, if 2 <=? v then x.2 else false).
Definition see_meta (v : Z) (m : node_meta) : node_meta := NM (see_var v <$> vars m) (inv m).

(** Variables that fit their length prefixes *)
Definition fit_meta (m : node_meta) : Prop :=
  map_Forall (fun name v => fits16 name /\ fits32 v.1) (vars m).
Lemma wf_fit_meta m : wf_meta m -> fit_meta m.
Proof. by intros (_ & H & _). Qed.
Definition fit_metadata (m : metadata_t) : Prop := map_Forall (fun _ e => fit_meta e) m.
Lemma wf_fit_metadata m : wf_metadata m -> fit_metadata m.
Proof. intros [_ H] k e Hk. apply wf_fit_meta. by apply (H k e). Qed.

Lemma vars_entries E pos m : ext_ok E -> fit_meta m ->
  Forall (fun e => fits16 e.1 /\ fits32 e.2.1) (vars_iter E pos (vars m)).
Proof.
  intros HE H. apply Forall_forall. intros [k v] Hk.
  rewrite vars_iter_perm in Hk by done.
  apply elem_of_map_to_list in Hk. by apply (H k v).
Qed.

Lemma emits_var E k v e : full E k -> fits16 e.1 -> fits32 e.2.1 ->
  emits (wr_var E k v e) (enc_var v e).
Proof.
  intros Hf H1 H2. unfold wr_var, enc_var. rewrite app_assoc. apply emits_seq.
  - apply emits_seq; [by apply emits_str16|by apply emits_str32].
  - destruct (2 <=? v); [apply emits_all|apply emits_nop].
Qed.

Lemma emits_meta E k v pos m : ext_ok E -> full E k -> fit_meta m ->
  emits (wr_meta E k v pos m) (enc_meta E v pos m).
Proof.
  intros HE Hf Hm. unfold wr_meta, enc_meta. rewrite app_assoc. repeat apply emits_seq.
  - apply emits_all.
  - apply emits_list. eapply Forall_impl; [by apply vars_entries|].
    intros e [H1 H2]. by apply emits_var.
  - apply emits_all.
Qed.

Lemma decodes_var v e : fits16 e.1 -> fits32 e.2.1 ->
  decodes (rd_var v) (enc_var v e) (e.1, see_var v e.2).
Proof.
  intros H1 H2 r. unfold rd_var, enc_var, see_var. rewrite <-!app_assoc.
  rewrite decodes_str16 by done. cbn [bindR]. rewrite decodes_str32 by done. cbn [bindR].
  destruct (2 <=? v); [|done]. simpl.
  destruct e as [n [d p]]; simpl. by destruct p.
Qed.

Lemma insert_all_fmap (f : bytes * bool -> bytes * bool) (l : list (bytes * (bytes * bool))) m :
  l ≡ₚ map_to_list m ->
  insert_all ((fun e => (e.1, f e.2)) <$> l) = f <$> m.
Proof.
  intros H. apply insert_all_perm. rewrite H, map_to_list_fmap. done.
Qed.

Lemma decodes_meta E v pos m : ext_ok E -> wf_meta m ->
  decodes (rd_meta v) (enc_meta E v pos m) (see_meta v m).
Proof.
  intros HE Hm r. rewrite rd_meta_eq. unfold enc_meta. rewrite <-!app_assoc.
  rewrite decodes_u32.
  2:{ destruct Hm. unfold u32_ok. lia. }
  cbn [bindR].
  set (l := vars_iter E pos (vars m)).
  assert (Hl : l ≡ₚ map_to_list (vars m)) by by apply vars_iter_perm.
  set (l' := (fun e => (e.1, see_var v e.2)) <$> l).
  assert (Hlen : length l = size (vars m)) by by rewrite Hl.
  rewrite <-Hlen.
  assert (Hd : decodes (rep (rd_var v) (Z.of_nat (length l))) (concat (enc_var v <$> l)) l').
  { apply decodes_rep_map; [apply consuming_var|].
    eapply Forall_impl; [by apply vars_entries, wf_fit_meta|].
    intros e [H1 H2]. by apply decodes_var. }
  rewrite Hd. cbn [bindR]. rewrite decodes_rd_inv by apply Hm. cbn [bindR].
  unfold l'. rewrite (insert_all_fmap (see_var v) l (vars m)) by done. done.
Qed.

Definition enc_meta_entry (E : ext) (v : Z) (e : Z * node_meta) : bytes :=
  be16 e.1 ++ enc_meta E v e.1 e.2.
Definition kept (m : metadata_t) : list (Z * node_meta) :=
  filter (fun e => meta_is_empty e.2 = false) (sorted_list m).
Definition enc_metadata (E : ext) (m : metadata_t) (bv : Z) : bytes :=
  let l := kept m in
  if Z.of_nat (length l) =? 0 then [z2b 0]
  else let v := if 28 <=? bv then 2 else 1 in
    [z2b v] ++ be16 (Z.of_nat (length l)) ++ concat (enc_meta_entry E v <$> l).

Lemma metadata_entries m : wf_metadata m ->
  Forall (fun e => u16_ok e.1 /\ wf_meta e.2) (kept m).
Proof.
  intros [_ H]. apply Forall_forall. intros [k v] Hk.
  apply elem_of_list_filter in Hk as [_ Hk]. apply elem_of_sorted_list in Hk.
  by apply (H k v).
Qed.
Lemma kept_length m : (length (kept m) <= size m)%nat.
Proof. unfold kept. rewrite filter_length. by rewrite sorted_list_length. Qed.

Lemma fit_entries m : fit_metadata m -> Forall (fun e => fit_meta e.2) (kept m).
Proof.
  intros H. apply Forall_forall. intros [k v] Hk.
  apply elem_of_list_filter in Hk as [_ Hk]. apply elem_of_sorted_list in Hk.
  by apply (H k v).
Qed.
Lemma emits_metadata E k m bv : ext_ok E -> full E k -> fit_metadata m ->
  emits (wr_metadata E k m bv) (enc_metadata E m bv).
Proof.
  intros HE Hf Hm. unfold wr_metadata, enc_metadata. fold (kept m).
  destruct (Z.of_nat (length (kept m)) =? 0); [apply emits_all|]. cbv zeta.
  rewrite app_assoc. repeat apply emits_seq; [apply emits_all..|].
  apply emits_list. eapply Forall_impl; [by apply fit_entries|].
  intros e H. apply emits_seq; [apply emits_all|by apply emits_meta].
Qed.

(** For representable entries the emptiness test is exact. *)
Lemma meta_is_empty_spec m : wf_meta m -> meta_is_empty m = false <-> ~ blank m.
Proof.
  intros (_ & _ & Ht). unfold meta_is_empty, blank.
  assert (take (length END_STR) (inv m) = END_STR <-> inv m = END_STR) as Hi.
  { split; [|intros ->; done]. intros E. apply prefix_take in E as [r E].
    destruct Ht as [_ Ht]. specialize (Ht [] r E). subst r. by rewrite app_nil_r in E. }
  rewrite andb_false_iff, !bool_decide_eq_false, Hi. 
  destruct (decide (vars m = ∅)); destruct (decide (inv m = END_STR)); naive_solver.
Qed.

Lemma kept_norm m : wf_metadata m -> insert_all (kept m) = filter (fun e => ~ blank e.2) m.
Proof.
  intros [_ Hm]. unfold kept. rewrite insert_all_filter.
  apply map_filter_strong_ext. intros k e. split; intros [H1 H2]; (split; [|done]);
    apply Hm in H2 as [_ H2]; apply (meta_is_empty_spec e H2); done.
Qed.

Definition see_metadata (bv : Z) (m : metadata_t) : metadata_t :=
  see_meta (if 28 <=? bv then 2 else 1) <$> filter (fun e => ~ blank e.2) m.

Lemma see_metadata_norm bv m : see_metadata bv m = norm_metadata bv m.
Proof.
  unfold see_metadata, norm_metadata. destruct (28 <=? bv).
  - rewrite <-(map_fmap_id (filter _ m)) at 2. apply map_fmap_ext.
    intros k [vs iv] _. unfold see_meta, see_var, id; simpl. f_equal.
    rewrite <-(map_fmap_id vs) at 2. apply map_fmap_ext. by intros ? [].
  - apply map_fmap_ext. intros k [vs iv] _. done.
Qed.

Lemma insert_all_fmap_snd {V W} (f : V -> W) (l : list (Z * V)) :
  insert_all ((fun e => (e.1, f e.2)) <$> l) = f <$> insert_all l.
Proof.
  induction l as [|x l IH] using rev_ind.
  - unfold insert_all. simpl. by rewrite fmap_empty.
  - rewrite fmap_app. csimpl. rewrite !insert_all_snoc, IH. simpl. by rewrite fmap_insert.
Qed.

Lemma decodes_meta_entry E v e : ext_ok E -> u16_ok e.1 -> wf_meta e.2 ->
  decodes (rd_meta_entry v) (enc_meta_entry E v e) (e.1, see_meta v e.2).
Proof.
  intros HE H1 H2 r. unfold rd_meta_entry, enc_meta_entry. rewrite <-app_assoc.
  rewrite decodes_u16 by done. cbn [bindR]. rewrite decodes_meta by done. done.
Qed.

Lemma decodes_metadata E m bv : ext_ok E -> wf_metadata m ->
  decodes rd_metadata (enc_metadata E m bv) (norm_metadata bv m).
Proof.
  intros HE Hm r. rewrite <-see_metadata_norm. unfold see_metadata.
  rewrite <-kept_norm by done.
  unfold rd_metadata, enc_metadata.
  destruct (Z.eqb_spec (Z.of_nat (length (kept m))) 0) as [E0|E0].
  { assert (kept m = []) as -> by (destruct (kept m); [done|simpl in E0; lia]).
    simpl. unfold insert_all. simpl. by rewrite fmap_empty. }
  cbv zeta. set (v := if 28 <=? bv then 2 else 1).
  assert (Hv : b2z (z2b v) = v /\ (v = 1 \/ v = 2)).
  { unfold v. destruct (28 <=? bv); split; auto. }
  destruct Hv as [Hv Hv'].
  rewrite <-!app_assoc. rewrite decodes_byte. cbn [bindR]. rewrite Hv.
  replace (2 <? v) with false by lia. replace (v =? 0) with false by lia.
  rewrite decodes_u16.
  2:{ destruct Hm. pose proof (kept_length m). unfold u16_ok. lia. }
  cbn [bindR].
  set (l' := (fun e => (e.1, see_meta v e.2)) <$> kept m).
  assert (Hd : decodes (rep (rd_meta_entry v) (Z.of_nat (length (kept m))))
    (concat (enc_meta_entry E v <$> kept m)) l').
  { apply decodes_rep_map; [apply consuming_meta_entry|].
    eapply Forall_impl; [by apply metadata_entries|].
    intros e [H1 H2]. by apply decodes_meta_entry. }
  rewrite Hd. cbn [bindR]. unfold l'. by rewrite insert_all_fmap_snd.
Qed.

(** *** Objects and timers *)

Definition enc_object (o : static_object) : bytes :=
  [obj_type o] ++ be32 (vx (f_pos o)) ++ be32 (vy (f_pos o)) ++ be32 (vz (f_pos o))
  ++ enc_str16 (odata o).
Definition enc_objects (l : list static_object) : bytes :=
  [z2b 0] ++ be16 (Z.of_nat (length l)) ++ concat (enc_object <$> l).

Lemma emits_objects E k l : full E k -> wf_objects l -> emits (wr_objects E k l) (enc_objects l).
Proof.
  intros Hf [_ Hl]. unfold wr_objects, enc_objects. rewrite app_assoc.
  repeat apply emits_seq; [apply emits_all..|]. apply emits_list.
  eapply Forall_impl; [exact Hl|]. intros o (H1 & H2 & H3 & H4).
  unfold wr_object, enc_object. rewrite !app_assoc.
  repeat apply emits_seq; [apply emits_all..|by apply emits_str16].
Qed.

Lemma decodes_object o : wf_object o -> decodes rd_object (enc_object o) o.
Proof.
  intros (H1 & H2 & H3 & H4) r. unfold rd_object, enc_object. rewrite <-!app_assoc.
  rewrite decodes_byte. cbn [bindR]. rewrite decodes_i32 by done. cbn [bindR].
  rewrite decodes_i32 by done. cbn [bindR]. rewrite decodes_i32 by done. cbn [bindR].
  rewrite decodes_str16 by done. cbn [bindR]. by destruct o as [? [] ?].
Qed.

Lemma decodes_objects l : wf_objects l -> decodes rd_objects (enc_objects l) l.
Proof.
  intros [H1 H2] r. unfold rd_objects, enc_objects. rewrite <-!app_assoc.
  rewrite decodes_byte. cbn [bindR]. change (b2z (z2b 0)) with 0. cbn [Z.eqb negb].
  rewrite decodes_u16 by (unfold u16_ok; lia). cbn [bindR].
  apply decodes_rep; [apply consuming_object|].
  eapply Forall_impl; [exact H2|]. intros o. apply decodes_object.
Qed.

Definition enc_timer (t : node_timer) : bytes :=
  be16 (tpos t) ++ be32 (timeout t) ++ be32 (elapsed t).
Definition enc_timers (l : list node_timer) : bytes :=
  [z2b 10] ++ be16 (Z.of_nat (length l)) ++ concat (enc_timer <$> l).

Lemma emits_timers l : emits (wr_timers l) (enc_timers l).
Proof.
  unfold wr_timers, enc_timers. rewrite app_assoc.
  repeat apply emits_seq; [apply emits_all..|]. apply emits_list.
  apply Forall_true. intros t. unfold wr_timer, enc_timer. rewrite app_assoc.
  repeat apply emits_seq; apply emits_all.
Qed.

Lemma decodes_timers l : wf_timers l -> decodes rd_timers (enc_timers l) l.
Proof.
  intros [H1 H2] r. unfold rd_timers, enc_timers. rewrite <-!app_assoc.
  rewrite decodes_byte. cbn [bindR]. change (b2z (z2b 10)) with 10. cbn [Z.eqb Pos.eqb negb].
  rewrite decodes_u16 by (unfold u16_ok; lia). cbn [bindR].
  apply decodes_rep; [apply consuming_timer|].
  eapply Forall_impl; [exact H2|]. intros t (Ha & Hb & Hc) r'.
  unfold rd_timer, enc_timer. rewrite <-!app_assoc.
  rewrite decodes_u16 by done. cbn [bindR]. rewrite decodes_u32 by done. cbn [bindR].
  rewrite decodes_u32 by done. by destruct t.
Qed.
