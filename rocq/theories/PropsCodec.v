(** C09-C14, C51: strings, sections and whole mapblocks. *)
From Verif Require Import Block SpecFormat FormatProofs BlockProofs Toy.

(** ** C09 *)

Theorem C09_string16_roundtrip : forall E k d, ext_ok E -> full_writes E -> fits16 d -> forall buf,
  write_string16 E k d buf = Ret (buf ++ str16 d) /\
  forall r, read_string16 (str16 d ++ r) = Ok (d, r).
Proof. exact FormatProofs.str16_roundtrip. Qed.
Print Assumptions C09_string16_roundtrip.

Theorem C09_string32_roundtrip : forall E k d, ext_ok E -> full_writes E -> fits32 d -> forall buf,
  write_string32 E k d buf = Ret (buf ++ str32 d) /\
  forall r, read_string32 (str32 d ++ r) = Ok (d, r).
Proof. exact FormatProofs.str32_roundtrip. Qed.
Print Assumptions C09_string32_roundtrip.

Theorem C09_string16_truncated : forall n t, 0 <= n < 65536 -> len t < n ->
  read_string16 (int_be 2 n ++ t) = Err BadData.
Proof. exact FormatProofs.str16_truncated. Qed.
Print Assumptions C09_string16_truncated.

Theorem C09_string32_truncated : forall n t, 0 <= n < 4294967296 -> len t < n ->
  read_string32 (int_be 4 n ++ t) = Err BadData.
Proof. exact FormatProofs.str32_truncated. Qed.
Print Assumptions C09_string32_truncated.

Theorem C09_string16_no_length : forall s, len s < 2 -> read_string16 s = Err BadData.
Proof. exact FormatProofs.str16_no_length. Qed.
Print Assumptions C09_string16_no_length.

Theorem C09_string32_no_length : forall s, len s < 4 -> read_string32 s = Err BadData.
Proof. exact FormatProofs.str32_no_length. Qed.
Print Assumptions C09_string32_no_length.

Theorem C09_string16_too_long_panics : forall E k d buf, ~ fits16 d ->
  write_string16 E k d buf = Panic.
Proof. exact FormatProofs.str16_too_long. Qed.
Print Assumptions C09_string16_too_long_panics.

Theorem C09_string32_too_long_panics : forall E k d buf, ~ fits32 d ->
  write_string32 E k d buf = Panic.
Proof. exact FormatProofs.str32_too_long. Qed.
Print Assumptions C09_string32_too_long_panics.

Example C09_example :
  ext_ok toy_full /\ full_writes toy_full /\ fits16 (bstr "default:dirt") /\
  write_string16 toy_full Zstd (bstr "air") [x07] = Ret [x07; x00; x03; x61; x69; x72] /\
  read_string16 [x00; x03; x61; x69; x72; x09] = Ok (bstr "air", [x09]) /\
  read_string16 [x00; x03; x61; x69] = Err BadData /\
  write_string32 toy_full Plain (bstr "a") [] = Ret [x00; x00; x00; x01; x61].
Proof.
  split; [apply toy_full_ok|]. split; [apply toy_full_writes|].
  split; [by vm_compute|]. by vm_compute.
Qed.

(** ** C10 *)

Theorem C10_name_id_map : forall E k m, ext_ok E -> full_writes E -> wf_nimap m ->
  forall buf, exists d, wr_nimap E k m buf = Ret (buf ++ d) /\
    forall r, rd_nimap (d ++ r) = Ok (m, r).
Proof. exact FormatProofs.nimap_trip. Qed.
Print Assumptions C10_name_id_map.

Theorem C10_node_data : forall nd, wf_nodes nd ->
  forall buf, exists d, wr_node_data nd buf = Ret (buf ++ d) /\
    forall r, rd_node_data (d ++ r) = Ok (nd, r).
Proof. exact FormatProofs.node_data_trip. Qed.
Print Assumptions C10_node_data.

(** [vars_iter E] is any iteration order of the variables; blank entries, and
    below version 28 privacy flags, are what [norm_metadata] removes. *)
Theorem C10_metadata : forall E k m bv, ext_ok E -> full_writes E -> wf_metadata m ->
  forall buf, exists d, wr_metadata E k m bv buf = Ret (buf ++ d) /\
    forall r, rd_metadata (d ++ r) = Ok (norm_metadata bv m, r).
Proof. exact FormatProofs.metadata_trip. Qed.
Print Assumptions C10_metadata.

Theorem C10_objects : forall E k l, ext_ok E -> full_writes E -> wf_objects l ->
  forall buf, exists d, wr_objects E k l buf = Ret (buf ++ d) /\
    forall r, rd_objects (d ++ r) = Ok (l, r).
Proof. exact FormatProofs.objects_trip. Qed.
Print Assumptions C10_objects.

Theorem C10_timers : forall l, wf_timers l ->
  forall buf, exists d, wr_timers l buf = Ret (buf ++ d) /\
    forall r, rd_timers (d ++ r) = Ok (l, r).
Proof. exact FormatProofs.timers_trip. Qed.
Print Assumptions C10_timers.

(** The blank entry at 9 is dropped; the private variable keeps its flag. *)
Example C10_example : wf_block (ex_block 29) /\
  wf_nimap ex_nimap /\ wf_metadata ex_metadata /\ wf_objects ex_objects /\ wf_timers ex_timers /\
  norm_metadata 29 ex_metadata = {[5 := ex_meta]} /\
  vars (strip_private ex_meta) !! bstr "owner" = Some (bstr "singleplayer", false) /\
  match wr_metadata toy_full Zlib ex_metadata 29 [] with
  | Ret d => bool_decide (rd_metadata (d ++ [x05]) = Ok ({[5 := ex_meta]}, [x05])) = true
  | Panic => False
  end.
Proof.
  assert (H : wf_block (ex_block 29)) by by apply ex_block_wf.
  split; [done|]. destruct H. split; [done|]. split; [done|]. split; [done|]. split; [done|].
  split; [by apply (bool_decide_eq_true_1 _); vm_compute|]. by vm_compute.
Qed.

(** ** C11 *)

(** What is saved follows the documented layout of its version. *)
Theorem C11_saved_format : forall E b, ext_ok E -> full_writes E -> wf_block b ->
  exists s, serialize E b = Ret s /\ stored E b s.
Proof. exact FormatProofs.serialize_stored. Qed.
Print Assumptions C11_saved_format.

(** Whatever follows that layout is loaded, in whichever order entries come. *)
Theorem C11_format_loads : forall E b s, wf_block b -> stored E b s ->
  deserialize E s = Ok (norm b).
Proof. exact FormatProofs.deserialize_stored. Qed.
Print Assumptions C11_format_loads.

Theorem C11_roundtrip : forall E b, ext_ok E -> full_writes E -> wf_block b ->
  exists s, serialize E b = Ret s /\ deserialize E s = Ok (norm b).
Proof. exact BlockProofs.block_roundtrip. Qed.
Print Assumptions C11_roundtrip.

Definition trip (v : Z) : option block :=
  match serialize toy_full (ex_block v) with
  | Ret s => match deserialize toy_full s with Ok b => Some b | Err _ => None end
  | Panic => None
  end.
Example C11_example :
  (forall v, 25 <= v <= 29 -> wf_block (ex_block v)) /\
  bool_decide (trip 29 = Some (norm (ex_block 29))) = true /\
  bool_decide (trip 28 = Some (norm (ex_block 28))) = true /\
  bool_decide (trip 27 = Some (norm (ex_block 27))) = true /\
  bool_decide (trip 25 = Some (norm (ex_block 25))) = true /\
  metadata (norm (ex_block 27)) <> metadata (norm (ex_block 28)).
Proof.
  split; [apply ex_block_wf|]. do 4 (split; [by vm_compute|]).
  apply (bool_decide_eq_false_1 _). by vm_compute.
Qed.

(** ** C12 *)

Theorem C12_load_save_load : forall E s b, ext_ok E -> full_writes E -> deserialize E s = Ok b ->
  exists s', serialize E b = Ret s' /\ deserialize E s' = Ok (norm b).
Proof. exact BlockProofs.load_save_load. Qed.
Print Assumptions C12_load_save_load.

(** Loaded blocks are representable; below 27 there is no lighting to lose. *)
Theorem C12_loaded_wf : forall E s b, deserialize E s = Ok b -> wf_block b.
Proof. exact BlockProofs.deserialize_wf. Qed.
Print Assumptions C12_loaded_wf.

Theorem C12_loaded_lighting : forall E s b, deserialize E s = Ok b -> version b < 27 ->
  lighting b = 65535.
Proof. exact BlockProofs.deserialize_lighting. Qed.
Print Assumptions C12_loaded_lighting.

(** The loss happens at most once. *)
Theorem C12_norm_idempotent : forall b, norm (norm b) = norm b.
Proof. exact BlockProofs.norm_idem. Qed.
Print Assumptions C12_norm_idempotent.

Example C12_example :
  match serialize toy_full (ex_block 26) with
  | Ret s => match deserialize toy_full (s ++ [x2a]) with
             | Ok b => bool_decide (b = norm (ex_block 26)) = true
             | Err _ => False end
  | Panic => False end.
Proof. by vm_compute. Qed.

(** ** C13 *)

Theorem C13_version : forall E v s, b2z v < 25 \/ 29 < b2z v ->
  deserialize E (v :: s) = Err InvalidBlockVersion.
Proof. exact FormatProofs.reject_version. Qed.
Print Assumptions C13_version.

Theorem C13_empty : forall E, deserialize E [] = Err BadData.
Proof. exact FormatProofs.reject_empty. Qed.
Print Assumptions C13_empty.

Theorem C13_bad_zstd : forall E s, zs_dec E s = None -> deserialize E (z2b 29 :: s) = Err BadData.
Proof. exact FormatProofs.reject_zstd. Qed.
Print Assumptions C13_bad_zstd.

Theorem C13_width_25_26 : forall E v fl cw pw s, 25 <= b2z v <= 26 ->
  b2z cw <> 2 \/ b2z pw <> 2 ->
  deserialize E ([v; fl; cw; pw] ++ s) = Err InvalidFeature.
Proof. exact FormatProofs.reject_width_26. Qed.
Print Assumptions C13_width_25_26.

Theorem C13_width_27_28 : forall E v fl lc cw pw s, 27 <= b2z v <= 28 -> length lc = 2%nat ->
  b2z cw <> 2 \/ b2z pw <> 2 ->
  deserialize E ([v; fl] ++ lc ++ [cw; pw] ++ s) = Err InvalidFeature.
Proof. exact FormatProofs.reject_width_28. Qed.
Print Assumptions C13_width_27_28.

Theorem C13_width_29 : forall E z fl lc ts m nm cw pw s, wf_nimap m -> stored_nimap m nm ->
  length lc = 2%nat -> length ts = 4%nat ->
  zs_dec E z = Some ([fl] ++ lc ++ ts ++ nm ++ [cw; pw] ++ s) ->
  b2z cw <> 2 \/ b2z pw <> 2 ->
  deserialize E (z2b 29 :: z) = Err InvalidFeature.
Proof. exact FormatProofs.reject_width_29. Qed.
Print Assumptions C13_width_29.

Theorem C13_accepted_only : forall E s b, deserialize E s = Ok b ->
  exists v t, s = v :: t /\ version b = b2z v /\ 25 <= b2z v <= 29 /\
    b2z (content_width b) = 2 /\ b2z (params_width b) = 2.
Proof. exact FormatProofs.accept_only. Qed.
Print Assumptions C13_accepted_only.

Theorem C13_nimap_version : forall v s, b2z v <> 0 -> rd_nimap (v :: s) = Err InvalidSubVersion.
Proof. exact FormatProofs.reject_nimap_version. Qed.
Print Assumptions C13_nimap_version.
Theorem C13_metadata_version : forall v s, 2 < b2z v -> rd_metadata (v :: s) = Err InvalidSubVersion.
Proof. exact FormatProofs.reject_metadata_version. Qed.
Print Assumptions C13_metadata_version.
Theorem C13_objects_version : forall v s, b2z v <> 0 -> rd_objects (v :: s) = Err InvalidSubVersion.
Proof. exact FormatProofs.reject_objects_version. Qed.
Print Assumptions C13_objects_version.
Theorem C13_timers_version : forall v s, b2z v <> 10 -> rd_timers (v :: s) = Err InvalidFeature.
Proof. exact FormatProofs.reject_timers_version. Qed.
Print Assumptions C13_timers_version.

Example C13_example :
  deserialize toy_full [x18] = Err InvalidBlockVersion /\
  deserialize toy_full [x1e; x00] = Err InvalidBlockVersion /\
  deserialize toy_full [x19; x00; x01; x02] = Err InvalidFeature /\
  deserialize toy_full [x1c; x00; xff; xff; x02; x03] = Err InvalidFeature /\
  deserialize toy_full [x1d; x05] = Err BadData /\
  deserialize toy_full [x1a] = Err BadData.
Proof. by vm_compute. Qed.

(** ** C14 *)

(** [c] is what the decoder consumed. *)
Theorem C14_truncated_payload : forall v s b, deser_29 v s = Ok b ->
  exists c r, s = c ++ r /\ (forall r', deser_29 v (c ++ r') = Ok b) /\
    forall c' t, c = c' ++ t -> t <> [] -> deser_29 v c' = Err BadData.
Proof. exact FormatProofs.exact_deser_29. Qed.
Print Assumptions C14_truncated_payload.

Theorem C14_truncated_sections :
  (forall m s r, rd_nimap s = Ok (m, r) -> exists c, s = c ++ r /\
     forall c' t, c = c' ++ t -> t <> [] -> rd_nimap c' = Err BadData) /\
  (forall m s r, rd_metadata s = Ok (m, r) -> exists c, s = c ++ r /\
     forall c' t, c = c' ++ t -> t <> [] -> rd_metadata c' = Err BadData) /\
  (forall m s r, rd_objects s = Ok (m, r) -> exists c, s = c ++ r /\
     forall c' t, c = c' ++ t -> t <> [] -> rd_objects c' = Err BadData) /\
  (forall m s r, rd_timers s = Ok (m, r) -> exists c, s = c ++ r /\
     forall c' t, c = c' ++ t -> t <> [] -> rd_timers c' = Err BadData).
Proof. exact FormatProofs.sections_cut. Qed.
Print Assumptions C14_truncated_sections.

Example C14_example :
  match ser_29 toy_full (ex_block 29) [] with
  | Ret s => bool_decide (deser_29 29 s = Ok (norm (ex_block 29))) = true /\
             deser_29 29 (take (length s - 1) s) = Err BadData
  | Panic => False end.
Proof. by vm_compute. Qed.

(** ** C51 *)

(** The full statement, without assuming that encoders take whole buffers. *)
Definition C51_full : Prop := forall E b, ext_ok E -> wf_block b ->
  exists s, serialize E b = Ret s /\ deserialize E s = Ok (norm b).

(** It is false: [write] may take only part of a string. *)
Theorem C51_saved_whole_refuted : exists E b s, ext_ok E /\ wf_block b /\
  serialize E b = Ret s /\ deserialize E s <> Ok (norm b).
Proof.
  exists (toy 4), (ex_block 29).
  assert (H : match serialize (toy 4) (ex_block 29) with
    | Ret s => match deserialize (toy 4) s with Err InvalidFeature => True | _ => False end
    | Panic => False end) by by vm_compute.
  destruct (serialize (toy 4) (ex_block 29)) as [s|]; [|done].
  exists s. split; [apply toy_ok; lia|]. split; [by apply ex_block_wf|]. split; [done|].
  by destruct (deserialize (toy 4) s).
Qed.
Print Assumptions C51_saved_whole_refuted.

(** What holds: uncompressed sections (objects and names below version 29) are
    never cut, and with whole writes nothing is. *)
Theorem C51_saved_whole_partial : forall E b, ext_ok E -> full_writes E -> wf_block b ->
  exists s, serialize E b = Ret s /\ deserialize E s = Ok (norm b).
Proof. exact BlockProofs.block_roundtrip. Qed.
Print Assumptions C51_saved_whole_partial.
