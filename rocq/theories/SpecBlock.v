(** Specification vocabulary for mapblocks: which values fit the on-disk format,
    and what the format cannot express.  Independent of readers and writers. *)
From Verif Require Export Spec Block.

(** A byte string whose length fits a 16-bit (32-bit) prefix. *)
Definition fits16 (d : bytes) : Prop := Z.of_nat (length d) < 65536.
Definition fits32 (d : bytes) : Prop := Z.of_nat (length d) < 4294967296.

(** [pat] occurs in [s]. *)
Definition occurs (pat s : bytes) : Prop := exists l r, s = l ++ pat ++ r.

(** An inventory text: "EndInventory\n" occurs at its end and nowhere before. *)
Definition terminated (s : bytes) : Prop :=
  (exists b, s = b ++ END_STR) /\ forall l r, s = l ++ END_STR ++ r -> r = [].

Definition wf_nimap (m : nimap_t) : Prop :=
  Z.of_nat (size m) < 65536 /\ map_Forall (fun id name => u16_ok id /\ fits16 name) m.

Definition wf_nodes (nd : node_data) : Prop :=
  Z.of_nat (length (nodes nd)) = 4096 /\ Z.of_nat (length (param1 nd)) = 4096 /\
  Z.of_nat (length (param2 nd)) = 4096 /\ Forall u16_ok (nodes nd).

Definition wf_meta (m : node_meta) : Prop :=
  Z.of_nat (size (vars m)) < 4294967296 /\
  map_Forall (fun name v => fits16 name /\ fits32 v.1) (vars m) /\
  terminated (inv m).

Definition wf_metadata (m : metadata_t) : Prop :=
  Z.of_nat (size m) < 65536 /\ map_Forall (fun pos e => u16_ok pos /\ wf_meta e) m.

Definition wf_object (o : static_object) : Prop :=
  i32_ok (vx (f_pos o)) /\ i32_ok (vy (f_pos o)) /\ i32_ok (vz (f_pos o)) /\ fits16 (odata o).
Definition wf_objects (l : list static_object) : Prop :=
  Z.of_nat (length l) < 65536 /\ Forall wf_object l.

Definition wf_timer (t : node_timer) : Prop :=
  u16_ok (tpos t) /\ u32_ok (timeout t) /\ u32_ok (elapsed t).
Definition wf_timers (l : list node_timer) : Prop :=
  Z.of_nat (length l) < 65536 /\ Forall wf_timer l.

(** A representable mapblock. *)
Record wf_block (b : block) : Prop := {
  wf_version : 25 <= version b <= 29;
  wf_lighting : u16_ok (lighting b);
  wf_cw : b2z (content_width b) = 2;
  wf_pw : b2z (params_width b) = 2;
  wf_nd : wf_nodes (ndata b);
  wf_md : wf_metadata (metadata b);
  wf_os : wf_objects (objects b);
  wf_ts : u32_ok (timestamp b);
  wf_nm : wf_nimap (nimap b);
  wf_tm : wf_timers (timers b) }.

(** An entry without variables and inventory lists, which is not stored. *)
Definition blank (m : node_meta) : Prop := vars m = ∅ /\ inv m = END_STR.
Global Instance blank_dec m : Decision (blank m).
Proof. unfold blank. apply _. Defined.

(** Privacy flags do not exist below version 28. *)
Definition strip_private (m : node_meta) : node_meta :=
  NM ((fun v => (v.1, false)) <$> vars m) (inv m).
Definition norm_metadata (v : Z) (m : metadata_t) : metadata_t :=
  (if 28 <=? v then id else fmap strip_private) (filter (fun e => ~ blank e.2) m).

(** What of a block the format of its version can express. *)
Definition norm (b : block) : block :=
  Block (version b) (flags b) (if 27 <=? version b then lighting b else 65535)
    (content_width b) (params_width b) (ndata b)
    (norm_metadata (version b) (metadata b)) (objects b) (timestamp b) (nimap b) (timers b).
