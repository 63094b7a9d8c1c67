(** The on-disk format of a mapblock as a relation between blocks and bytes,
    independent of the readers and writers of the model.  Sections that are maps
    may list their entries in any order. *)
From Verif Require Export SpecBlock.

(** [n]-byte big-endian integer, two's complement *)
Fixpoint int_be (n : nat) (z : Z) : bytes :=
  match n with O => [] | S n => int_be n (z / 256) ++ [z2b z] end.

Definition len (d : bytes) : Z := Z.of_nat (length d).
Definition str16 (d : bytes) : bytes := int_be 2 (len d) ++ d.
Definition str32 (d : bytes) : bytes := int_be 4 (len d) ++ d.

Definition stored_nimap (m : nimap_t) (s : bytes) : Prop := exists l,
  l ≡ₚ map_to_list m /\
  s = [z2b 0] ++ int_be 2 (Z.of_nat (size m)) ++
      concat ((fun e => int_be 2 e.1 ++ str16 e.2) <$> l).

Definition stored_nodes (nd : node_data) : bytes :=
  concat (int_be 2 <$> nodes nd) ++ param1 nd ++ param2 nd.

(** [v] is the block version; privacy flags came with 28. *)
Definition stored_var (v : Z) (e : bytes * (bytes * bool)) : bytes :=
  str16 e.1 ++ str32 e.2.1 ++ (if 28 <=? v then [z2b (if e.2.2 then 1 else 0)] else []).
Definition stored_meta (v : Z) (e : Z * node_meta) (s : bytes) : Prop := exists l,
  l ≡ₚ map_to_list (vars e.2) /\
  s = int_be 2 e.1 ++ int_be 4 (Z.of_nat (size (vars e.2))) ++
      concat (stored_var v <$> l) ++ inv e.2.
Definition stored_metadata (v : Z) (m : metadata_t) (s : bytes) : Prop :=
  let m' := filter (fun e => ~ blank e.2) m in
  (m' = ∅ /\ s = [z2b 0]) \/
  (m' <> ∅ /\ exists l ss, l ≡ₚ map_to_list m' /\ Forall2 (stored_meta v) l ss /\
    s = [z2b (if 28 <=? v then 2 else 1)] ++ int_be 2 (Z.of_nat (size m')) ++ concat ss).

Definition stored_objects (l : list static_object) : bytes :=
  [z2b 0] ++ int_be 2 (Z.of_nat (length l)) ++
  concat ((fun o => [obj_type o] ++ int_be 4 (vx (f_pos o)) ++ int_be 4 (vy (f_pos o))
    ++ int_be 4 (vz (f_pos o)) ++ str16 (odata o)) <$> l).
Definition stored_timers (l : list node_timer) : bytes :=
  [z2b 10] ++ int_be 2 (Z.of_nat (length l)) ++
  concat ((fun t => int_be 2 (tpos t) ++ int_be 4 (timeout t) ++ int_be 4 (elapsed t)) <$> l).

(** [z] is a zlib stream of [d], whatever comes after it. *)
Definition zlib_of (E : ext) (d z : bytes) : Prop :=
  forall rest, zl_dec E (z ++ rest) = Some (d, length z).

(** Version 29: all one zstd stream, timestamp and name-ID map first. *)
Definition stored_29 (b : block) (s : bytes) : Prop := exists nm md,
  stored_nimap (nimap b) nm /\ stored_metadata (version b) (metadata b) md /\
  s = [flags b] ++ int_be 2 (lighting b) ++ int_be 4 (timestamp b) ++ nm ++
      [content_width b; params_width b] ++ stored_nodes (ndata b) ++ md ++
      stored_objects (objects b) ++ stored_timers (timers b).

(** Older versions: nodes and metadata in zlib streams of their own. *)
Definition stored_28 (E : ext) (b : block) (s : bytes) : Prop := exists zn md zm nm,
  zlib_of E (stored_nodes (ndata b)) zn /\
  stored_metadata (version b) (metadata b) md /\ zlib_of E md zm /\
  stored_nimap (nimap b) nm /\
  s = [flags b] ++ (if 27 <=? version b then int_be 2 (lighting b) else []) ++
      [content_width b; params_width b] ++ zn ++ zm ++
      stored_objects (objects b) ++ int_be 4 (timestamp b) ++ nm ++ stored_timers (timers b).

Definition stored (E : ext) (b : block) (s : bytes) : Prop :=
  if version b =? 29 then exists p z, s = z2b 29 :: z /\ zs_dec E z = Some p /\ stored_29 b p
  else exists t, s = z2b (version b) :: t /\ stored_28 E b t.
