(** Model of src/map_block/{mod,metadata,name_id_map,node_data,node_timer,
    static_object}.rs: the readers and writers of each section of a mapblock. *)
From Verif Require Export Spatial.

(** * Externals

    Behaviour of the flate2 and zstd crates and of [HashMap] iteration.
    [zl_dec s] is what a [ZlibDecoder] reading [s] to its end yields: the
    output and the number of input bytes consumed ([total_in]); [None] is an I/O
    error.  [zs_dec] is [zstd::stream::decode_all], [zs_first] the first byte
    obtained from a streaming [zstd::stream::Decoder].  [accept k buf d] is the
    number of bytes of [d] taken by one call of [Write::write] on an encoder of
    kind [k] which has been given [buf] so far. *)
Inductive sink := Plain | Zlib | Zstd.

Notation vars_t := (gmap bytes (bytes * bool)).

Record ext := Ext {
  zl_enc : bytes -> bytes;
  zl_dec : bytes -> option (bytes * nat);
  zs_enc : bytes -> bytes;
  zs_dec : bytes -> option bytes;
  zs_first : bytes -> option byte;
  accept : sink -> bytes -> bytes -> nat;
  vars_iter : Z -> vars_t -> list (bytes * (bytes * bool)) }.

(** What is assumed of the externals. *)
Record ext_ok (E : ext) : Prop := {
  zl_round : forall x rest,
    zl_dec E (zl_enc E x ++ rest) = Some (x, length (zl_enc E x));
  zs_round : forall x, zs_dec E (zs_enc E x) = Some x;
  zs_first_ok : forall s b r, zs_dec E s = Some (b :: r) -> zs_first E s = Some b;
  (* no output from no input *)
  zs_nil : forall b r, zs_dec E [] <> Some (b :: r);
  zl_total_in : forall s x n, zl_dec E s = Some (x, n) -> (n <= length s)%nat;
  accept_le : forall k buf d, (accept E k buf d <= length d)%nat;
  (* [Write::write] on a non-empty buffer takes at least a byte *)
  accept_pos : forall k buf d, d <> [] -> (0 < accept E k buf d)%nat;
  (* [Cursor<Vec<u8>>] takes everything *)
  accept_plain : forall buf d, accept E Plain buf d = length d;
  vars_iter_perm : forall pos m, vars_iter E pos m ≡ₚ map_to_list m }.

(** The further assumption that encoders take whole buffers in one [write]. *)
Definition full_writes (E : ext) : Prop :=
  forall k buf d, accept E k buf d = length d.

(** * Readers: consume a prefix of the remaining bytes of the cursor *)

Definition parser (A : Type) := bytes -> res (A * bytes).

(** [Read::read_exact] of [n] bytes; any failure becomes [BadData] by
    mod.rs:36-40. *)
Definition rd_n (n : nat) : parser bytes := fun s =>
  if decide (n <= length s)%nat then Ok (take n s, drop n s) else Err BadData.

(** byteorder: [read_u8], [read_u16], [read_u32], [read_i32], big-endian *)
Definition rd_byte : parser byte := fun s =>
  match s with a :: t => Ok (a, t) | _ => Err BadData end.
Definition be16_dec (a b : byte) : Z := b2z a * 256 + b2z b.
Definition rd_u16 : parser Z := fun s =>
  match s with a :: b :: t => Ok (be16_dec a b, t) | _ => Err BadData end.
Definition rd_u32 : parser Z := fun s =>
  match s with
  | a :: b :: c :: d :: t =>
    Ok (((b2z a * 256 + b2z b) * 256 + b2z c) * 256 + b2z d, t)
  | _ => Err BadData
  end.
Definition rd_i32 : parser Z := fun s =>
  try (z, t) := rd_u32 s in Ok (w32 z, t).

(** mod.rs:50-64 *)
Definition try_read_n (n : Z) : parser bytes := fun s =>
  if Z.of_nat (length s) <? n then Err BadData else rd_n (Z.to_nat n) s.

(** mod.rs:67-70 *)
Definition read_string16 : parser bytes := fun s =>
  try (n, t) := rd_u16 s in try_read_n n t.
(** mod.rs:73-76 *)
Definition read_string32 : parser bytes := fun s =>
  try (n, t) := rd_u32 s in try_read_n n t.

(** [for _ in 0..n { ... p(src)? ... }].  The fuel is more than the number of
    bytes left, and every item takes at least a byte ([rep_fuel] lemmas). *)
Fixpoint rep_fuel {A} (p : parser A) (fuel : nat) (n : Z) (s : bytes)
  : res (list A * bytes) :=
  if n <=? 0 then Ok ([], s)
  else match fuel with
       | O => Err BadData
       | S f =>
         try (a, s1) := p s in
         try (l, s2) := rep_fuel p f (n - 1) s1 in
         Ok (a :: l, s2)
       end.
Definition rep {A} (p : parser A) (n : Z) : parser (list A) := fun s =>
  rep_fuel p (S (length s)) n s.

(** Collect key-value pairs by repeated [insert]. *)
Definition insert_all `{Countable K} {V} (l : list (K * V)) : gmap K V :=
  foldl (fun m kv => <[kv.1 := kv.2]> m) ∅ l.

(** * Writers: append to the bytes given to the sink so far *)

Definition writer := bytes -> out bytes.
Definition wseq (w1 w2 : writer) : writer := fun buf => let* b := w1 buf in w2 b.
Infix ">>>" := wseq (at level 61, left associativity).
Fixpoint wlist {A} (f : A -> writer) (l : list A) : writer := fun buf =>
  match l with [] => Ret buf | a :: t => (f a >>> wlist f t) buf end.
Definition wnop : writer := Ret.

(** [write_all], and [write_u8] etc., which use it *)
Definition wr_all (d : bytes) : writer := fun buf => Ret (buf ++ d).
(** a single [write], whose result count is not looked at *)
Definition wr_once (E : ext) (k : sink) (d : bytes) : writer := fun buf =>
  Ret (buf ++ take (accept E k buf d) d).

Definition be16 (z : Z) : bytes := [z2b (z / 256); z2b z].
Definition be32 (z : Z) : bytes :=
  [z2b (z / 16777216); z2b (z / 65536); z2b (z / 256); z2b z].

(** mod.rs:79-83.  [u16::try_from(len).unwrap()] *)
Definition write_string16 (E : ext) (k : sink) (d : bytes) : writer := fun buf =>
  if 65536 <=? Z.of_nat (length d) then Panic
  else (wr_all (be16 (Z.of_nat (length d))) >>> wr_once E k d) buf.
(** mod.rs:86-90 *)
Definition write_string32 (E : ext) (k : sink) (d : bytes) : writer := fun buf =>
  if 4294967296 <=? Z.of_nat (length d) then Panic
  else (wr_all (be32 (Z.of_nat (length d))) >>> wr_once E k d) buf.

(** * name_id_map.rs *)

Notation nimap_t := (gmap Z bytes).

(** name_id_map.rs:21-25 *)
Definition rd_nimap_entry : parser (Z * bytes) := fun s =>
  try (id, s1) := rd_u16 s in
  try (name, s2) := read_string16 s1 in
  Ok ((id, name), s2).

(** name_id_map.rs:12-28 *)
Definition rd_nimap : parser nimap_t := fun s =>
  try (v, s1) := rd_byte s in
  if negb (b2z v =? 0) then Err InvalidSubVersion else
  try (n, s2) := rd_u16 s1 in
  try (l, s3) := rep rd_nimap_entry n s2 in
  Ok (insert_all l, s3).

(** name_id_map.rs:34-37 *)
Definition wr_nimap_entry (E : ext) (k : sink) (e : Z * bytes) : writer :=
  wr_all (be16 e.1) >>> write_string16 E k e.2.

(** name_id_map.rs:30-38.  [len() as u16] truncates ([be16]). *)
Definition wr_nimap (E : ext) (k : sink) (m : nimap_t) : writer :=
  wr_all [z2b 0] >>>
  wr_all (be16 (Z.of_nat (size m))) >>>
  wlist (wr_nimap_entry E k) (sorted_list m).

(** * node_data.rs *)

Record node_data := ND { nodes : list Z; param1 : bytes; param2 : bytes }.

Fixpoint dec16s (s : bytes) : list Z :=
  match s with a :: b :: t => be16_dec a b :: dec16s t | _ => [] end.

(** node_data.rs:20-37 *)
Definition rd_node_data : parser node_data := fun s =>
  try (nb, s1) := rd_n (Z.to_nat 8192) s in
  try (p1, s2) := rd_n (Z.to_nat 4096) s1 in
  try (p2, s3) := rd_n (Z.to_nat 4096) s2 in
  Ok (ND (dec16s nb) p1 p2, s3).

(** node_data.rs:39-55.  Simplification: the decoder is run to its end first;
    the code reads 16384 bytes and then tries to read one more.  An error in the
    compressed data and too short data are both [BadData]. *)
Definition rd_node_data_z (E : ext) : parser node_data := fun s =>
  match zl_dec E s with
  | None => Err BadData
  | Some (d, n) =>
    try (nd, rest) := rd_node_data d in
    if negb (Z.of_nat (length rest) =? 0) then Err BadData else Ok (nd, drop n s)
  end.

(** node_data.rs:57-66.  [write_u16_into] panics when lengths differ. *)
Definition wr_node_data (nd : node_data) : writer := fun buf =>
  if negb (Z.of_nat (length (nodes nd)) =? 4096) then Panic
  else (wr_all (concat (be16 <$> nodes nd)) >>> wr_all (param1 nd) >>> wr_all (param2 nd)) buf.

(** node_data.rs:68-72 *)
Definition wr_node_data_z (E : ext) (nd : node_data) : writer := fun buf =>
  let* d := wr_node_data nd [] in Ret (buf ++ zl_enc E d).

(** * metadata.rs *)

(** metadata.rs:12: "EndInventory\n" *)
Definition END_STR : bytes := bstr "EndInventory" ++ [x0a].

(** metadata.rs:15-19 *)
Record node_meta := NM { vars : vars_t; inv : bytes }.

(** metadata.rs:30-35 *)
Definition rd_var (version : Z) : parser (bytes * (bytes * bool)) := fun s =>
  try (name, s1) := read_string16 s in
  try (val, s2) := read_string32 s1 in
  if 2 <=? version then
    try (p, s3) := rd_byte s2 in Ok ((name, (val, negb (b2z p =? 0))), s3)
  else Ok ((name, (val, false)), s2).

(** metadata.rs:22-49 *)
Definition rd_meta (version : Z) : parser node_meta := fun s =>
  try (n, s1) := rd_u32 s in
  try (l, s2) := rep (rd_var version) n s1 in
  match find_sub END_STR s2 with
  | None => Err BadData
  | Some i =>
    try (iv, s3) := rd_n (i + length END_STR) s2 in
    Ok (NM (insert_all l) iv, s3)
  end.

(** metadata.rs:54-60 *)
Definition wr_var (E : ext) (k : sink) (version : Z) (e : bytes * (bytes * bool)) : writer :=
  write_string16 E k e.1 >>>
  write_string32 E k e.2.1 >>>
  (if 2 <=? version then wr_all [z2b (if e.2.2 then 1 else 0)] else wnop).

(** metadata.rs:51-63.  [len() as u32] truncates. *)
Definition wr_meta (E : ext) (k : sink) (version pos : Z) (m : node_meta) : writer :=
  wr_all (be32 (Z.of_nat (size (vars m)))) >>>
  wlist (wr_var E k version) (vars_iter E pos (vars m)) >>>
  wr_all (inv m).

(** metadata.rs:66-68 *)
Definition meta_is_empty (m : node_meta) : bool :=
  bool_decide (vars m = ∅) && bool_decide (take (length END_STR) (inv m) = END_STR).

Notation metadata_t := (gmap Z node_meta).

(** metadata.rs:97-101 *)
Definition rd_meta_entry (version : Z) : parser (Z * node_meta) := fun s =>
  try (pos, s1) := rd_u16 s in
  try (m, s2) := rd_meta version s1 in
  Ok ((pos, m), s2).

(** metadata.rs:85-104 *)
Definition rd_metadata : parser metadata_t := fun s =>
  try (vb, s1) := rd_byte s in
  let version := b2z vb in
  if 2 <? version then Err InvalidSubVersion else
  if version =? 0 then Ok (∅, s1) else
  try (n, s2) := rd_u16 s1 in
  try (l, s3) := rep (rd_meta_entry version) n s2 in
  Ok (insert_all l, s3).

(** metadata.rs:106-125.  Bytes of the decompressed buffer after the metadata
    are ignored; the second [read] after [read_to_end] yields nothing. *)
Definition rd_metadata_z (E : ext) : parser metadata_t := fun s =>
  match zl_dec E s with
  | None => Err BadData
  | Some (d, n) =>
    try (m, _) := rd_metadata d in Ok (m, drop n s)
  end.

(** metadata.rs:137-142 *)
Definition wr_meta_entry (E : ext) (k : sink) (version : Z) (e : Z * node_meta) : writer :=
  wr_all (be16 e.1) >>> wr_meta E k version e.1 e.2.

(** metadata.rs:127-144 *)
Definition wr_metadata (E : ext) (k : sink) (m : metadata_t) (block_version : Z) : writer :=
  let l := filter (fun e => meta_is_empty e.2 = false) (sorted_list m) in
  if Z.of_nat (length l) =? 0 then wr_all [z2b 0]
  else
    let version := if 28 <=? block_version then 2 else 1 in
    wr_all [z2b version] >>>
    wr_all (be16 (Z.of_nat (length l))) >>>
    wlist (wr_meta_entry E k version) l.

(** metadata.rs:146-150 *)
Definition wr_metadata_z (E : ext) (m : metadata_t) (block_version : Z) : writer := fun buf =>
  let* d := wr_metadata E Zlib m block_version [] in Ret (buf ++ zl_enc E d).

(** * static_object.rs *)

Record static_object := SO { obj_type : byte; f_pos : vec3; odata : bytes }.

(** static_object.rs:14-23 *)
Definition rd_object : parser static_object := fun s =>
  try (t, s1) := rd_byte s in
  try (x, s2) := rd_i32 s1 in
  try (y, s3) := rd_i32 s2 in
  try (z, s4) := rd_i32 s3 in
  try (d, s5) := read_string16 s4 in
  Ok (SO t (V3 x y z) d, s5).

(** static_object.rs:25-31 *)
Definition wr_object (E : ext) (k : sink) (o : static_object) : writer :=
  wr_all [obj_type o] >>>
  wr_all (be32 (vx (f_pos o))) >>>
  wr_all (be32 (vy (f_pos o))) >>>
  wr_all (be32 (vz (f_pos o))) >>>
  write_string16 E k (odata o).

(** static_object.rs:38-54 *)
Definition rd_objects : parser (list static_object) := fun s =>
  try (v, s1) := rd_byte s in
  if negb (b2z v =? 0) then Err InvalidSubVersion else
  try (n, s2) := rd_u16 s1 in
  rep rd_object n s2.

(** static_object.rs:57-64 *)
Definition wr_objects (E : ext) (k : sink) (l : list static_object) : writer :=
  wr_all [z2b 0] >>>
  wr_all (be16 (Z.of_nat (length l))) >>>
  wlist (wr_object E k) l.

(** static_object.rs:71-91: name and data of a LuaEntity *)
Definition lua_entity (o : static_object) : res (bytes * bytes) :=
  if negb (b2z (obj_type o) =? 7) then Err InvalidFeature else
  try (v, s1) := rd_byte (odata o) in
  if negb (b2z v =? 1) then Err InvalidSubVersion else
  try (name, s2) := read_string16 s1 in
  try (d, s3) := read_string32 s2 in
  Ok (name, d).

(** * node_timer.rs *)

(** node_timer.rs:5-10 *)
Record node_timer := NT { tpos : Z; timeout : Z; elapsed : Z }.

Definition rd_timer : parser node_timer := fun s =>
  try (p, s1) := rd_u16 s in
  try (t, s2) := rd_u32 s1 in
  try (e, s3) := rd_u32 s2 in
  Ok (NT p t e, s3).

(** node_timer.rs:16-36 *)
Definition rd_timers : parser (list node_timer) := fun s =>
  try (v, s1) := rd_byte s in
  if negb (b2z v =? 10) then Err InvalidFeature else
  try (n, s2) := rd_u16 s1 in
  rep rd_timer n s2.

Definition wr_timer (t : node_timer) : writer :=
  wr_all (be16 (tpos t)) >>> wr_all (be32 (timeout t)) >>> wr_all (be32 (elapsed t)).

(** node_timer.rs:39-48 *)
Definition wr_timers (l : list node_timer) : writer :=
  wr_all [z2b 10] >>>
  wr_all (be16 (Z.of_nat (length l))) >>>
  wlist wr_timer l.
