(** Model of src/map_block/map_block.rs *)
From Verif Require Export Codec.

(** map_block.rs:13-14 *)
Definition MIN_BLOCK_VER : Z := 25.
Definition MAX_BLOCK_VER : Z := 29.

(** map_block.rs:18-40 *)
Definition is_valid_generated (E : ext) (src : bytes) : bool :=
  match src with
  | v :: f :: t =>
    let version := b2z v in
    if (version <? MIN_BLOCK_VER) || (MAX_BLOCK_VER <? version) then false
    else
      match (if 29 <=? version then zs_first E (f :: t) else Some f) with
      | Some fl => Z.land (b2z fl) 8 =? 0
      | None => false
      end
  | _ => false
  end.

(** map_block.rs:43-56.  [content_width] and [params_width] are [u8]. *)
Record block := Block {
  version : Z;
  flags : byte;
  lighting : Z;
  content_width : byte;
  params_width : byte;
  ndata : node_data;
  metadata : metadata_t;
  objects : list static_object;
  timestamp : Z;
  nimap : nimap_t;
  timers : list node_timer }.

(** Body of [deserialize] after the header, v29 (map_block.rs:75-130 with
    [version >= 29]). *)
Definition deser_29 (version : Z) (s : bytes) : res block :=
  try (fl, s1) := rd_byte s in
  try (lc, s2) := rd_u16 s1 in
  try (ts, s3) := rd_u32 s2 in
  try (nm, s4) := rd_nimap s3 in
  try (cw, s5) := rd_byte s4 in
  try (pw, s6) := rd_byte s5 in
  if negb (b2z cw =? 2) || negb (b2z pw =? 2) then Err InvalidFeature else
  try (nd, s7) := rd_node_data s6 in
  try (md, s8) := rd_metadata s7 in
  try (os, s9) := rd_objects s8 in
  try (tm, s10) := rd_timers s9 in
  Ok (Block version fl lc cw pw nd md os ts nm tm).

(** The same for older versions. *)
Definition deser_28 (E : ext) (version : Z) (s : bytes) : res block :=
  try (fl, s1) := rd_byte s in
  try (lc, s2) := (if 27 <=? version then rd_u16 s1 else Ok (65535, s1)) in
  try (cw, s3) := rd_byte s2 in
  try (pw, s4) := rd_byte s3 in
  if negb (b2z cw =? 2) || negb (b2z pw =? 2) then Err InvalidFeature else
  try (nd, s5) := rd_node_data_z E s4 in
  try (md, s6) := rd_metadata_z E s5 in
  try (os, s7) := rd_objects s6 in
  try (ts, s8) := rd_u32 s7 in
  try (nm, s9) := rd_nimap s8 in
  try (tm, s10) := rd_timers s9 in
  Ok (Block version fl lc cw pw nd md os ts nm tm).

(** map_block.rs:59-131.  Bytes after the node timers are ignored. *)
Definition deserialize (E : ext) (src : bytes) : res block :=
  try (vb, s) := rd_byte src in
  let version := b2z vb in
  if (version <? MIN_BLOCK_VER) || (MAX_BLOCK_VER <? version)
  then Err InvalidBlockVersion
  else if 29 <=? version then
    match zs_dec E s with
    | None => Err BadData
    | Some d => deser_29 version d
    end
  else deser_28 E version s.

(** map_block.rs:143-157 *)
Definition ser_29 (E : ext) (b : block) : writer :=
  wr_all [flags b] >>>
  wr_all (be16 (lighting b)) >>>
  wr_all (be32 (timestamp b)) >>>
  wr_nimap E Zstd (nimap b) >>>
  wr_all [content_width b] >>>
  wr_all [params_width b] >>>
  wr_node_data (ndata b) >>>
  wr_metadata E Zstd (metadata b) (version b) >>>
  wr_objects E Zstd (objects b) >>>
  wr_timers (timers b).

(** map_block.rs:158-173 *)
Definition ser_28 (E : ext) (b : block) : writer :=
  wr_all [flags b] >>>
  (if 27 <=? version b then wr_all (be16 (lighting b)) else wnop) >>>
  wr_all [content_width b] >>>
  wr_all [params_width b] >>>
  wr_node_data_z E (ndata b) >>>
  wr_metadata_z E (metadata b) (version b) >>>
  wr_objects E Plain (objects b) >>>
  wr_all (be32 (timestamp b)) >>>
  wr_nimap E Plain (nimap b) >>>
  wr_timers (timers b).

(** map_block.rs:133-178 *)
Definition serialize (E : ext) (b : block) : out bytes :=
  if (version b <? MIN_BLOCK_VER) || (MAX_BLOCK_VER <? version b) then Panic
  else if 29 <=? version b then
    let* d := ser_29 E b [] in Ret (z2b (version b) :: zs_enc E d)
  else ser_28 E b [z2b (version b)].
