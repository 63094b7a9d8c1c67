(** Specification of clone and overlay. *)
From Verif Require Export SpecCmd.
From Verif Require SpecNodes.
From Verif Require Import Spec.

(** ** Which blocks are used *)

(** What data says of itself before it is read as a whole: a known version, and
    the flag "not generated" unset. *)
Definition claims_generated (E : ext) (x : bytes) : Prop :=
  exists v f t fl, x = v :: f :: t /\ 25 <= b2z v <= 29 /\
    (if b2z v =? 29 then zs_first E (f :: t) = Some fl else fl = f) /\ Z.land (b2z fl) 8 = 0.

(** The block at [bp] is stored, readable and generated, and is [b]. *)
Definition holds (E : ext) (m : mapdata) (bp : vec3) (b : block) : Prop :=
  exists k x, block_at k bp /\ m !! k = Some x /\ deserialize E x = Ok b /\ ~ not_generated b.

(** The node at [p] is the one with index [j] of a block [b] of the map.  Blocks
    farther from the origin than 1937 in a direction do not count. *)
Definition found (E : ext) (m : mapdata) (p : vec3) (b : block) (j : Z) : Prop :=
  exists bp, within 1937 bp /\ holds E m bp b /\ 0 <= j < 4096 /\ abs_pos bp j = p.

(** ** Room for the IDs *)

(** From how many blocks the nodes of one block come when shifted by [off]. *)
Definition pieces (off : vec3) : Z :=
  (if vx off mod 16 =? 0 then 1 else 2) * (if vy off mod 16 =? 0 then 1 else 2) *
  (if vz off mod 16 =? 0 then 1 else 2).

(** There are 16-bit numbers for IDs up to [n] and, for each piece, IDs up to [s];
    the last number is not used. *)
Definition room (off : vec3) (n s : Z) : Prop :=
  0 <= n /\ 0 <= s /\ n + pieces off * (s + 1) <= 65534.

(** All readable blocks of the map and of the map copied from are consistent, with
    IDs small enough. *)
Definition roomy (E : ext) (g : args) (main src : mapdata) : Prop :=
  exists n s, room (default (V3 0 0 0) (offset g)) n s /\
    blocks E main (sound n) /\ blocks E src (sound s).

(** ** What becomes of a node *)

(** What the format of version [v] keeps of a metadata entry. *)
Definition kept (v : Z) (m : node_meta) : option node_meta :=
  if decide (blank m) then None else Some (if 28 <=? v then m else strip_private m).

(** Node [i] of [b'] is like node [j] of [b]. *)
Definition same_node (b' : block) (i : Z) (b : block) (j : Z) : Prop :=
  node_name b' i = node_name b j /\ node_param1 b' i = node_param1 b j /\
  node_param2 b' i = node_param2 b j /\
  metadata b' !! i ≫= kept (version b') = metadata b !! j ≫= kept (version b').

(** Everything but nodes and metadata is the same; the new block is consistent. *)
Definition same_rest (b b' : block) : Prop :=
  norm b' = with_metadata (with_nodes (norm b) (ndata b') (nimap b')) (metadata (norm b')) /\
  named b' /\ meta_in b'.

(** [b'] is [b] with the nodes of the map [m], as far as found, that are in the
    area and land in the block when shifted by [off]. *)
Definition pasted (E : ext) (m : mapdata) (a : option area) (off bp : vec3) (b b' : block) : Prop :=
  same_rest b b' /\ kept_tight 0 b b' /\
  forall i, 0 <= i < 4096 ->
    let p := minus (abs_pos bp i) off in
    (forall sb j, selected a false p -> found E m p sb j -> same_node b' i sb j) /\
    (~ (selected a false p /\ exists sb j, found E m p sb j) -> same_node b' i b i).

(** Some node of the block is in the shifted area. *)
Definition target (a : option area) (off bp : vec3) : Prop :=
  exists q, node_in_block bp q /\ selected a false (minus q off).

(** [n] is the number of unreadable blocks, generated as far as they say, in the
    shifted area. *)
Definition refused (E : ext) (main : mapdata) (a : option area) (off : vec3) (n : Z) : Prop :=
  exists l : list Z, NoDup l /\ n = Z.of_nat (length l) /\
    forall k, k ∈ l <-> exists bp x e, block_at k bp /\ main !! k = Some x /\
      target a off bp /\ claims_generated E x /\ deserialize E x = Err e.

(** A run that copies nodes of the map [src] into the map, shifted by [off]. *)
Definition copies (E : ext) (W : world) (g : args) (main input src : mapdata) (a : option area)
    (off : vec3) : Prop :=
  exists main' failed,
    run_ok E g W main input main' (warnings g ++ closing failed) /\
    refused E main a off failed /\
    effect E main main' (fun bp b => not_generated b \/ ~ target a off bp)
      (fun bp b b' => not_generated b \/ pasted E src a off bp b b').

(** Blocks that are not generated are neither changed nor copied from. *)
Definition spares (E : ext) (main src main' : mapdata) (off : vec3) : Prop :=
  forall k bp x b, block_at k bp -> main !! k = Some x -> deserialize E x = Ok b ->
    exists y b', main' !! k = Some y /\ deserialize E y = Ok b' /\
      (not_generated b -> y = x) /\
      forall i, 0 <= i < 4096 ->
        (forall sp sx sb ks j, block_at ks sp -> src !! ks = Some sx -> deserialize E sx = Ok sb ->
           0 <= j < 4096 -> abs_pos sp j = minus (abs_pos bp i) off -> not_generated sb) ->
        same_node b' i b i.

(** A node of the area is not copied, although both blocks are readable and generated. *)
Definition missed (E : ext) (W : world) (g : args) (main input src : mapdata) (a : area) (off : vec3) : Prop :=
  exists main' l bp b i sp sb j,
    run_ok E g W main input main' l /\ holds E main bp b /\ holds E src sp sb /\
    0 <= i < 4096 /\ 0 <= j < 4096 /\ inside a (abs_pos sp j) /\ abs_pos sp j = minus (abs_pos bp i) off /\
    forall b', holds E main' bp b' -> node_name b' i <> node_name sb j.

(** A node gets another name, although no node was to be copied to it. *)
Definition spoiled (E : ext) (W : world) (g : args) (main input : mapdata) : Prop :=
  exists main' l k bp x b y b' i,
    run_ok E g W main input main' l /\ block_at k bp /\ main !! k = Some x /\ deserialize E x = Ok b /\
    main' !! k = Some y /\ deserialize E y = Ok b' /\ 0 <= i < 4096 /\
    ~ selected (aarea g) (invert g) (minus (abs_pos bp i) (default (V3 0 0 0) (offset g))) /\
    node_name b' i <> node_name b i.

(** ** Overlay without offset *)

(** [b'] has the selected nodes of [sb] and the other nodes of [b]; everything else
    is from [b], or from [sb] if the selection is inverted.  The new block lists the
    names it uses, each once, and is in the form in which blocks are written. *)
Definition mixed (a : option area) (inv : bool) (bp : vec3) (sb b b' : block) : Prop :=
  same_rest (if inv then sb else b) b' /\ SpecNodes.tidy b' /\ norm b' = b' /\
  forall i, 0 <= i < 4096 ->
    if decide (selected a inv (abs_pos bp i)) then same_node b' i sb i else same_node b' i b i.

(** All (no) nodes of the block are selected. *)
Definition whole (a : option area) (inv : bool) (bp : vec3) : Prop :=
  forall q, node_in_block bp q -> selected a inv q.
Definition none (a : option area) (inv : bool) (bp : vec3) : Prop :=
  forall q, node_in_block bp q -> ~ selected a inv q.

(** What becomes of a block at [bp]: [x] is the data in the input map, [old] and
    [new] the data in the map before and after. *)
Definition overlaid (E : ext) (a : option area) (inv : bool) (bp : vec3) (x : bytes)
    (old new : option bytes) : Prop :=
  (whole a inv bp -> claims_generated E x -> new = Some x) /\
  (whole a inv bp -> ~ claims_generated E x -> new = old) /\
  (none a inv bp -> new = old) /\
  (~ whole a inv bp -> ~ none a inv bp ->
    match old with
    | None => new = None
    | Some y =>
      (~ claims_generated E y -> new = Some y) /\
      (claims_generated E y ->
       match deserialize E x, deserialize E y with
       | Ok sb, Ok b => exists z b', new = Some z /\ deserialize E z = Ok b' /\ mixed a inv bp sb b b'
       | _, _ => new = Some y
       end)
    end).

(** [n] is the number of partially selected blocks that cannot be read in one of
    the maps. *)
Definition unmixed (E : ext) (main input : mapdata) (a : option area) (inv : bool) (n : Z) : Prop :=
  exists l : list Z, NoDup l /\ n = Z.of_nat (length l) /\
    forall k, k ∈ l <-> exists bp x y, block_at k bp /\ input !! k = Some x /\ main !! k = Some y /\
      ~ whole a inv bp /\ ~ none a inv bp /\ claims_generated E y /\
      ((exists e, deserialize E x = Err e) \/ exists e, deserialize E y = Err e).

Definition overlays (E : ext) (W : world) (g : args) (main input : mapdata) : Prop :=
  exists main' failed,
    run_ok E g W main input main' (warnings g ++ closing failed) /\
    unmixed E main input (aarea g) (invert g) failed /\
    (forall k, input !! k = None -> main' !! k = main !! k) /\
    forall k bp x, block_at k bp -> input !! k = Some x ->
      overlaid E (aarea g) (invert g) bp x (main !! k) (main' !! k).
