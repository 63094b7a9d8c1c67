(** Specification of the commands that edit blocks in place. *)
From Verif Require Export SpecRun SpecFormat.
From Verif Require Import Spec.

(** ** Circumstances of a run *)

(** Nothing fails, arguments are acceptable, the user consents, and every stored
    key is the key of a block position ([pos] gives it). *)
Record setting (E : ext) (W : world) (g : args) (main : mapdata) (pos : Z -> vec3) : Prop := {
  set_ext : ext_ok E;
  set_full : full_writes E;
  set_calm : no_faults W;
  set_world : world_ok W;
  set_supplied : supplied g;
  set_legal : legal g;
  set_ready : ready W g;
  set_keys : forall k, is_Some (main !! k) -> block_at k (pos k) }.

(** All readable blocks of the map have the property. *)
Definition blocks (E : ext) (main : mapdata) (P : block -> Prop) : Prop :=
  forall k x b, main !! k = Some x -> deserialize E x = Ok b -> P b.

(** A consistent block: every node has a name, IDs are at most [n], metadata and
    timers belong to nodes. *)
Record sound (n : Z) (b : block) : Prop := {
  sound_named : named b;
  sound_ids : ids_upto n (nimap b);
  sound_meta : map_Forall (fun i _ => 0 <= i < 4096) (metadata b);
  sound_timers : Forall (fun t => 0 <= tpos t < 4096) (timers b) }.
Definition meta_in (b : block) : Prop := map_Forall (fun i _ => 0 <= i < 4096) (metadata b).
Definition timers_in (b : block) : Prop := Forall (fun t => 0 <= tpos t < 4096) (timers b).
(** No name is registered twice. *)
Definition unique_names (b : block) : Prop :=
  forall i j n, nimap b !! i = Some n -> nimap b !! j = Some n -> i = j.

(** ** Which blocks and nodes *)

(** A command that looks for names passes over data of version 28 or lower in
    which no searched name occurs, with its length in front. *)
Definition mentions (names : list bytes) (x : bytes) : Prop :=
  names = [] \/ (forall v r, x = v :: r -> 28 < b2z v) \/
  exists n, n ∈ names /\ occurs (be16 (Z.of_nat (length n)) ++ n) x.

(** The node with index [i] is in the selected area and has one of the names, if
    names are given. *)
Definition chosen (a : option area) (inv : bool) (names : list bytes) (bp : vec3) (b : block)
    (i : Z) : Prop :=
  selected a inv (abs_pos bp i) /\
  (names = [] \/ Exists (fun n => node_name b i = Some n) names).
Global Instance chosen_dec a inv names bp b i : Decision (chosen a inv names bp b i).
Proof. unfold chosen. apply _. Defined.

(** ** Results *)

(** What became of the map: no block was added or removed; unreadable blocks, and
    readable ones that are [untouched], are stored as before; readable blocks can
    still be read and are related to before by [R]; the others are stored anew, and have
    nothing that the format cannot express, such as blank metadata. *)
Definition effect (E : ext) (main main' : mapdata) (untouched : vec3 -> block -> Prop)
    (R : vec3 -> block -> block -> Prop) : Prop :=
  (forall k, main !! k = None -> main' !! k = None) /\
  forall k bp x, block_at k bp -> main !! k = Some x -> exists y, main' !! k = Some y /\
    match deserialize E x with
    | Err _ => y = x
    | Ok b => (untouched bp b -> y = x) /\
        exists b', deserialize E y = Ok b' /\ (untouched bp b \/ norm b' = b') /\ R bp b b'
    end.

(** Number of node indices with a property. *)
Definition count_if (P : Z -> Prop) {HP : forall i, Decision (P i)} : Z :=
  Z.of_nat (length (filter P (seqZ 0 4096))).

(** Sum over the readable blocks of the map. *)
Definition total (E : ext) (main : mapdata) (pos : Z -> vec3) (cnt : vec3 -> block -> Z) : Z :=
  zsum (fun kx => match deserialize E kx.2 with Ok b => cnt (pos kx.1) b | Err _ => 0 end)
    (map_to_list main).

(** [n] is the number of unreadable blocks that a command must look at. *)
Definition skipped (E : ext) (main : mapdata) (a : option area) (inv : bool) (names : list bytes)
    (n : Z) : Prop :=
  exists l : list Z, NoDup l /\ n = Z.of_nat (length l) /\
    forall k, k ∈ l <-> exists bp x e, block_at k bp /\ main !! k = Some x /\
      visit a inv true bp /\ mentions names x /\ deserialize E x = Err e.

(** A run of an in-place command: final messages with [mk] of the numbers [c],
    skipped blocks reported, and the effect on the map. *)
Definition edits (E : ext) (W : world) (g : args) (main input : mapdata) (names : list bytes)
    (m : msg) (untouched : vec3 -> block -> Prop) (R : vec3 -> block -> block -> Prop) : Prop :=
  exists main' failed,
    run_ok E g W main input main' (warnings g ++ [(LInfo, m)] ++ closing failed) /\
    skipped E main (aarea g) (invert g) names failed /\
    effect E main main' untouched R.

(** No node of the block is in the selected area. *)
Definition unselected (a : option area) (inv : bool) (bp : vec3) : Prop :=
  forall i, 0 <= i < 4096 -> ~ selected a inv (abs_pos bp i).
(** None of the names is registered in the block. *)
Definition lacks (names : list bytes) (b : block) : Prop :=
  names <> [] /\ forall n id, n ∈ names -> nimap b !! id <> Some n.

(** ** Commands on nodes *)

(** Everything but nodes, params and names is the same (as far as the format can
    express it). *)
Definition same_but_nodes (b b' : block) : Prop :=
  norm b' = with_nodes (norm b) (ndata b') (nimap b').

(** If no name was registered twice then none is; the largest ID grows by [d] at most,
    or is below 4096. *)
Definition kept_tight (d : Z) (b b' : block) : Prop :=
  (unique_names b -> unique_names b') /\
  forall n, 4095 <= n -> ids_upto n (nimap b) -> ids_upto (n + d) (nimap b').

(** The names of the nodes with property [P] become [node]; nothing else changes.  At most
    [d] names that are not used any more remain in addition. *)
Definition renamed (d : Z) (P : Z -> Prop) {HP : forall i, Decision (P i)} (node : bytes) (b b' : block) : Prop :=
  same_but_nodes b b' /\ named b' /\ kept_tight d b b' /\
  param1 (ndata b') = param1 (ndata b) /\ param2 (ndata b') = param2 (ndata b) /\
  forall i, 0 <= i < 4096 -> node_name b' i = if decide (P i) then Some node else node_name b i.

(** param2 of the nodes with property [P] becomes [val]; nothing else changes. *)
Definition repainted (P : Z -> Prop) {HP : forall i, Decision (P i)} (val : byte) (b b' : block) : Prop :=
  norm b' = with_nodes (norm b) (ndata b') (nimap b) /\
  nodes (ndata b') = nodes (ndata b) /\ param1 (ndata b') = param1 (ndata b) /\
  forall i, 0 <= i < 4096 -> node_param2 b' i = if decide (P i) then Some val else node_param2 b i.

(** ** Commands on metadata, timers, objects *)
Definition with_metadata (b : block) (md : metadata_t) : block :=
  Block (version b) (flags b) (lighting b) (content_width b) (params_width b) (ndata b)
    md (objects b) (timestamp b) (nimap b) (timers b).
Definition with_objects (b : block) (os : list static_object) : block :=
  Block (version b) (flags b) (lighting b) (content_width b) (params_width b) (ndata b)
    (metadata b) os (timestamp b) (nimap b) (timers b).
Definition with_timers (b : block) (tm : list node_timer) : block :=
  Block (version b) (flags b) (lighting b) (content_width b) (params_width b) (ndata b)
    (metadata b) (objects b) (timestamp b) (nimap b) tm.

(** Each metadata entry is changed by [upd] (or removed); blank entries are not
    stored; nothing else changes. *)
Definition metadata_changed (upd : Z -> node_meta -> option node_meta) (b b' : block) : Prop :=
  exists md, norm b' = with_metadata (norm b) md /\
    forall i, md !! i = metadata (norm b) !! i ≫= fun m =>
      upd i m ≫= fun m' => if decide (blank m') then None else Some m'.

(** The entries of the nodes with property [P] are removed. *)
Definition drop_chosen (P : Z -> Prop) {HP : forall i, Decision (P i)} (i : Z) (m : node_meta)
  : option node_meta :=
  if decide (P i) then None else Some m.
(** The entries of the nodes with property [P] are changed by [f]. *)
Definition change_chosen (f : node_meta -> node_meta) (P : Z -> Prop) {HP : forall i, Decision (P i)}
    (i : Z) (m : node_meta) : option node_meta :=
  Some (if decide (P i) then f m else m).

(** Number of entries of a list with a property. *)
Definition count_of {A} (P : A -> Prop) {HP : forall x, Decision (P x)} (l : list A) : Z :=
  Z.of_nat (length (filter P l)).

(** Number of metadata entries with a property. *)
Definition entries (P : Z -> node_meta -> Prop) {HP : forall i m, Decision (P i m)}
    (m : metadata_t) : Z :=
  count_of (fun e => P e.1 e.2) (map_to_list m).

(** The metadata of a node with one variable set, if it exists ([Some value]), or
    removed ([None]).  Whether it is private does not change. *)
Definition change_var (key : bytes) (value : option bytes) (m : node_meta) : node_meta :=
  NM (match value with
      | Some v => alter (fun old => (v, old.2)) key (vars m)
      | None => delete key (vars m)
      end) (inv m).

(** ** Objects *)

(** The object is a Lua entity with that name and data. *)
Definition entity (o : static_object) (name d : bytes) : Prop :=
  obj_type o = z2b 7 /\ fits16 name /\ fits32 d /\
  exists r, odata o = [z2b 1] ++ str16 name ++ str32 d ++ r.

(** The node position nearest to the object (its coordinates are stored as
    multiples of 1/10000). *)
Definition nearest (o : static_object) (p : vec3) : Prop :=
  10000 * vx p - 5000 <= vx (f_pos o) < 10000 * vx p + 5000 /\
  10000 * vy p - 5000 <= vy (f_pos o) < 10000 * vy p + 5000 /\
  10000 * vz p - 5000 <= vz (f_pos o) < 10000 * vz p + 5000.

(** [s] is [l], the first occurrence of [pat], and [r]. *)
Definition first_at (pat s l r : bytes) : Prop :=
  s = l ++ pat ++ r /\ forall l' r', s = l' ++ pat ++ r' -> (length l <= length l')%nat.
(** [n] is what comes before the first space or quote in [r]. *)
Definition before_end (r n : bytes) : Prop :=
  Forall (fun c => c <> x20 /\ c <> x22) n /\
  (r = n \/ exists t, r = n ++ [x20] ++ t \/ r = n ++ [x22] ++ t).
(** The name of the item that item entity data [d] speaks of. *)
Definition item_of (d n : bytes) : Prop :=
  let new := bstr "itemstring=""" in
  let old := bstr "[""itemstring""] = """ in
  if decide (bstr "return" `prefix_of` d) then
    (exists l r, first_at new d l r /\ before_end r n) \/
    (~ occurs new d /\ exists l r, first_at old d l r /\ before_end r n) \/
    (~ occurs new d /\ ~ occurs old d /\ n = [])
  else n = d.

(** The object is in a block to look at, nearest to a selected position, and has
    the name and one of the items, if given. *)
Definition object_chosen (a : option area) (inv : bool) (name : option bytes) (items : list bytes)
    (bp : vec3) (o : static_object) : Prop :=
  visit a inv true bp /\ (exists p, nearest o p /\ selected a inv p) /\
  match name with
  | None => True
  | Some n => exists d, entity o n d /\ (items = [] \/ exists i, i ∈ items /\ item_of d i)
  end.
(** The name of the objects to delete; items are objects too. *)
Definition wanted_object (g : args) : option bytes :=
  match aitems g with Some _ => Some (bstr "__builtin:item") | None => aobject g end.
(** The nearest node position fits the integers. *)
Definition in_reach (o : static_object) : Prop :=
  vx (f_pos o) < 2147478648 /\ vy (f_pos o) < 2147478648 /\ vz (f_pos o) < 2147478648.

(** ** Inventories *)

(** Lines that end with a newline. *)
Fixpoint lines_from (line s : bytes) : list bytes :=
  match s with
  | [] => []
  | c :: t => if decide (c = x0a) then line :: lines_from [] t else lines_from (line ++ [c]) t
  end.
Definition lines : bytes -> list bytes := lines_from [].

(** What follows the item name, if the line is a stack of the item. *)
Definition stack_rest (item line : bytes) : option bytes :=
  let n := length (bstr "Item " ++ item) in
  if decide (take n line = bstr "Item " ++ item) then
    match drop n line with
    | [] => Some []
    | c :: t => if decide (c = x20) then Some (c :: t) else None
    end
  else None.
Definition is_stack (item line : bytes) : Prop := is_Some (stack_rest item line).
Global Instance is_stack_dec item line : Decision (is_stack item line).
Proof. unfold is_stack. apply _. Defined.
Definition stacks (item inv : bytes) : Z := count_of (is_stack item) (lines inv).

(** The text before the first space, and after it. *)
Fixpoint word (s : bytes) : bytes :=
  match s with [] => [] | c :: t => if decide (c = x20) then [] else c :: word t end.
Fixpoint after_word (s : bytes) : option bytes :=
  match s with [] => None | c :: t => if decide (c = x20) then Some t else after_word t end.
(** Count and wear of a stack, 1 and 0 if not stated. *)
Definition stack_count (rest : bytes) : bytes :=
  match rest with [] => bstr "1" | _ :: t => word t end.
Definition stack_wear (rest : bytes) : bytes :=
  match rest with [] => bstr "0" | _ :: t => from_option word (bstr "0") (after_word t) end.
(** Only count and wear, where they are not 1 and 0. *)
Definition without_meta (rest : bytes) : bytes :=
  let count := stack_count rest in
  let wear := stack_wear rest in
  if decide (wear = bstr "0") then
    if decide (count = bstr "1") then [] else [x20] ++ count
  else [x20] ++ count ++ [x20] ++ wear.

(** The line with the item replaced ([Some]) or removed ([None]). *)
Definition rewrite_line (item : bytes) (new : option bytes) (drop_meta : bool) (line : bytes) : bytes :=
  match stack_rest item line with
  | None => line
  | Some rest =>
    match new with
    | None => bstr "Empty"
    | Some n => bstr "Item " ++ n ++ (if drop_meta then without_meta rest else rest)
    end
  end.
(** The inventory with all stacks of the item rewritten; blank lines are dropped. *)
Definition rewrite_inv (item : bytes) (new : option bytes) (drop_meta : bool) (inv : bytes) : bytes :=
  if decide (stacks item inv = 0) then inv
  else concat ((fun l => rewrite_line item new drop_meta l ++ [x0a]) <$>
         filter (fun l => l <> []) (lines inv)).

(** Inventory texts that stay readable: the last line is "EndInventory", and the
    word does not occur before a space. *)
Definition plain_inv (inv : bytes) : Prop :=
  (inv = END_STR \/ exists l, inv = l ++ [x0a] ++ END_STR) /\ ~ occurs (bstr "EndInventory ") inv.
(** Names that do not end like the last line of an inventory. *)
Definition plain_name (n : bytes) : Prop := ~ exists l, n = l ++ bstr "EndInventory".

(** ** All commands that edit blocks in place *)
Definition in_place (c : command) : bool :=
  match c with
  | CFill | CReplaceNodes | CSetParam2 | CDeleteMeta | CDeleteTimers | CDeleteObjects
  | CSetMetaVar | CReplaceInInv => true
  | CClone | COverlay | CDeleteBlocks | CVacuum => false
  end.
(** The names that the command looks for. *)
Definition searched (g : args) : list bytes :=
  match acmd g with
  | CReplaceNodes | CSetParam2 | CDeleteMeta | CDeleteTimers => o2l (anode g)
  | CSetMetaVar | CReplaceInInv => anodes g
  | CDeleteObjects => o2l (wanted_object g)
  | _ => []
  end.
(** Blocks without contradictions. *)
Definition consistent (b : block) : Prop := sound 65533 b /\ unique_names b.
(** Strings among the arguments that fit the length fields of the format. *)
Definition args_fit (g : args) : Prop :=
  (forall n, new_node g = Some n -> fits16 n) /\ (forall v, avalue g = Some v -> fits32 v).

(** The run ends normally and the message [m] is what it reports. *)
Definition reports (E : ext) (W : world) (g : args) (main input : mapdata) (m : msg) : Prop :=
  exists main' failed, run_ok E g W main input main' (warnings g ++ [(LInfo, m)] ++ closing failed).

(** The flag "generated" is unset (bit 3 set). *)
Definition not_generated (b : block) : Prop := Z.land (b2z (flags b)) 8 <> 0.

(** The run ends normally; [failed] counts the unreadable blocks that the command
    must look at; none of them changes, and no block appears or disappears. *)
Definition skips (E : ext) (W : world) (g : args) (main input : mapdata) : Prop :=
  exists main' m failed,
    run_ok E g W main input main' (warnings g ++ [(LInfo, m)] ++ closing failed) /\
    skipped E main (aarea g) (invert g) (searched g) failed /\
    (forall k, is_Some (main' !! k) <-> is_Some (main !! k)) /\
    forall k x e, main !! k = Some x -> deserialize E x = Err e -> main' !! k = Some x.

(** The run ends normally. *)
Definition completes (E : ext) (W : world) (g : args) (main input : mapdata) : Prop :=
  exists main' l, run_ok E g W main input main' l /\ last l = Some (LInfo, MDone).

(** ** Runs with faults *)

(** What the run leaves on disk is the old map or the map left by the same run
    without faults. *)
Definition all_or_nothing (E : ext) (g : args) (W : world) (main input : mapdata) : Prop :=
  let left := final Main (thread_main E g W (start main input)).2 in
  left = main \/ left = final Main (thread_main E g (calm W) (start main input)).2.
(** "Done." has been logged. *)
Definition says_done (s : sys) : Prop := (LInfo, MDone) ∈ logs (trace s).
(** Events before the command is started. *)
Definition quiet (e : tev) : Prop :=
  match e with TLog LWarning _ | TLog LError _ | TConfirm => True | _ => False end.
