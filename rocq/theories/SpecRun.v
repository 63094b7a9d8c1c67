(** Specification vocabulary for whole runs of the program. *)
From Verif Require Export SpecNodes Instance.
From Verif Require Import Spec.

(** Messages logged, in order. *)
Definition logs (t : list tev) : list (log_type * msg) :=
  omap (fun e => match e with TLog lt m => Some (lt, m) | _ => None end) t.
Lemma logs_app t1 t2 : logs (t1 ++ t2) = logs t1 ++ logs t2.
Proof. unfold logs. apply omap_app. Qed.

(** ** Positions *)

(** [k] is the key of the block at [bp]. *)
Definition block_at (k : Z) (bp : vec3) : Prop :=
  key_range bp /\ k = vx bp + 4096 * vy bp + 16777216 * vz bp.
(** All keys of the map are keys of block positions. *)
Definition keys_ok (m : mapdata) : Prop := forall k, is_Some (m !! k) -> exists bp, block_at k bp.

(** The position is selected by an optional area, possibly inverted. *)
Definition selected (a : option area) (inv : bool) (p : vec3) : Prop :=
  match a with
  | None => True
  | Some a => if inv then ~ inside a p else inside a p
  end.
Global Instance selected_dec a inv p : Decision (selected a inv p).
Proof. unfold selected. destruct a; [destruct inv|]; apply _. Defined.

(** Blocks that a command must look at: those with a selected node; or, for
    commands on whole blocks ([partial = false]), those with only selected nodes. *)
Definition visit (a : option area) (inv partial : bool) (bp : vec3) : Prop :=
  if partial then exists q, node_in_block bp q /\ selected a inv q
  else forall q, node_in_block bp q -> selected a inv q.

(** Area corners in order and far from the limits of 32-bit integers. *)
Definition area_ok (a : option area) : Prop :=
  match a with None => True | Some a => nonempty a /\ area_within 100000 a end.

(** ** Sums *)
Definition zsum {A} (f : A -> Z) (l : list A) : Z := foldr (fun x n => f x + n) 0 l.
Lemma zsum_perm {A} (f : A -> Z) l l' : l ≡ₚ l' -> zsum f l = zsum f l'.
Proof. induction 1; simpl; lia. Qed.
Lemma zsum_app {A} (f : A -> Z) l l' : zsum f (l ++ l') = zsum f l + zsum f l'.
Proof. induction l; simpl; lia. Qed.
Lemma zsum_ext {A} (f g : A -> Z) l : (forall x, x ∈ l -> f x = g x) -> zsum f l = zsum g l.
Proof.
  induction l as [|x l IH]; simpl; intros H; [done|].
  rewrite IH, H; [done|set_solver..].
Qed.

(** ** Environments *)

(** The path leads to a map that can be opened. *)
Definition map_found (W : world) (p : bytes) : Prop :=
  exists f, is_file W f = true /\ (f = p \/ is_file W p = false /\ f = path_join p (bstr "map.sqlite")) /\
    can_open W f = true /\ valid_map W f = true.
(** The maps can be opened, and the user consents if asked. *)
Definition ready (W : world) (g : args) : Prop :=
  map_found W (map_path g) /\
  (forall p, input_map_path g = Some p -> map_found W p) /\
  (do_confirmation g = true -> answer W = true).

(** ** Arguments *)

(** "air", "ignore" or mod:item with the allowed characters. *)
Definition lower_char (c : byte) : Prop := 97 <= b2z c <= 122.
Definition upper_char (c : byte) : Prop := 65 <= b2z c <= 90.
Definition digit_char (c : byte) : Prop := 48 <= b2z c <= 57.
Definition name_ok (n : bytes) : Prop :=
  n = bstr "air" \/ n = bstr "ignore" \/
  exists modname item, n = modname ++ bstr ":" ++ item /\
    Forall (fun c => lower_char c \/ digit_char c \/ c = x5f) modname /\
    Forall (fun c => lower_char c \/ upper_char c \/ digit_char c \/ c = x5f) item.

(** All names among the arguments. *)
Definition all_names (g : args) : list bytes :=
  o2l (anode g) ++ anodes g ++ o2l (new_node g) ++ o2l (aobject g) ++ o2l (aitem g) ++
  default [] (aitems g) ++ o2l (new_item g).

(** A box shifted by an offset meets the map. *)
Definition dest_in_map (a : area) (o : vec3) : Prop :=
  exists p, inside a p /\ within 31000 (plus p o).

(** Arguments that the command line parser makes sure are there. *)
Definition supplied (g : args) : Prop :=
  (forall a, aarea g = Some a -> nonempty a) /\
  match acmd g with
  | CClone => is_Some (aarea g) /\ is_Some (offset g)
  | CDeleteBlocks => is_Some (aarea g)
  | CFill => is_Some (aarea g) /\ is_Some (new_node g)
  | CReplaceNodes => is_Some (anode g) /\ is_Some (new_node g)
  | CReplaceInInv => is_Some (aitem g)
  | COverlay => is_Some (input_map_path g)
  | CSetMetaVar => is_Some (akey g)
  | CDeleteMeta | CDeleteObjects | CDeleteTimers | CSetParam2 | CVacuum => True
  end.

(** The documented rules. *)
Definition legal (g : args) : Prop :=
  (invert g = true -> is_Some (aarea g)) /\
  (forall a, aarea g = Some a -> within 31000 (amin a) /\ within 31000 (amax a)) /\
  (forall o, offset g = Some o -> within 62000 o) /\
  Forall name_ok (all_names g) /\
  match acmd g with
  | CClone => forall a o, aarea g = Some a -> offset g = Some o -> dest_in_map a o
  | CDeleteObjects => aobject g = None \/ aitems g = None
  | CReplaceNodes => anode g <> new_node g
  | CReplaceInInv =>
    match new_item g with
    | None => adelete g = true \/ delete_meta g = true
    | Some n => adelete g = false /\ (aitem g = Some n -> delete_meta g = true)
    end
  | COverlay =>
    (invert g = true -> forall o, offset g = Some o -> o = V3 0 0 0) /\
    dest_in_map (default (Area (V3 (-31000) (-31000) (-31000)) (V3 31000 31000 31000)) (aarea g))
      (default (V3 0 0 0) (offset g))
  | CSetMetaVar =>
    match avalue g with
    | None => adelete g = true
    | Some v => adelete g = false /\ v <> []
    end
  | CSetParam2 => is_Some (aarea g) \/ is_Some (anode g)
  | CDeleteBlocks | CDeleteMeta | CDeleteTimers | CFill | CVacuum => True
  end.

(** Warnings before the command runs. *)
Definition warnings (g : args) : list (log_type * msg) :=
  (if do_confirmation g then [(LWarning, MDanger)] else []) ++
  match acmd g, aarea g, anode g with
  | CDeleteMeta, None, None => [(LWarning, MAllMeta)]
  | _, _, _ => []
  end.
(** Messages after the command has run. *)
Definition closing (failed : Z) : list (log_type * msg) :=
  (if 0 <? failed then [(LInfo, MSkipped failed)] else []) ++ [(LInfo, MCommitting); (LInfo, MDone)].

(** The run of the whole worker thread ends normally, leaving [main'] on disk and
    having logged [l]. *)
Definition run_ok (E : ext) (g : args) (W : world) (main input main' : mapdata)
    (l : list (log_type * msg)) : Prop :=
  exists s, thread_main E g W (start main input) = (Done tt, s) /\
    final Main s = main' /\ final Input s = input /\ logs (trace s) = l.
