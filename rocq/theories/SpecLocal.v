(** Specification of in-place commands node by node. *)
From Verif Require Export SpecKeep SpecOrder.
From Verif Require Import Spec.

(** What there is at a node: name, params and metadata, as far as the format can
    express it. *)
Record node_state := NodeState {
  st_name : option bytes;
  st_param1 : option byte;
  st_param2 : option byte;
  st_meta : option node_meta }.
Definition state (b : block) (i : Z) : node_state :=
  NodeState (node_name b i) (node_param1 b i) (node_param2 b i) (metadata (norm b) !! i).

(** The command applies to a node at [p] with that state. *)
Definition hit (g : args) (p : vec3) (s : node_state) : Prop :=
  selected (aarea g) (invert g) p /\
  (searched g = [] \/ Exists (fun n => st_name s = Some n) (searched g)).
Global Instance hit_dec g p s : Decision (hit g p s).
Proof. unfold hit. apply _. Defined.

(** What the command makes of a node. *)
Definition stored (m : node_meta) : option node_meta := if decide (blank m) then None else Some m.
Definition with_name (n : option bytes) (s : node_state) : node_state :=
  NodeState n (st_param1 s) (st_param2 s) (st_meta s).
Definition with_meta (f : node_meta -> option node_meta) (s : node_state) : node_state :=
  NodeState (st_name s) (st_param1 s) (st_param2 s) (st_meta s ≫= f).
Definition act (g : args) (s : node_state) : node_state :=
  match acmd g with
  | CFill | CReplaceNodes => with_name (new_node g) s
  | CSetParam2 => NodeState (st_name s) (st_param1 s) (aparam2 g) (st_meta s)
  | CDeleteMeta => with_meta (fun _ => None) s
  | CSetMetaVar => with_meta (fun m => stored (change_var (default [] (akey g)) (avalue g) m)) s
  | CReplaceInInv =>
    let item := default [] (aitem g) in
    let new := if adelete g then None else Some (default item (new_item g)) in
    with_meta (fun m => stored (NM (vars m) (rewrite_inv item new (delete_meta g) (inv m)))) s
  | _ => s
  end.

(** The timer stays. *)
Definition stays (g : args) (bp : vec3) (b : block) (t : node_timer) : Prop :=
  match acmd g with
  | CDeleteTimers => ~ hit g (abs_pos bp (tpos t)) (state b (tpos t))
  | _ => True
  end.
Global Instance stays_dec g bp b t : Decision (stays g bp b t).
Proof. unfold stays. destruct (acmd g); apply _. Defined.

(** What belongs to no node, timer or object. *)
Definition shell (b : block) : Z * byte * Z * byte * byte * Z :=
  (version b, flags b, lighting (norm b), content_width b, params_width b, timestamp b).

(** Every node of [b'] is what the command makes of the same node of [b]; timers and
    objects are the same ones, without those to be deleted. *)
Record acted (g : args) (del : vec3 -> static_object -> bool) (bp : vec3) (b b' : block) : Prop := {
  acted_nodes : forall i, 0 <= i < 4096 ->
    state b' i = if decide (hit g (abs_pos bp i) (state b i)) then act g (state b i) else state b i;
  acted_timers : timers b' = filter (stays g bp b) (timers b);
  acted_objects : objects b' = filter (fun o => del bp o = false) (objects b);
  acted_meta : meta_in b -> meta_in (norm b');
  acted_shell : shell b' = shell b }.

(** No block is added or removed, unreadable ones are stored as before, and [R]
    relates the readable ones to before. *)
Definition each_block (E : ext) (main main' : mapdata) (R : vec3 -> block -> block -> Prop) : Prop :=
  (forall k, main !! k = None -> main' !! k = None) /\
  forall k bp x, block_at k bp -> main !! k = Some x -> exists y, main' !! k = Some y /\
    match deserialize E x with
    | Err _ => y = x
    | Ok b => exists b', deserialize E y = Ok b' /\ R bp b b'
    end.

(** No node position is selected by both. *)
Definition disjoint_areas (g1 g2 : args) : Prop :=
  forall p, selected (aarea g1) (invert g1) p -> ~ selected (aarea g2) (invert g2) p.

(** The same command on another area. *)
Definition on_area (a : option area) (inv : bool) (g : args) : args :=
  Args (do_confirmation g) (acmd g) (map_path g) (input_map_path g) a inv (offset g) (anode g) (anodes g)
    (new_node g) (aobject g) (aitem g) (aitems g) (new_item g) (adelete g) (delete_meta g) (akey g)
    (avalue g) (aparam2 g).
