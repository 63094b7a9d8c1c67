(** A small map, an environment and arguments for the examples beside theorems
    about whole runs. *)
From Verif Require Import SpecCmd ArgProofs Toy.
From Verif Require Import Spec.

(** ** The environment: everything works *)
Definition toy_world : world :=
  World (fun _ => FOk) (fun _ m => map_to_list m) true (fun _ => true) (fun _ => true) (fun _ => true).
(** Another row order *)
Definition toy_world_rev : world :=
  World (fun _ => FOk) (fun _ m => reverse (map_to_list m)) true (fun _ => true) (fun _ => true) (fun _ => true).

(** ** The map *)
Definition ser (b : block) : bytes := match serialize toy_full b with Ret d => d | Panic => [] end.
Definition nl (l : list bytes) : bytes := concat ((fun x => x ++ [x0a]) <$> l).

Definition toy_inv : bytes := nl [bstr "List main 4"; bstr "Width 0"; bstr "Item default:stone 5";
  bstr "Empty"; bstr "Item default:stone"; bstr "Item default:pick 1 300";
  bstr "EndInventoryList"; bstr "EndInventory"].
Definition toy_entity (name d : bytes) (p : vec3) : static_object :=
  SO (z2b 7) p ([z2b 1] ++ str16 name ++ str32 d ++ bstr "rest").

(** Position (0,0,0): mostly air, with two chests, a stone, two mobs, an item and
    two timers. *)
Definition block_a : block :=
  Block 28 (z2b 0) 65535 (z2b 2) (z2b 2)
    (ND ([1; 2; 0; 0; 0; 1] ++ replicate (Z.to_nat 4090) 0)
       (replicate (Z.to_nat 4096) (z2b 15)) (replicate (Z.to_nat 4096) (z2b 3)))
    (list_to_map [(0, NM (list_to_map [(bstr "owner", (bstr "singleplayer", true))]) toy_inv);
                  (5, NM (list_to_map [(bstr "infotext", (bstr "Chest", false));
                                       (bstr "owner", (bstr "sfan5", false))]) END_STR)])
    [toy_entity (bstr "mobs:rat") (bstr "") (V3 10000 0 0);
     toy_entity (bstr "__builtin:item") (bstr "return {[""itemstring""] = ""default:dirt 7""}") (V3 54999 0 0);
     toy_entity (bstr "mobs:rat") (bstr "") (V3 155000 0 0)]
    77
    (list_to_map [(0, bstr "air"); (1, bstr "default:chest"); (2, bstr "default:stone")])
    [NT 5 1000 0; NT 300 2000 10].
(** Position (-1,0,2): all stone, with an inventory. *)
Definition block_b : block :=
  mk_block 29 1 (list_to_map [(1, bstr "default:stone")])
    (list_to_map [(17, NM (list_to_map [(bstr "owner", (bstr "celeron55", false))]) toy_inv)]) [] [NT 17 5 5].
(** Position (1,0,0): nonsense. *)
Definition junk_c : bytes := [z2b 28; z2b 1; z2b 2] ++ str16 (bstr "default:stone").
(** Position (2,0,0): not generated. *)
Definition block_d : block :=
  let b := mk_block 29 0 (list_to_map [(0, bstr "ignore")]) ∅ [] [] in
  Block (version b) (z2b 8) (lighting b) (content_width b) (params_width b) (ndata b)
    (metadata b) (objects b) (timestamp b) (nimap b) (timers b).

Definition key_a : Z := 0.
Definition key_b : Z := 33554431.
Definition key_c : Z := 1.
Definition key_d : Z := 2.
Definition toy_main : mapdata := list_to_map
  [(key_a, ser block_a); (key_b, ser block_b); (key_c, junk_c); (key_d, ser block_d)].
(** The input map of overlay *)
Definition toy_input : mapdata := list_to_map [(key_a, ser block_b); (key_b, ser block_a)].

Definition toy_pos (k : Z) : vec3 :=
  if decide (k = key_a) then V3 0 0 0 else if decide (k = key_b) then V3 (-1) 0 2
  else if decide (k = key_c) then V3 1 0 0 else V3 2 0 0.

(** ** Arguments *)
Definition toy_args (c : command) : args :=
  Args false c (bstr "map.sqlite") None None false None None [] None None None None None false false
    None None None.
Definition with_area (a : area) (inv : bool) (g : args) : args :=
  Args (do_confirmation g) (acmd g) (map_path g) (input_map_path g) (Some a) inv (offset g)
    (anode g) (anodes g) (new_node g) (aobject g) (aitem g) (aitems g) (new_item g) (adelete g)
    (delete_meta g) (akey g) (avalue g) (aparam2 g).
Definition with_names (n : option bytes) (ns : list bytes) (n' : option bytes) (g : args) : args :=
  Args (do_confirmation g) (acmd g) (map_path g) (input_map_path g) (aarea g) (invert g) (offset g)
    n ns n' (aobject g) (aitem g) (aitems g) (new_item g) (adelete g)
    (delete_meta g) (akey g) (avalue g) (aparam2 g).
Definition with_objs (o : option bytes) (is : option (list bytes)) (g : args) : args :=
  Args (do_confirmation g) (acmd g) (map_path g) (input_map_path g) (aarea g) (invert g) (offset g)
    (anode g) (anodes g) (new_node g) o (aitem g) is (new_item g) (adelete g)
    (delete_meta g) (akey g) (avalue g) (aparam2 g).
Definition with_item (i n : option bytes) (del dm : bool) (g : args) : args :=
  Args (do_confirmation g) (acmd g) (map_path g) (input_map_path g) (aarea g) (invert g) (offset g)
    (anode g) (anodes g) (new_node g) (aobject g) i (aitems g) n del
    dm (akey g) (avalue g) (aparam2 g).
Definition with_var (k v : option bytes) (del : bool) (g : args) : args :=
  Args (do_confirmation g) (acmd g) (map_path g) (input_map_path g) (aarea g) (invert g) (offset g)
    (anode g) (anodes g) (new_node g) (aobject g) (aitem g) (aitems g) (new_item g) del
    (delete_meta g) k v (aparam2 g).
Definition with_param2 (p : option byte) (g : args) : args :=
  Args (do_confirmation g) (acmd g) (map_path g) (input_map_path g) (aarea g) (invert g) (offset g)
    (anode g) (anodes g) (new_node g) (aobject g) (aitem g) (aitems g) (new_item g) (adelete g)
    (delete_meta g) (akey g) (avalue g) p.
Definition with_offset (o : option vec3) (g : args) : args :=
  Args (do_confirmation g) (acmd g) (map_path g) (input_map_path g) (aarea g) (invert g) o
    (anode g) (anodes g) (new_node g) (aobject g) (aitem g) (aitems g) (new_item g) (adelete g)
    (delete_meta g) (akey g) (avalue g) (aparam2 g).
Definition with_input (p : option bytes) (g : args) : args :=
  Args (do_confirmation g) (acmd g) (map_path g) p (aarea g) (invert g) (offset g)
    (anode g) (anodes g) (new_node g) (aobject g) (aitem g) (aitems g) (new_item g) (adelete g)
    (delete_meta g) (akey g) (avalue g) (aparam2 g).
Definition with_confirm (c : bool) (g : args) : args :=
  Args c (acmd g) (map_path g) (input_map_path g) (aarea g) (invert g) (offset g)
    (anode g) (anodes g) (new_node g) (aobject g) (aitem g) (aitems g) (new_item g) (adelete g)
    (delete_meta g) (akey g) (avalue g) (aparam2 g).

(** ** The hypotheses of the theorems hold *)
Definition argsb (g : args) : bool :=
  bool_decide (is_none (verify_args g) = true) &&
  match cmd_verify g with Ret (AOk | AWarning _) => true | _ => false end.

Lemma argsb_legal g : supplied g -> argsb g = true -> legal g.
Proof.
  intros Hs H. unfold argsb in H. apply andb_true_iff in H as [H1 H2].
  apply bool_decide_eq_true in H1. apply legal_iff; [done|].
  destruct (verify_args g); [done|]. split; [done|].
  destruct (cmd_verify g) as [v|]; [|done]. exists v. split; [done|]. intros e ->. done.
Qed.

Lemma toy_keys k : is_Some (toy_main !! k) -> k ∈ [key_a; key_b; key_c; key_d].
Proof.
  intros [x H]. unfold toy_main in H. apply elem_of_list_to_map_2 in H.
  rewrite !elem_of_cons, elem_of_nil in H. rewrite !elem_of_cons.
  destruct H as [H|[H|[H|[H|[]]]]]; apply (f_equal fst) in H; cbn [fst] in H; rewrite H; auto.
Qed.

Lemma toy_setting g : supplied g -> argsb g = true -> setting toy_full toy_world g toy_main toy_pos.
Proof.
  intros Hs Ha. split.
  - apply toy_full_ok.
  - apply toy_full_writes.
  - by intros t.
  - by intros t m.
  - done.
  - by apply argsb_legal.
  - assert (forall p, map_found toy_world p) as H.
    { intros p. exists p. split; [done|]. split; [by left|done]. }
    split; [apply H|]. split; [intros; apply H|done].
  - intros k Hk. apply toy_keys in Hk. rewrite !elem_of_cons, elem_of_nil in Hk.
    destruct Hk as [->|[->|[->|[->|[]]]]]; (split; [|done]); unfold key_range; simpl; lia.
Qed.

(** Checking properties of all readable blocks *)
Definition all_blocks (E : ext) (m : mapdata) (p : block -> bool) : bool :=
  forallb (fun kx => match deserialize E kx.2 with Ok b => p b | Err _ => true end) (map_to_list m).
Lemma all_blocks_ok E m p (P : block -> Prop) : all_blocks E m p = true -> (forall b, p b = true -> P b) -> blocks E m P.
Proof.
  intros H HP k x b Hk Hd. unfold all_blocks in H. rewrite forallb_forall in H.
  apply HP. specialize (H (k, x)). simpl in H. rewrite Hd in H. apply H, elem_of_list_In.
  by apply elem_of_map_to_list.
Qed.

Definition soundb (n : Z) (b : block) : bool :=
  forallb (fun id => bool_decide (is_Some (nimap b !! id))) (nodes (ndata b)) &&
  bool_decide (map_Forall (fun id _ => 0 <= id <= n) (nimap b)) &&
  bool_decide (map_Forall (fun i _ => 0 <= i < 4096) (metadata b)) &&
  bool_decide (Forall (fun t => 0 <= tpos t < 4096) (timers b)).
Lemma soundb_ok n b : soundb n b = true -> sound n b.
Proof.
  unfold soundb. rewrite !andb_true_iff. intros [[[H1 H2%bool_decide_eq_true] H3%bool_decide_eq_true] H4%bool_decide_eq_true].
  split; [|done..]. intros id Hid. rewrite forallb_forall in H1.
  specialize (H1 id ltac:(by apply elem_of_list_In)). by apply bool_decide_eq_true in H1.
Qed.
Definition uniqueb (b : block) : bool :=
  bool_decide (map_Forall (fun i n => map_Forall (fun j n' => n = n' -> i = j) (nimap b)) (nimap b)).
Lemma uniqueb_ok b : uniqueb b = true -> unique_names b.
Proof. unfold uniqueb. intros H%bool_decide_eq_true i j n Hi Hj. by apply (H i n Hi j n Hj). Qed.

Lemma toy_sound : blocks toy_full toy_main (sound 7280).
Proof. apply (all_blocks_ok _ _ (soundb 7280)); [by vm_compute|apply soundb_ok]. Qed.
Lemma toy_unique : blocks toy_full toy_main unique_names.
Proof. apply (all_blocks_ok _ _ uniqueb); [by vm_compute|apply uniqueb_ok]. Qed.
Lemma sound_mono n n' b : n <= n' -> sound n b -> sound n' b.
Proof.
  intros Hn [H1 H2 H3 H4]. split; [done| |done|done]. intros k x Hk. specialize (H2 k x Hk). simpl in H2. lia.
Qed.
Lemma toy_sound_upto n : 7280 <= n -> blocks toy_full toy_main (sound n).
Proof. intros Hn k x b Hk Hd. apply (sound_mono 7280); [done|]. by apply (toy_sound k x b). Qed.
Lemma toy_meta : blocks toy_full toy_main meta_in.
Proof. intros k x b Hk Hd. apply (toy_sound k x b Hk Hd). Qed.
Lemma toy_timers : blocks toy_full toy_main timers_in.
Proof. intros k x b Hk Hd. apply (toy_sound k x b Hk Hd). Qed.

(** ** Looking at the result of a run *)
Definition run_with (E : ext) (W : world) (main input : mapdata) (g : args)
  : option (mapdata * list (log_type * msg)) :=
  match thread_main E g W (start main input) with
  | (Done tt, s) => Some (final Main s, logs (trace s))
  | _ => None
  end.
Definition toy_run : args -> option (mapdata * list (log_type * msg)) :=
  run_with toy_full toy_world toy_main toy_input.
(** Something about the block stored under a key *)
Definition at_key {A} (r : option (mapdata * list (log_type * msg))) (k : Z) (f : block -> A) : option A :=
  r ≫= fun r => r.1 !! k ≫= fun x => match deserialize toy_full x with Ok b => Some (f b) | Err _ => None end.
Definition messages (r : option (mapdata * list (log_type * msg))) : option (list (log_type * msg)) := snd <$> r.
Definition data_at (r : option (mapdata * list (log_type * msg))) (k : Z) : option bytes :=
  r ≫= fun r => r.1 !! k.
Definition has_data (r : option (mapdata * list (log_type * msg))) (k : Z) (x : bytes) : bool :=
  bool_decide (data_at r k = Some x).

Global Instance arg_error_eq : EqDecision arg_error.
Proof. solve_decision. Defined.
Global Instance inst_error_eq : EqDecision inst_error.
Proof. solve_decision. Defined.
Global Instance msg_eq : EqDecision msg.
Proof. solve_decision. Defined.
Global Instance log_type_eq : EqDecision log_type.
Proof. solve_decision. Defined.

(** Several facts about one run, checked in one go *)
Definition sees (r : option (mapdata * list (log_type * msg)))
    (l : list (log_type * msg)) (p : mapdata -> bool) : bool :=
  match r with Some (m, l') => bool_decide (l' = l) && p m | None => false end.
Definition raw_is (m : mapdata) (k : Z) (x : bytes) : bool := bool_decide (m !! k = Some x).
Definition block_is {A} `{EqDecision A} (m : mapdata) (k : Z) (f : block -> A) (v : A) : bool :=
  match m !! k with
  | Some x => match deserialize toy_full x with Ok b => bool_decide (f b = v) | Err _ => false end
  | None => false
  end.
