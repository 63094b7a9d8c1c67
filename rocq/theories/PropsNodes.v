(** Properties C15-C18: name tables and copying parts of blocks *)
From Verif Require Import BlockUtils SpecNodes Toy UtilsProofs.

(** ** C15 *)

Theorem C15_clean_keeps_nodes : forall b, node_lens b -> named b -> ids_upto 65534 (nimap b) ->
  exists b', clean_name_id_map b = Ret b' /\
    (exists ns nm, b' = with_nodes b (ND ns (param1 (ndata b)) (param2 (ndata b))) nm) /\
    node_lens b' /\ named b' /\ (forall i, node_name b' i = node_name b i) /\ tidy b'.
Proof. exact UtilsProofs.clean_keeps. Qed.
Print Assumptions C15_clean_keeps_nodes.

Theorem C15_clean_twice : forall b b', node_lens b -> named b -> ids_upto 65534 (nimap b) ->
  clean_name_id_map b = Ret b' -> clean_name_id_map b' = Ret b'.
Proof. exact UtilsProofs.clean_idempotent. Qed.
Print Assumptions C15_clean_twice.

(** A block with gaps, an unused ID and a duplicate name. *)
Definition ex_messy : block :=
  with_nodes (ex_block 29)
    (ND ([7; 3; 9] ++ replicate (Z.to_nat 4093) 3) (param1 (ndata (ex_block 29)))
        (param2 (ndata (ex_block 29))))
    (list_to_map [(1, bstr "unused:x"); (3, bstr "air"); (7, bstr "a:b"); (9, bstr "air")]).

Example C15_example :
  match clean_name_id_map ex_messy with
  | Ret b => take 5 (nodes (ndata b)) = [1; 0; 0; 0; 0] /\
             bool_decide (nimap b = list_to_map [(0, bstr "air"); (1, bstr "a:b")]) = true /\
             node_name b 2 = Some (bstr "air") /\ node_name ex_messy 2 = Some (bstr "air") /\
             bool_decide (clean_name_id_map b = Ret b) = true
  | Panic => False end.
Proof. by vm_compute. Qed.

Example C15_example_hyps : node_lens ex_messy /\
  Forall (fun id => is_Some (nimap ex_messy !! id)) [7; 3; 9].
Proof. split; [by vm_compute|]. repeat constructor; by eexists. Qed.

(** ** C16 *)

Theorem C16_remove_shift : forall m id, map_Forall (fun k _ => u16_ok k) m -> 0 <= id < 65535 ->
  forall k, remove_shift m id !! k = if decide (k < id) then m !! k else m !! (k + 1).
Proof. exact UtilsProofs.remove_shift_spec. Qed.
Print Assumptions C16_remove_shift.

Example C16_example :
  bool_decide (remove_shift (list_to_map [(0, bstr "a"); (2, bstr "b"); (3, bstr "c"); (7, bstr "d")]) 2
   = list_to_map [(0, bstr "a"); (2, bstr "c"); (6, bstr "d")]) = true.
Proof. by vm_compute. Qed.

(** ** C17 *)

Theorem C17_copy_box : forall src dst sa da ks kd,
  box_ok sa -> box_ok da -> same_size sa da -> node_lens src -> node_lens dst ->
  named src -> named dst -> ids_upto ks (nimap src) -> ids_upto kd (nimap dst) ->
  ks + kd + 1 <= 65535 ->
  exists ns p1 p2 nm, let b' := with_nodes dst (ND ns p1 p2) nm in
    merge_blocks src dst sa da = Ret b' /\ node_lens b' /\ named b' /\
    ids_upto (ks + kd + 1) nm /\
    (forall id n, nm !! id = Some n -> (exists k, nimap src !! k = Some n) \/
                                       (exists k, nimap dst !! k = Some n)) /\
    forall i, 0 <= i < 4096 ->
      if decide (inside da (idx_pos i)) then
        node_name b' i = node_name src (matching sa da (idx_pos i)) /\
        node_param1 b' i = node_param1 src (matching sa da (idx_pos i)) /\
        node_param2 b' i = node_param2 src (matching sa da (idx_pos i))
      else node_name b' i = node_name dst i /\ node_param1 b' i = node_param1 dst i /\
           node_param2 b' i = node_param2 dst i.
Proof. exact UtilsProofs.merge_ok. Qed.
Print Assumptions C17_copy_box.

Definition ex_box_a : area := Area (V3 0 0 0) (V3 2 1 0).
Definition ex_box_b : area := Area (V3 13 14 15) (V3 15 15 15).

Example C17_example :
  match merge_blocks ex_messy (ex_block 29) ex_box_a ex_box_b with
  | Ret b => node_name b (13 + 16 * 14 + 256 * 15) = Some (bstr "a:b") /\
             node_name b (14 + 16 * 14 + 256 * 15) = Some (bstr "air") /\
             node_name b (12 + 16 * 14 + 256 * 15) = Some (bstr "default:chest")
  | Panic => False end.
Proof. by vm_compute. Qed.

Example C17_example_hyps : box_ok ex_box_a /\ box_ok ex_box_b /\ same_size ex_box_a ex_box_b.
Proof.
  split; [|split; [|done]]; apply UtilsProofs.box_ok_corners; unfold nonempty; simpl; lia.
Qed.

(** ** C18 *)

Theorem C18_copy_metadata : forall src dst sa da,
  box_ok sa -> box_ok da -> same_size sa da ->
  map_Forall (fun k _ => 0 <= k < 4096) src -> map_Forall (fun k _ => 0 <= k < 4096) dst ->
  exists m, merge_metadata src dst sa da = Ret m /\
    forall i, m !! i = if decide (0 <= i < 4096 /\ inside da (idx_pos i))
      then src !! matching sa da (idx_pos i) else dst !! i.
Proof. exact UtilsProofs.merge_metadata_ok. Qed.
Print Assumptions C18_copy_metadata.

Example C18_example :
  bool_decide (merge_metadata (list_to_map [(1, ex_meta); (3, ex_meta)])
    (list_to_map [(13 + 16 * 14 + 256 * 15, NM ∅ END_STR); (7, NM ∅ END_STR)]) ex_box_a ex_box_b
   = Ret (list_to_map [(14 + 16 * 14 + 256 * 15, ex_meta); (7, NM ∅ END_STR)])) = true.
Proof. by vm_compute. Qed.
