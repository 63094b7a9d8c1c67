(** Runs of clone and overlay on blocks with large IDs *)
From Verif Require Import Toy ToyRun CmdFacts CopyFacts SpecCopy Spec.

(** Blocks with a large ID.  All nodes of the first are air; the large ID is not used. *)
Definition dst_block (n : Z) : block :=
  mk_block 29 0 (list_to_map [(0, bstr "air"); (n, bstr "default:dirt")]) ∅ [] [].
Definition src_block (n : Z) : block := mk_block 29 n (list_to_map [(n, stone)]) ∅ [] [].

Definition wide_clone_main (d n : Z) : mapdata :=
  list_to_map [(0, ser (src_block n)); (1, ser (dst_block d))].
Definition wide_main (n : Z) : mapdata := list_to_map [(1, ser (dst_block n))].
Definition wide_input (n : Z) : mapdata := list_to_map [(0, ser (src_block n)); (1, ser (src_block n))].

(** One node, from block (0,0,0) to block (1,0,0) or within block (1,0,0) *)
Definition one_node (x : Z) : area := Area (V3 x 0 0) (V3 x 0 0).
Definition wide_clone : args :=
  with_offset (Some (V3 16 0 0)) (with_area (one_node 0) false (toy_args CClone)).
Definition wide_overlay : args :=
  with_input (Some (bstr "input.sqlite")) (with_area (one_node 16) false (toy_args COverlay)).
Definition wide_shift : args :=
  with_input (Some (bstr "input.sqlite")) (with_offset (Some (V3 16 0 0))
    (with_area (one_node 0) false (toy_args COverlay))).

Lemma wide_setting g main : supplied g -> argsb g = true -> (forall k, is_Some (main !! k) -> k = 0 \/ k = 1) ->
  setting toy_full toy_world g main edge_pos.
Proof.
  intros Hs Ha Hk. destruct (toy_setting g Hs Ha). split; [done..|].
  intros k [->| ->]%Hk; (split; [unfold key_range, edge_pos; simpl; lia|done]).
Qed.
Lemma clone_main_keys d n k : is_Some (wide_clone_main d n !! k) -> k = 0 \/ k = 1.
Proof.
  intros [x H]. unfold wide_clone_main in H. apply elem_of_list_to_map_2 in H.
  rewrite !elem_of_cons, elem_of_nil in H.
  destruct H as [H|[H|[]]]; apply (f_equal fst) in H; cbn [fst] in H; auto.
Qed.
Lemma wide_main_keys n k : is_Some (wide_main n !! k) -> k = 0 \/ k = 1.
Proof.
  intros [x H]. unfold wide_main in H. apply elem_of_list_to_map_2 in H.
  rewrite !elem_of_cons, elem_of_nil in H. destruct H as [H|[]]; apply (f_equal fst) in H; cbn [fst] in H; auto.
Qed.
Lemma wide_input_keys n : keys_ok (wide_input n).
Proof.
  intros k [x H]. unfold wide_input in H. apply elem_of_list_to_map_2 in H.
  rewrite !elem_of_cons, elem_of_nil in H. exists (V3 k 0 0).
  destruct H as [H|[H|[]]]; apply (f_equal fst) in H; cbn [fst] in H; rewrite H;
    (split; [unfold key_range; simpl; lia|done]).
Qed.

(** *** A name is overwritten *)
Lemma wide_read : deserialize toy_full (ser (dst_block 1)) = Ok (dst_block 1).
Proof. apply (bool_decide_unpack _). by vm_compute. Qed.

Lemma wide_spoiled g main input : main !! 1 = Some (ser (dst_block 1)) ->
  ~ selected (aarea g) (invert g) (minus (abs_pos (V3 1 0 0) 5) (default (V3 0 0 0) (offset g))) ->
  ran toy_world main input g (warnings g ++ closing 0)
    (fun m => block_is m 1 (fun b => node_name b 5) (Some stone)) = true ->
  spoiled toy_full toy_world g main input.
Proof.
  intros Hm Hs H. apply ran_ok in H as (main' & Hrun & H). unfold block_is in H.
  destruct (main' !! 1) as [y|] eqn:Ey; [|discriminate H].
  destruct (deserialize toy_full y) as [b'|] eqn:Eb; [|discriminate H].
  apply bool_decide_eq_true in H.
  exists main', (warnings g ++ closing 0), 1, (V3 1 0 0), (ser (dst_block 1)), (dst_block 1), y, b', 5.
  split; [exact Hrun|]. split; [split; [unfold key_range; simpl; lia|reflexivity]|]. split; [exact Hm|].
  split; [exact wide_read|]. split; [exact Ey|]. split; [exact Eb|]. split; [lia|]. split; [exact Hs|].
  rewrite H. intros E. apply (bool_decide_eq_true_2 _) in E. revert E. by vm_compute.
Qed.

Ltac outside_one := cbn; unfold inside; simpl; lia.

Lemma clone_spoils : exists E W g main input pos, setting E W g main pos /\
  acmd g = CClone /\ blocks E main (sound 65534) /\ spoiled E W g main input.
Proof.
  exists toy_full, toy_world, wide_clone, (wide_clone_main 1 65534), ∅, edge_pos.
  split; [apply wide_setting; [toy_supplied|by vm_compute|apply clone_main_keys]|]. split; [reflexivity|].
  split; [apply (all_blocks_ok _ _ (soundb 65534)); [by vm_compute|apply soundb_ok]|].
  apply wide_spoiled; [apply (bool_decide_unpack _); by vm_compute|outside_one|by vm_compute].
Qed.
Lemma overlay_spoils : exists E W g main input pos, setting E W g main pos /\ keys_ok input /\
  acmd g = COverlay /\ offset g = None /\ blocks E main (sound 1) /\ blocks E input (sound 65534) /\
  spoiled E W g main input.
Proof.
  exists toy_full, toy_world, wide_overlay, (wide_main 1), (wide_input 65534), edge_pos.
  split; [apply wide_setting; [toy_supplied|by vm_compute|apply wide_main_keys]|].
  split; [apply wide_input_keys|]. split; [reflexivity|]. split; [reflexivity|].
  split; [apply (all_blocks_ok _ _ (soundb 1)); [by vm_compute|apply soundb_ok]|].
  split; [apply (all_blocks_ok _ _ (soundb 65534)); [by vm_compute|apply soundb_ok]|].
  apply wide_spoiled; [apply (bool_decide_unpack _); by vm_compute|outside_one|by vm_compute].
Qed.
Lemma shift_spoils : exists E W g main input pos off, setting E W g main pos /\
  acmd g = COverlay /\ offset g = Some off /\ off <> V3 0 0 0 /\
  blocks E main (sound 1) /\ blocks E input (sound 65534) /\
  spoiled E W g main input.
Proof.
  exists toy_full, toy_world, wide_shift, (wide_main 1), (wide_input 65534), edge_pos, (V3 16 0 0).
  split; [apply wide_setting; [toy_supplied|by vm_compute|apply wide_main_keys]|].
  split; [reflexivity|]. split; [reflexivity|]. split; [by intros [=]|].
  split; [apply (all_blocks_ok _ _ (soundb 1)); [by vm_compute|apply soundb_ok]|].
  split; [apply (all_blocks_ok _ _ (soundb 65534)); [by vm_compute|apply soundb_ok]|].
  apply wide_spoiled; [apply (bool_decide_unpack _); by vm_compute|outside_one|by vm_compute].
Qed.

(** *** No number is left *)
Definition panics (g : args) (main input : mapdata) : bool :=
  match (thread_main toy_full g toy_world (start main input)).1 with Panicked => true | _ => false end.
Lemma panics_ok g main input : panics g main input = true ->
  exists s, thread_main toy_full g toy_world (start main input) = (Panicked, s).
Proof.
  unfold panics. destruct (thread_main _ _ _ _) as [[| |] s]; intros H; [discriminate H|by exists s|discriminate H].
Qed.
Lemma clone_panics : exists E W g main input pos, setting E W g main pos /\
  acmd g = CClone /\ (forall n, room (default (V3 0 0 0) (offset g)) n n <-> 0 <= n <= 32766) /\
  blocks E main (sound 32767) /\
  exists s, thread_main E g W (start main input) = (Panicked, s).
Proof.
  exists toy_full, toy_world, wide_clone, (wide_clone_main 32767 32767), ∅, edge_pos.
  split; [apply wide_setting; [toy_supplied|by vm_compute|apply clone_main_keys]|]. split; [reflexivity|].
  split; [intros n; unfold room; change (pieces _) with 1; lia|].
  split; [apply (all_blocks_ok _ _ (soundb 32767)); [by vm_compute|apply soundb_ok]|].
  apply panics_ok. by vm_compute.
Qed.
Lemma overlay_panics : exists E W g main input pos, setting E W g main pos /\ keys_ok input /\
  acmd g = COverlay /\ (forall n, room (default (V3 0 0 0) (offset g)) n n <-> 0 <= n <= 32766) /\
  blocks E main (sound 32767) /\ blocks E input (sound 32767) /\
  exists s, thread_main E g W (start main input) = (Panicked, s).
Proof.
  exists toy_full, toy_world, wide_overlay, (wide_main 32767), (wide_input 32767), edge_pos.
  split; [apply wide_setting; [toy_supplied|by vm_compute|apply wide_main_keys]|].
  split; [apply wide_input_keys|]. split; [reflexivity|].
  split; [intros n; unfold room; change (pieces _) with 1; lia|].
  split; [apply (all_blocks_ok _ _ (soundb 32767)); [by vm_compute|apply soundb_ok]|].
  split; [apply (all_blocks_ok _ _ (soundb 32767)); [by vm_compute|apply soundb_ok]|].
  apply panics_ok. by vm_compute.
Qed.
