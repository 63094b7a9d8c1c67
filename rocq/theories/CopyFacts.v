(** Consequences of the theorems about clone and overlay, and runs of them *)
From Verif Require Import Toy ToyRun CmdFacts MixProofs CopyRun OverlayRun EditProofs QueryProofs SpecCopy Spec.

(** ** Blocks that are not generated *)
Lemma copies_spare E W g main input src a off : ext_ok E -> copies E W g main input src a off ->
  exists main' l, run_ok E g W main input main' l /\ spares E main src main' off.
Proof.
  intros HE (main' & failed & Hrun & _ & _ & Heff). exists main', (warnings g ++ closing failed).
  split; [exact Hrun|]. intros k bp x b Hb Hx Hd. destruct (Heff k bp x Hb Hx) as (y & Hy & H).
  rewrite Hd in H. destruct H as (Hun & b' & Hd' & _ & HR). exists y, b'. split; [done|]. split; [done|].
  split; [intros Hg; apply Hun; by left|]. intros i Hi Hsrc.
  assert (not_generated b -> b' = b) as Hsame.
  { intros Hg. rewrite Hun in Hd' by by left. congruence. }
  destruct HR as [Hg|(_ & _ & HR)]; [by rewrite Hsame|].
  destruct (HR i Hi) as [_ HR2]. apply HR2. intros [_ (sb & j & sp & _ & (ks & sx & Hks & Hsx & Hsd & Hsg) & Hj & Hp)].
  apply Hsg. eapply (Hsrc sp sx sb ks j); done.
Qed.

Lemma clone_spares E W g main input pos a off : setting E W g main pos ->
  acmd g = CClone -> aarea g = Some a -> offset g = Some off -> roomy E g main main ->
  exists main' l, run_ok E g W main input main' l /\ spares E main main main' off.
Proof.
  intros HS Hc Ha Ho Hb. eapply copies_spare; [apply HS|]. by eapply clone_run.
Qed.
Lemma offset_spares E W g main input pos off : setting E W g main pos ->
  acmd g = COverlay -> offset g = Some off -> off <> V3 0 0 0 -> roomy E g main input ->
  exists main' l, run_ok E g W main input main' l /\ spares E main input main' off.
Proof.
  intros HS Hc Ho Hz Hb. eapply copies_spare; [apply HS|]. by eapply offset_run.
Qed.

(** ** Completion *)
Lemma closing_last n l : last (l ++ closing n) = Some (LInfo, MDone).
Proof.
  rewrite last_app. unfold closing. by destruct (0 <? n).
Qed.
Lemma completes_copy E W g main input pos : setting E W g main pos -> keys_ok input ->
  acmd g = CClone /\ roomy E g main main \/ acmd g = COverlay /\ roomy E g main input ->
  completes E W g main input.
Proof.
  intros HS Hk Hc. destruct Hc as [[Hc Hm]|[Hc Hm]].
  - pose proof (set_supplied _ _ _ _ _ HS) as [_ Hsup]. rewrite Hc in Hsup. destruct Hsup as [[a Ha] [off Ho]].
    destruct (clone_run E W g main input pos HS a off Hc Ha Ho Hm) as (main' & n & Hrun & _).
    exists main', (warnings g ++ closing n). split; [done|]. apply closing_last.
  - destruct (decide (default (V3 0 0 0) (offset g) = V3 0 0 0)) as [Hz|Hz].
    + destruct (overlay_run E W g main input pos HS Hk Hc Hz Hm) as (main' & n & Hrun & _).
      exists main', (warnings g ++ closing n). split; [done|]. apply closing_last.
    + destruct (offset g) as [off|] eqn:Ho; [|done].
      destruct (offset_run E W g main input pos HS off Hc Ho Hz Hm) as (main' & n & Hrun & _).
      exists main', (warnings g ++ closing n). split; [done|]. apply closing_last.
Qed.

(** ** Runs *)
Lemma toy_input_sound : blocks toy_full toy_input (sound 7280).
Proof. apply (all_blocks_ok _ _ (soundb 7280)); [by vm_compute|apply soundb_ok]. Qed.
Lemma toy_input_keys : keys_ok toy_input.
Proof.
  intros k [x H]. unfold toy_input in H. apply elem_of_list_to_map_2 in H.
  rewrite !elem_of_cons, elem_of_nil in H.
  destruct H as [H|[H|[]]]; apply (f_equal fst) in H; cbn [fst] in H; rewrite H.
  - exists (V3 0 0 0). split; [unfold key_range; simpl; lia|done].
  - exists (V3 (-1) 0 2). split; [unfold key_range; simpl; lia|done].
Qed.

(** A source block at the border of the map: nodes from -31000 to -30993 *)
Definition plain_block (n : bytes) : block := mk_block 29 0 (list_to_map [(0, n)]) ∅ [] [].
Definition key_edge : Z := -1938.
Definition key_next : Z := -1937.
Definition edge_pos (k : Z) : vec3 := V3 k 0 0.
Definition stone : bytes := bstr "default:stone".
Definition edge_main : mapdata :=
  list_to_map [(key_edge, ser (plain_block stone)); (key_next, ser (plain_block (bstr "air")))].
Definition edge_area : area := Area (V3 (-31000) 0 0) (V3 (-31000) 0 0).
Definition edge_off : vec3 := V3 16 0 0.
Definition edge_clone : args := with_offset (Some edge_off) (with_area edge_area false (toy_args CClone)).
Definition edge_overlay : args :=
  with_input (Some (bstr "input.sqlite")) (with_offset (Some edge_off) (with_area edge_area false (toy_args COverlay))).

Lemma edge_setting g : supplied g -> argsb g = true -> setting toy_full toy_world g edge_main edge_pos.
Proof.
  intros Hs Ha. destruct (toy_setting g Hs Ha). split; [done..|].
  intros k [x H]. unfold edge_main in H. apply elem_of_list_to_map_2 in H.
  rewrite !elem_of_cons, elem_of_nil in H.
  destruct H as [H|[H|[]]]; apply (f_equal fst) in H; cbn [fst] in H; rewrite H;
    (split; [unfold key_range, edge_pos, key_edge, key_next; simpl; lia|done]).
Qed.
Lemma edge_sound : blocks toy_full edge_main (sound 7280).
Proof. apply (all_blocks_ok _ _ (soundb 7280)); [by vm_compute|apply soundb_ok]. Qed.
Lemma edge_holds : holds toy_full edge_main (V3 (-1938) 0 0) (plain_block stone).
Proof.
  exists key_edge, (ser (plain_block stone)). split; [split; [unfold key_range; simpl; lia|done]|].
  split; [apply (bool_decide_unpack _); by vm_compute|].
  split; [apply (bool_decide_unpack _); by vm_compute|]. by vm_compute.
Qed.
Lemma edge_dest : holds toy_full edge_main (V3 (-1937) 0 0) (plain_block (bstr "air")).
Proof.
  exists key_next, (ser (plain_block (bstr "air"))). split; [split; [unfold key_range; simpl; lia|done]|].
  split; [apply (bool_decide_unpack _); by vm_compute|].
  split; [apply (bool_decide_unpack _); by vm_compute|]. by vm_compute.
Qed.

Lemma edge_missed g : argsb g = true -> supplied g ->
  ran toy_world edge_main edge_main g (warnings g ++ closing 0) (fun m => match m !! key_next with
     | Some y => match deserialize toy_full y with
                 | Ok b => bool_decide (node_name b 8 = Some (bstr "air"))
                 | _ => false end
     | None => false end) = true ->
  missed toy_full toy_world g edge_main edge_main edge_main edge_area edge_off.
Proof.
  intros _ _ H. apply ran_ok in H as (main' & Hrun & H).
  exists main', (warnings g ++ closing 0), (V3 (-1937) 0 0), (plain_block (bstr "air")), 8, (V3 (-1938) 0 0), (plain_block stone), 8.
  split; [exact Hrun|]. split; [apply edge_dest|]. split; [apply edge_holds|]. split; [lia|]. split; [lia|].
  split; [by vm_compute|]. split; [by vm_compute|].
  intros b' (k & y & [_ Hk] & Hy & Hd & _). change (k = key_next) in Hk. subst k. rewrite Hy, Hd in H.
  apply bool_decide_eq_true in H. rewrite H. by vm_compute.
Qed.

Lemma clone_edge : exists E W g main input pos a off, setting E W g main pos /\
  acmd g = CClone /\ aarea g = Some a /\ offset g = Some off /\ blocks E main (sound 7280) /\
  missed E W g main input main a off.
Proof.
  exists toy_full, toy_world, edge_clone, edge_main, edge_main, edge_pos, edge_area, edge_off.
  assert (supplied edge_clone) as Hs by toy_supplied. assert (argsb edge_clone = true) as Ha by by vm_compute.
  split; [by apply edge_setting|]. do 3 (split; [done|]). split; [apply edge_sound|].
  apply edge_missed; [done|done|]. by vm_compute.
Qed.
Lemma overlay_edge : exists E W g main input pos a off, setting E W g main pos /\
  acmd g = COverlay /\ aarea g = Some a /\ offset g = Some off /\ off <> V3 0 0 0 /\
  blocks E main (sound 7280) /\ blocks E input (sound 7280) /\
  missed E W g main input input a off.
Proof.
  exists toy_full, toy_world, edge_overlay, edge_main, edge_main, edge_pos, edge_area, edge_off.
  assert (supplied edge_overlay) as Hs by toy_supplied. assert (argsb edge_overlay = true) as Ha by by vm_compute.
  split; [by apply edge_setting|]. do 4 (split; [done|]). split; [apply edge_sound|]. split; [apply edge_sound|].
  apply edge_missed; [done|done|]. by vm_compute.
Qed.

(** Nodes of an input block that is not generated *)
Definition ignore_block : block :=
  let b := plain_block (bstr "ignore") in
  Block (version b) (z2b 8) (lighting b) (content_width b) (params_width b) (ndata b)
    (metadata b) (objects b) (timestamp b) (nimap b) (timers b).
Definition ig_main : mapdata := {[ key_a := ser (plain_block stone) ]}.
Definition ig_input : mapdata := {[ key_a := ser ignore_block ]}.
Definition ig_overlay : args :=
  with_input (Some (bstr "input.sqlite")) (with_area (Area (V3 0 0 0) (V3 1 0 0)) false (toy_args COverlay)).
Lemma overlay_not_generated : exists E W g main input pos, setting E W g main pos /\ keys_ok input /\
  acmd g = COverlay /\ offset g = None /\ blocks E main (sound 7280) /\ blocks E input (sound 7280) /\
  exists main' l k bp x sb y b z b' i, run_ok E g W main input main' l /\
    block_at k bp /\ input !! k = Some x /\ deserialize E x = Ok sb /\ not_generated sb /\
    main !! k = Some y /\ deserialize E y = Ok b /\ main' !! k = Some z /\ deserialize E z = Ok b' /\
    0 <= i < 4096 /\ node_name b' i = node_name sb i /\ node_name b' i <> node_name b i.
Proof.
  exists toy_full, toy_world, ig_overlay, ig_main, ig_input, (fun _ => V3 0 0 0).
  split; [apply key_a_setting; [toy_supplied|by vm_compute]|].
  split. { intros k [y Hk]. unfold ig_input in Hk. apply lookup_singleton_Some in Hk as [<- _]. exists (V3 0 0 0). split; [unfold key_range; simpl; lia|done]. }
  split; [done|]. split; [done|].
  split; [apply (all_blocks_ok _ _ (soundb 7280)); [by vm_compute|apply soundb_ok]|].
  split; [apply (all_blocks_ok _ _ (soundb 7280)); [by vm_compute|apply soundb_ok]|].
  destruct (ran_ok toy_world ig_main ig_input ig_overlay (warnings ig_overlay ++ closing 0)
    (fun m => match m !! key_a with
              | Some y => match deserialize toy_full y with
                          | Ok b => bool_decide (node_name b 1 = Some (bstr "ignore"))
                          | _ => false end
              | None => false end)) as (main' & Hrun & H); [by vm_compute|].
  destruct (main' !! key_a) as [z|] eqn:Ez; [|done]. destruct (deserialize toy_full z) as [b'|] eqn:Eb; [|done].
  apply bool_decide_eq_true in H.
  exists main', (warnings ig_overlay ++ closing 0), key_a, (V3 0 0 0), (ser ignore_block), ignore_block,
    (ser (plain_block stone)), (plain_block stone), z, b', 1.
  split; [exact Hrun|]. split; [split; [unfold key_range; simpl; lia|done]|].
  split; [apply lookup_singleton|]. split; [apply (bool_decide_unpack _); by vm_compute|].
  split; [by vm_compute|]. split; [apply lookup_singleton|]. split; [apply (bool_decide_unpack _); by vm_compute|].
  split; [exact Ez|]. split; [exact Eb|]. split; [lia|]. rewrite H. split; [by vm_compute|]. by vm_compute.
Qed.
