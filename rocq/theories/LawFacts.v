(** Facts about laws of clone and overlay on toy maps *)
From Verif Require Import KeepProofs AgainFacts OrderProofs CmdFacts Toy ToyRun CopyFacts RestoreFacts CongProofs LawProofs SpecLaws SpecAgain Spec.

(** Read-only hypotheses *)
Lemma public_end : blocks toy_full main_end no_early_private.
Proof. apply (one_block (ser block_a) block_a); [apply end_read|]. intros H. vm_compute in H. discriminate. Qed.
Lemma plain_fair g input W : supplied g -> argsb g = true -> args_fit g -> aitem g = None -> new_item g = None ->
  (acmd g = CSetParam2 -> is_Some (aparam2 g)) -> keys_ok input -> W = toy_world \/ W = toy_world_rev -> fair toy_full W g input.
Proof. intros H1 H2 H3 H4 H5 H6 H7. apply toy_fair; try done. intros n [H|H]; congruence. Qed.
Lemma fit_none g : new_node g = None -> avalue g = None -> args_fit g.
Proof. intros H1 H2. split; [intros n; by rewrite H1|intros v; by rewrite H2]. Qed.

(** Metadata that differs *)
Lemma meta_differs m1 m2 k i v1 v2 : block_is m1 k (fun b => metadata (norm b) !! i) v1 = true ->
  block_is m2 k (fun b => metadata (norm b) !! i) v2 = true -> v1 <> v2 -> ~ same_contents toy_full m1 m2.
Proof.
  unfold block_is. intros H1 H2 Hv Hs. specialize (Hs k). destruct (m1 !! k) as [y1|]; [|done]. destruct (m2 !! k) as [y2|]; [|done].
  destruct (deserialize toy_full y1) as [b1|] eqn:E1; [|done]. destruct (deserialize toy_full y2) as [b2|] eqn:E2; [|done].
  apply bool_decide_eq_true in H1, H2. apply Hv. rewrite <-H1, <-H2.
  destruct Hs as [->|(c1 & c2 & D1 & D2 & Hn & _)]; [rewrite E1 in E2; by injection E2 as ->|].
  injection D1 as <-. injection D2 as <-. unfold same_but_nodes in Hn. by rewrite Hn.
Qed.

(** A block of version 27 with a private variable: the data of version 28 with another
    first byte *)
Definition secret (private : bool) : node_meta := NM {[ bstr "owner" := (bstr "me", private) ]} END_STR.
Lemma secrets : Some (secret false) <> Some (secret true).
Proof.
  intros H. apply (f_equal (fun o => o ≫= fun m => vars m !! bstr "owner")) in H. vm_compute in H. discriminate.
Qed.
Definition block_new : block := mk_block 28 0 {[0 := bstr "default:chest"]} ∅ [] [].
Definition block_old : block := mk_block 27 0 {[0 := bstr "default:chest"]} {[0 := secret true]} [] [].
Definition data_new : bytes := ser block_new.
Definition data_old : bytes :=
  z2b 27 :: drop 1 (ser (mk_block 28 0 {[0 := bstr "default:chest"]} {[0 := secret true]} [] [])).
Lemma new_read : deserialize toy_full data_new = Ok block_new.
Proof. apply (bool_decide_unpack _). by vm_compute. Qed.
Lemma old_read : deserialize toy_full data_old = Ok block_old.
Proof. apply (bool_decide_unpack _). by vm_compute. Qed.
Definition main_new : mapdata := {[ key_a := data_new ]}.
Definition main_old : mapdata := {[ key_a := data_old ]}.
Definition main_both : mapdata := list_to_map [(0, data_old); (1, data_new)].

Lemma one_keys x : keys_ok {[ key_a := x ]}.
Proof. intros k [y [<- _]%lookup_singleton_Some]. exists (V3 0 0 0). split; [|done]. unfold key_range; simpl; lia. Qed.
Lemma both_keys : keys_ok main_both.
Proof.
  intros k [x H]. unfold main_both in H. apply elem_of_list_to_map_2 in H. rewrite !elem_of_cons, elem_of_nil in H.
  destruct H as [H|[H|[]]]; apply (f_equal fst) in H; cbn [fst] in H; rewrite H.
  - exists (V3 0 0 0). split; [unfold key_range; simpl; lia|done].
  - exists (V3 1 0 0). split; [unfold key_range; simpl; lia|done].
Qed.
Lemma both_blocks (P : block -> Prop) : P block_old -> P block_new -> blocks toy_full main_both P.
Proof.
  intros H1 H2 k x b Hx Hd. unfold main_both in Hx. apply elem_of_list_to_map_2 in Hx. rewrite !elem_of_cons, elem_of_nil in Hx.
  destruct Hx as [H|[H|[]]]; apply (f_equal snd) in H; cbn [snd] in H; rewrite H in Hd.
  - rewrite old_read in Hd. by injection Hd as <-.
  - rewrite new_read in Hd. by injection Hd as <-.
Qed.
Lemma healthy_old : healthy 4095 block_old.
Proof. apply healthyb_ok. by vm_compute. Qed.
Lemma healthy_new : healthy 4095 block_new.
Proof. apply healthyb_ok. by vm_compute. Qed.

(** Clone after and before an edit of another node of the block *)
Definition side_paint : args :=
  with_area (Area (V3 1 0 0) (V3 1 0 0)) false (with_param2 (Some x07) (toy_args CSetParam2)).
Definition side_clone : args :=
  with_offset (Some (V3 16 0 0)) (with_area (Area (V3 0 0 0) (V3 0 0 0)) false (toy_args CClone)).
Lemma clone_private : exists E W g c main ing inc n, fair E W g ing /\ fair E W c inc /\ keys_ok main /\
  4095 <= n /\ n + growth g <= 7280 /\ blocks E main (healthy n) /\ in_place (acmd g) = true /\ acmd c = CClone /\ apart_from g c /\
  exists m12 m21, after E W W g c main ing inc m12 /\ after E W W c g main inc ing m21 /\ ~ same_contents E m12 m21.
Proof.
  exists toy_full, toy_world, side_paint, side_clone, main_both, ∅, ∅, 4095.
  split; [apply plain_fair; [toy_supplied|by vm_compute|by apply fit_none|done|done|by eexists|apply keys_none|by left]|].
  split; [apply plain_fair; [toy_supplied|by vm_compute|by apply fit_none|done|done|done|apply keys_none|by left]|].
  split; [apply both_keys|]. split; [lia|]. split; [by vm_compute|].
  split; [apply both_blocks; [apply healthy_old|apply healthy_new]|]. split; [done|]. split; [done|].
  split. { intros [x y z]. unfold selected, inside; cbn. lia. }
  destruct (ran_ok toy_world main_both ∅ side_paint (warnings side_paint ++ [(LInfo, MParam2 1)] ++ closing 0) (fun m1 =>
    ran toy_world m1 ∅ side_clone (warnings side_clone ++ closing 0) (fun m12 =>
      block_is m12 1 (fun b => metadata (norm b) !! 0) (Some (secret false))))) as (m1 & Run1 & H1); [by vm_compute|].
  destruct (ran_ok _ _ _ _ _ _ H1) as (m12 & Run12 & H12).
  destruct (ran_ok toy_world main_both ∅ side_clone (warnings side_clone ++ closing 0) (fun m2 =>
    ran toy_world m2 ∅ side_paint (warnings side_paint ++ [(LInfo, MParam2 1)] ++ closing 0) (fun m21 =>
      block_is m21 1 (fun b => metadata (norm b) !! 0) (Some (secret true))))) as (m2 & Run2 & H2); [by vm_compute|].
  destruct (ran_ok _ _ _ _ _ _ H2) as (m21 & Run21 & H21).
  exists m12, m21. split; [eexists m1, _, _; split; [exact Run1|exact Run12]|]. split; [eexists m2, _, _; split; [exact Run2|exact Run21]|].
  exact (meta_differs _ _ _ _ _ _ H12 H21 secrets).
Qed.

(** Overlay on a new block, after and before a replacement in both maps *)
Definition all_dirt : args :=
  with_names (Some (bstr "default:chest")) [] (Some (bstr "default:dirt")) (toy_args CReplaceNodes).
Lemma fit_dirt g : new_node g = Some (bstr "default:dirt") -> avalue g = None -> args_fit g.
Proof. intros H1 H2. split; [intros n; rewrite H1; intros [= <-]; by vm_compute|intros v; by rewrite H2]. Qed.
Definition one_back : args := back (Some (Area (V3 0 0 0) (V3 0 0 0))).
Lemma overlay_private : exists E W g c main ing inc n, fair E W g ing /\ fair E W c inc /\ keys_ok main /\
  4095 <= n /\ n + growth g <= 7280 /\ blocks E main (healthy n) /\ blocks E inc (healthy n) /\
  in_place (acmd g) = true /\ acmd c = COverlay /\ aarea g = None /\ acmd g <> CDeleteTimers /\
  exists inc1 l m12 m21, run_ok E g W inc ing inc1 l /\ after E W W g c main ing inc1 m12 /\
    after E W W c g main inc ing m21 /\ ~ same_contents E m12 m21.
Proof.
  exists toy_full, toy_world, all_dirt, one_back, main_new, ∅, main_old, 4095.
  split; [apply plain_fair; [toy_supplied|by vm_compute|by apply fit_dirt|done|done|done|apply keys_none|by left]|].
  split; [apply plain_fair; [toy_supplied|by vm_compute|by apply fit_none|done|done|done|apply one_keys|by left]|].
  split; [apply one_keys|]. split; [lia|]. split; [by vm_compute|].
  split; [apply (one_block data_new block_new); [apply new_read|apply healthy_new]|].
  split; [apply (one_block data_old block_old); [apply old_read|apply healthy_old]|].
  split; [done|]. split; [done|]. split; [done|]. split; [done|].
  set (lr := warnings all_dirt ++ [(LInfo, MReplaced 4096)] ++ closing 0).
  set (lo := warnings one_back ++ closing 0).
  destruct (ran_ok toy_world main_old ∅ all_dirt lr (fun i1 =>
    ran toy_world main_new ∅ all_dirt lr (fun m1 => ran toy_world m1 i1 one_back lo (fun m12 =>
      block_is m12 key_a (fun b => metadata (norm b) !! 0) (Some (secret false)))))) as (i1 & Run & H); [by vm_compute|].
  destruct (ran_ok _ _ _ _ _ _ H) as (m1 & Run1 & H1). destruct (ran_ok _ _ _ _ _ _ H1) as (m12 & Run12 & H12).
  destruct (ran_ok toy_world main_new main_old one_back lo (fun m2 =>
    ran toy_world m2 ∅ all_dirt lr (fun m21 =>
      block_is m21 key_a (fun b => metadata (norm b) !! 0) (Some (secret true))))) as (m2 & Run2 & H2); [by vm_compute|].
  destruct (ran_ok _ _ _ _ _ _ H2) as (m21 & Run21 & H21).
  exists i1, lr, m12, m21. split; [exact Run|]. split; [exists m1, lr, lo; split; [exact Run1|exact Run12]|].
  split; [exists m2, lo, lr; split; [exact Run2|exact Run21]|].
  exact (meta_differs _ _ _ _ _ _ H12 H21 secrets).
Qed.

(** Two halves of a block that the map does not have *)
Definition a_block : area := Area (V3 0 0 0) (V3 15 15 15).
Definition half1 : area := Area (V3 0 0 0) (V3 15 7 15).
Definition half2 : area := Area (V3 0 8 0) (V3 15 15 15).
Lemma overlay_halves : exists E W c a1 a2 main input n, let c1 := on_area (Some a1) false c in let c2 := on_area (Some a2) false c in
  fair E W c input /\ fair E W c1 input /\ fair E W c2 input /\ keys_ok main /\ 4095 <= n <= 7280 /\
  blocks E main (healthy n) /\ blocks E input (healthy n) /\ blocks E main no_early_private /\ blocks E input no_early_private /\
  acmd c = COverlay /\ offset c = None /\ invert c = false /\
  (forall p, selected (aarea c) false p <-> selected (Some a1) false p \/ selected (Some a2) false p) /\
  exists m l m12, run_ok E c W main input m l /\ after E W W c1 c2 main input input m12 /\ ~ same_contents E m m12.
Proof.
  exists toy_full, toy_world, (back (Some a_block)), half1, half2, ∅, main_end, 4095. intros c1 c2.
  do 3 (split; [apply plain_fair; [toy_supplied|by vm_compute|by apply fit_none|done|done|done|apply end_keys|by left]|]).
  split; [apply keys_none|]. split; [lia|]. split; [apply blocks_none|]. split; [apply end_healthy|].
  split; [apply blocks_none|]. split; [apply public_end|]. do 3 (split; [done|]).
  split. { intros [x y z]. unfold selected, inside; cbn. lia. }
  destruct (ran_ok toy_world ∅ main_end (back (Some a_block)) (warnings c1 ++ closing 0) (fun m => bool_decide (is_Some (m !! key_a))))
    as (m & Run & H); [by vm_compute|].
  destruct (ran_ok toy_world ∅ main_end c1 (warnings c1 ++ closing 0) (fun m1 =>
    ran toy_world m1 main_end c2 (warnings c1 ++ closing 0) (fun m12 => bool_decide (m12 !! key_a = None)))) as (m1 & Run1 & H1); [by vm_compute|].
  destruct (ran_ok _ _ _ _ _ _ H1) as (m12 & Run12 & H12).
  eexists m, _, m12. split; [exact Run|]. split; [eexists m1, _, _; split; [exact Run1|exact Run12]|].
  intros Hs. specialize (Hs key_a). apply bool_decide_eq_true in H, H12. rewrite H12 in Hs. destruct H as [x Hx]. by rewrite Hx in Hs.
Qed.
