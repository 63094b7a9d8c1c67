(** Facts about edits of the toy map that undo or override others *)
From Verif Require Import KeepProofs AgainProofs AgainFacts CmdFacts Toy ToyRun CopyFacts GoneProofs LawFacts PairFacts AddFacts SpecUndo Spec.

Definition swap (old new : bytes) : args := with_names (Some old) [] (Some new) (toy_args CReplaceNodes).
Lemma swap_fair old new W : argsb (swap old new) = true -> bool_decide (fits16 new) = true -> W = toy_world \/ W = toy_world_rev ->
  fair toy_full W (swap old new) ∅.
Proof.
  intros Ha Hf HW. apply toy_fair; [toy_supplied|done| |by intros n [?|?]|done|apply keys_none|done].
  split; [|done]. intros n [= <-]. by apply bool_decide_eq_true in Hf.
Qed.
Definition cover : args := with_names None [] (Some (bstr "default:dirt")) (with_area (Area (V3 0 0 0) (V3 2 0 0)) false (toy_args CFill)).
Lemma cover_fair W : W = toy_world \/ W = toy_world_rev -> fair toy_full W cover ∅.
Proof.
  intros HW. apply toy_fair; [toy_supplied|by vm_compute| |by intros n [?|?]|done|apply keys_none|done].
  split; [|done]. intros n [= <-]. by vm_compute.
Qed.
Lemma gold_absent : absent toy_full main_end None false (bstr "mod:gold").
Proof.
  intros k bp x b i _ Hx Hd _ _ Hn.
  assert (map_Forall (fun _ n => n <> bstr "mod:gold") (nimap b)) as H.
  { refine (one_block (ser block_a) block_a (fun b => map_Forall (fun _ n => n <> bstr "mod:gold") (nimap b)) end_read _ k x b Hx Hd).
    apply (bool_decide_unpack _). by vm_compute. }
  unfold node_name in Hn. destruct (nodes (ndata b) !! Z.to_nat i) as [id|]; [|done]. cbn in Hn. by apply (H id _ Hn).
Qed.
Definition covered : args := with_area (Area (V3 0 0 0) (V3 1 0 0)) false (swap (bstr "default:chest") (bstr "mod:gold")).
Lemma covered_fair W : W = toy_world \/ W = toy_world_rev -> fair toy_full W covered ∅.
Proof.
  intros HW. apply toy_fair; [toy_supplied|by vm_compute| |by intros n [?|?]|done|apply keys_none|done].
  split; [|done]. intros n [= <-]. by vm_compute.
Qed.
Definition paint : args := with_param2 (Some x07) (with_names (Some (bstr "default:stone")) [] None (with_area (Area (V3 0 0 0) (V3 2 0 0)) false (toy_args CSetParam2))).
Lemma paint_fair W : W = toy_world \/ W = toy_world_rev -> fair toy_full W paint ∅.
Proof.
  intros HW. apply toy_fair; [toy_supplied|by vm_compute|by split|by intros n [?|?]|by eexists|apply keys_none|done].
Qed.

(** Storing a block loses metadata without variables and items, which deletemeta counts. *)
Lemma blank_told : exists E W g1 g2 main input n,
  fair E W g1 input /\ fair E W g2 input /\ keys_ok main /\ 4095 <= n <= 7280 /\ blocks E main (healthy n) /\
  in_place (acmd g1) = true /\ in_place (acmd g2) = true /\ unrelated g1 g2 /\ acmd g2 = CDeleteMeta /\
  exists m1 l1 m12 m2 c c', run_ok E g1 W main input m1 l1 /\ told E W g2 m1 input m12 c /\ told E W g2 main input m2 c' /\ c <> c'.
Proof.
  exists toy_full, toy_world, cover, pair_meta, main_beside, ∅, 4095.
  split; [apply cover_fair; by left|]. split; [plain|]. split; [apply LawFacts.one_keys|]. split; [lia|].
  split. { apply (one_block data_beside block_beside); [apply beside_read|]. apply healthyb_ok. by vm_compute. }
  split; [done|]. split; [done|]. split; [split; [by left|done]|]. split; [done|].
  destruct (ran_ok toy_world main_beside ∅ pair_meta (warnings pair_meta ++ [(LInfo, MMeta 2)] ++ closing 0) (fun _ => true)) as (m2 & Run & _); [by vm_compute|].
  destruct (ran_ok toy_world main_beside ∅ cover (warnings cover ++ [(LInfo, MFilled 3)] ++ closing 0) (fun m1 =>
    ran toy_world m1 ∅ pair_meta (warnings pair_meta ++ [(LInfo, MMeta 1)] ++ closing 0) (fun _ => true))) as (m1 & Run1 & H1); [by vm_compute|].
  destruct (ran_ok _ _ _ _ _ _ H1) as (m12 & Run12 & _).
  eexists m1, _, m12, m2, (MMeta 1), (MMeta 2). split; [exact Run1|]. split; [by exists 0|]. split; [by exists 0|]. done.
Qed.

(** Deleting one of two blocks *)
Definition across : args := with_names None [] (Some (bstr "default:dirt")) (with_area (Area (V3 14 0 0) (V3 17 0 0)) false (toy_args CFill)).
Definition drop_there : args := with_area (Area (V3 16 0 0) (V3 31 15 15)) false (toy_args CDeleteBlocks).
Definition drop_here : args := with_area (Area (V3 (-1) 0 0) (V3 15 15 15)) false (toy_args CDeleteBlocks).
Lemma across_fair W : W = toy_world \/ W = toy_world_rev -> fair toy_full W across ∅.
Proof.
  intros HW. apply toy_fair; [toy_supplied|by vm_compute| |by intros n [?|?]|done|apply keys_none|done].
  split; [|done]. intros n [= <-]. by vm_compute.
Qed.
Lemma drop_fair g W : g = drop_there \/ g = drop_here -> W = toy_world \/ W = toy_world_rev -> fair toy_full W g ∅.
Proof.
  intros [-> | ->] HW; (apply toy_fair; [toy_supplied|by vm_compute|by split|by intros n [?|?]|done|apply keys_none|done]).
Qed.
Lemma way_keys : keys_ok main_way.
Proof. apply (two_keys 1 (V3 1 0 0)). by apply (near_origin (V3 1 0 0)); right; left. Qed.
Lemma way_healthy : blocks toy_full main_way (healthy 4095).
Proof.
  apply (two_blocks 1 (ser block_here) (ser block_there) block_here block_there); [apply here_read|apply there_read|..];
    apply healthyb_ok; by vm_compute.
Qed.
Lemma here_covers : covers drop_here cover.
Proof.
  intros [bx by' bz] ([qx qy qz] & Hq & Hs) [rx ry rz] Hr. unfold selected, inside, node_in_block in *. cbn in *. lia.
Qed.
