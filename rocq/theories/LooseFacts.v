(** Facts about toy maps with the same contents *)
From Verif Require Import KeepProofs AgainFacts OrderProofs OrderFacts CmdFacts Toy ToyRun CopyFacts RestoreFacts CongProofs CongFacts MixProofs LawProofs LawFacts PairFacts
  SpecCong SpecPair SpecAgain SpecLocal Spec.

(** The old block as it is stored again *)
Definition block_lost : block := mk_block 27 0 {[0 := bstr "default:chest"]} {[0 := secret false]} [] [].
Definition data_lost : bytes := ser block_lost.
Lemma lost_read : deserialize toy_full data_lost = Ok block_lost.
Proof. apply (bool_decide_unpack _). by vm_compute. Qed.
Lemma healthy_lost : healthy 4095 block_lost.
Proof. apply healthyb_ok. by vm_compute. Qed.
Lemma two_same k x1 x2 y b1 b2 : k <> 0 -> deserialize toy_full x1 = Ok b1 -> deserialize toy_full x2 = Ok b2 -> alike b1 b2 ->
  same_contents toy_full (two k x1 y) (two k x2 y).
Proof.
  intros Hk D1 D2 Ha j. unfold two. cbn [list_to_map foldr fst snd]. destruct (decide (j = 0)) as [->|Hj].
  { rewrite !lookup_insert. right. by exists b1, b2. }
  rewrite !(lookup_insert_ne _ 0) by done. destruct (decide (j = k)) as [->|Hj2]; [rewrite !lookup_insert; by left|].
  by rewrite !(lookup_insert_ne _ k), !lookup_empty by done.
Qed.
Lemma contents_private : exists E W g m1 m2 input n, fair E W g input /\ keys_ok m1 /\ 4095 <= n <= 7280 /\
  blocks E m1 (healthy n) /\ blocks E m2 (healthy n) /\ same_contents E m1 m2 /\ acmd g = CClone /\
  exists m1' m2' l, run_ok E g W m1 input m1' l /\ run_ok E g W m2 input m2' l /\ ~ same_contents E m1' m2'.
Proof.
  exists toy_full, toy_world, side_clone, (two 1 data_old data_new), (two 1 data_lost data_new), ∅, 4095.
  split; [plain|]. split; [apply (two_keys _ (V3 1 0 0)), (near_origin (V3 1 0 0)); by right; left|]. split; [lia|].
  split; [apply (two_blocks _ _ _ block_old block_new); [apply old_read|apply new_read|apply healthy_old|apply healthy_new]|].
  split; [apply (two_blocks _ _ _ block_lost block_new); [apply lost_read|apply new_read|apply healthy_lost|apply healthy_new]|].
  split; [apply (two_same _ _ _ _ block_old block_lost); [done|apply old_read|apply lost_read|apply alikeb_ok; by vm_compute]|].
  split; [done|]. set (l := warnings side_clone ++ closing 0).
  destruct (ran_ok toy_world (two 1 data_old data_new) ∅ side_clone l (fun m =>
    block_is m 1 (fun b => metadata (norm b) !! 0) (Some (secret true)))) as (m1 & Run1 & H1); [by vm_compute|].
  destruct (ran_ok toy_world (two 1 data_lost data_new) ∅ side_clone l (fun m =>
    block_is m 1 (fun b => metadata (norm b) !! 0) (Some (secret false)))) as (m2 & Run2 & H2); [by vm_compute|].
  exists m1, m2, l. split; [exact Run1|]. split; [exact Run2|]. intros Hs.
  exact (meta_differs _ _ _ _ _ _ H2 H1 secrets (contents_sym _ _ _ Hs)).
Qed.

(** Entries without variables and items *)
Lemma blank_healthy : blocks toy_full main_blank (healthy 4095).
Proof. apply (one_block data_blank block_blank); [apply blank_read|]. apply healthyb_ok. by vm_compute. Qed.
Lemma plain_healthy : blocks toy_full main_plain (healthy 4095).
Proof. apply (one_block data_plain block_plain); [apply plain_read|]. apply healthyb_ok. by vm_compute. Qed.
Lemma blank_same : same_contents toy_full main_blank main_plain.
Proof. apply (one_same _ _ block_blank block_plain); [apply blank_read|apply plain_read|]. apply alikeb_ok. by vm_compute. Qed.
Lemma blank_public : blocks toy_full main_blank no_early_private /\ blocks toy_full main_plain no_early_private.
Proof.
  split; [apply (one_block data_blank block_blank); [apply blank_read|]|apply (one_block data_plain block_plain); [apply plain_read|]];
    intros Hv; by vm_compute in Hv.
Qed.
Definition blank_clone : args := with_offset (Some (V3 1 0 0)) (with_area (Area (V3 0 0 0) (V3 0 0 0)) false (toy_args CClone)).
Lemma blank_fair : fair toy_full toy_world blank_clone ∅ /\ fair toy_rev toy_world_rev blank_clone ∅.
Proof.
  split; [plain|]. apply rev_fair. apply plain_fair; [toy_supplied|by vm_compute|by apply fit_none|done|done|done|apply keys_none|by right].
Qed.
