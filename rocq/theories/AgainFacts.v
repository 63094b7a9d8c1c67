(** Facts about repeated runs of the toy map *)
From Verif Require Import KeepProofs AgainProofs CmdFacts Toy ToyRun CopyFacts SpecAgain Spec.

Definition healthyb (n : Z) (b : block) : bool :=
  soundb n b && uniqueb b && forallb (fun e => plainb (inv e.2)) (map_to_list (metadata b)).
Lemma healthyb_ok n b : healthyb n b = true -> healthy n b.
Proof.
  unfold healthyb. rewrite !andb_true_iff. intros [[H1 H2] H3].
  split; [by apply soundb_ok|by apply uniqueb_ok|]. intros i e He. by eapply all_plain.
Qed.
Lemma toy_fair g input : supplied g -> argsb g = true -> args_fit g -> tame g -> (acmd g = CSetParam2 -> is_Some (aparam2 g)) ->
  keys_ok input -> forall W, W = toy_world \/ W = toy_world_rev -> fair toy_full W g input.
Proof.
  intros Hs Hl Hfit Ht Hc Hi W HW. destruct (toy_setting g Hs Hl).
  assert (world_ok W) as HO.
  { destruct HW as [->| ->]; [assumption|]. intros t m. cbn. apply reverse_Permutation. }
  split; try assumption; destruct HW as [->| ->]; assumption.
Qed.
Lemma keys_none : keys_ok ∅.
Proof. by intros k [x Hx]. Qed.
Lemma blocks_none E P : blocks E ∅ P.
Proof. by intros k x b Hx. Qed.
Lemma end_keys : keys_ok main_end.
Proof.
  unfold main_end. intros k [y [<- _]%lookup_singleton_Some]. exists (V3 0 0 0). split; [|done]. unfold key_range; simpl; lia.
Qed.
Lemma end_read : deserialize toy_full (ser block_a) = Ok block_a.
Proof. apply (bool_decide_unpack _). by vm_compute. Qed.
Lemma end_healthy : blocks toy_full main_end (healthy 4095).
Proof. apply (one_block (ser block_a) block_a); [apply end_read|]. apply healthyb_ok. by vm_compute. Qed.

(** A chest next to stone: the second time, the copy of the chest is copied. *)
Definition shift_clone : args :=
  with_offset (Some (V3 1 0 0)) (with_area (Area (V3 0 0 0) (V3 1 0 0)) false (toy_args CClone)).
Lemma clone_twice : exists E W1 W2 g main input n, fair E W1 g input /\ fair E W2 g input /\ keys_ok main /\
  4095 <= n /\ n + growth g <= 7280 /\ blocks E main (healthy n) /\ blocks E input (healthy n) /\
  acmd g = CClone /\ blocks E main no_early_private /\
  exists main1 l1 main2 l2, twice E W1 W2 g main input main1 l1 main2 l2 /\ ~ same_contents E main1 main2.
Proof.
  exists toy_full, toy_world, toy_world, shift_clone, main_end, ∅, 4095.
  assert (fair toy_full toy_world shift_clone ∅) as HF.
  { apply toy_fair; [toy_supplied|by vm_compute|done|by intros n [?|?]|done|apply keys_none|by left]. }
  split; [exact HF|]. split; [exact HF|]. split; [exact end_keys|]. split; [lia|]. split; [by vm_compute|].
  split; [exact end_healthy|]. split; [apply blocks_none|]. split; [reflexivity|]. split.
  { apply (one_block (ser block_a) block_a); [apply end_read|]. intros H. vm_compute in H. discriminate. }
  set (name := fun b => node_name b 2).
  set (l := warnings shift_clone ++ closing 0).
  destruct (ran_ok toy_world main_end ∅ shift_clone l (fun m1 =>
    block_is m1 key_a name (Some (bstr "default:stone")) &&
    ran toy_world m1 ∅ shift_clone l (fun m2 => block_is m2 key_a name (Some (bstr "default:chest")))))
    as (main1 & Run1 & H1); [by vm_compute|].
  apply andb_true_iff in H1 as [H1 H2]. destruct (ran_ok _ _ _ _ _ _ H2) as (main2 & Run2 & H3).
  exists main1, l, main2, l. split; [by split|]. intros Hs. specialize (Hs key_a). unfold block_is in *.
  destruct (main1 !! key_a) as [y1|]; [|done]. destruct (main2 !! key_a) as [y2|]; [|done].
  destruct (deserialize toy_full y1) as [b1|] eqn:E1; [|done]. destruct (deserialize toy_full y2) as [b2|] eqn:E2; [|done].
  apply bool_decide_eq_true in H1, H3. unfold name in *.
  destruct Hs as [->|(c1 & c2 & D1 & D2 & _ & Hal)].
  - rewrite E1 in E2. injection E2 as ->. rewrite H1 in H3. discriminate.
  - injection D1 as <-. injection D2 as <-.
    destruct (Hal 2 ltac:(lia)) as [Hn _]. rewrite H1, H3 in Hn. discriminate.
Qed.
