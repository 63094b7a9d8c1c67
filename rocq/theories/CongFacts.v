(** Facts about toy maps with the same contents *)
From Verif Require Import KeepProofs AgainFacts OrderProofs OrderFacts CmdFacts Toy ToyRun CopyFacts RestoreFacts SpecCong Spec.

(** [block_a] with other numbers for its names, and a name that no node has *)
Definition block_p : block :=
  Block (version block_a) (flags block_a) (lighting block_a) (content_width block_a) (params_width block_a)
    (ND ([0; 9; 7; 7; 7; 0] ++ replicate (Z.to_nat 4090) 7) (param1 (ndata block_a)) (param2 (ndata block_a)))
    (metadata block_a) (objects block_a) (timestamp block_a)
    (list_to_map [(7, bstr "air"); (0, bstr "default:chest"); (9, bstr "default:stone"); (3, bstr "default:cobble")])
    (timers block_a).
Definition main_p : mapdata := {[ key_a := ser block_p ]}.

Definition names_of (b : block) : list (option bytes) := (fun id => nimap b !! id) <$> nodes (ndata b).
Definition alikeb (b1 b2 : block) : bool :=
  bool_decide (norm b2 = with_nodes (norm b1) (ndata b2) (nimap b2)) && bool_decide (names_of b1 = names_of b2) &&
  bool_decide (param1 (ndata b1) = param1 (ndata b2)) && bool_decide (param2 (ndata b1) = param2 (ndata b2)).
Lemma alikeb_ok b1 b2 : alikeb b1 b2 = true -> alike b1 b2.
Proof.
  unfold alikeb. rewrite !andb_true_iff, !bool_decide_eq_true. intros [[[H1 H2] H3] H4]. split; [done|]. intros i Hi.
  unfold node_param1, node_param2. rewrite H3, H4. split; [|done].
  pose proof (f_equal (fun l => l !! Z.to_nat i) H2) as H. unfold names_of in H. cbv beta in H. rewrite !list_lookup_fmap in H.
  unfold node_name. destruct (nodes (ndata b1) !! Z.to_nat i), (nodes (ndata b2) !! Z.to_nat i); cbn in *; congruence.
Qed.

Lemma p_read : deserialize toy_full (ser block_p) = Ok block_p.
Proof. apply (bool_decide_unpack _). by vm_compute. Qed.
Lemma p_healthy : blocks toy_full main_p (healthy 4095).
Proof. apply (one_block (ser block_p) block_p); [apply p_read|]. apply healthyb_ok. by vm_compute. Qed.
Lemma p_storable : blocks toy_full main_p storable.
Proof. apply (one_block (ser block_p) block_p); [apply p_read|]. apply (bool_decide_unpack _). by vm_compute. Qed.
Lemma end_storable : blocks toy_full main_end storable.
Proof. apply (one_block (ser block_a) block_a); [apply end_read|]. apply (bool_decide_unpack _). by vm_compute. Qed.
Lemma one_same x1 x2 b1 b2 : deserialize toy_full x1 = Ok b1 -> deserialize toy_full x2 = Ok b2 -> alike b1 b2 ->
  same_contents toy_full {[ key_a := x1 ]} {[ key_a := x2 ]}.
Proof.
  intros H1 H2 Ha k. destruct (decide (k = key_a)) as [->|Hk].
  - rewrite !lookup_singleton. right. by exists b1, b2.
  - by rewrite !lookup_singleton_ne.
Qed.
Lemma p_same : same_contents toy_full main_end main_p.
Proof. apply (one_same _ _ block_a block_p); [apply end_read|apply p_read|]. apply alikeb_ok. by vm_compute. Qed.
Lemma p_keys : keys_ok main_p.
Proof.
  unfold main_p. intros k [y [<- _]%lookup_singleton_Some]. exists (V3 0 0 0). split; [|done]. unfold key_range; simpl; lia.
Qed.

Lemma rev_fair W g input : fair toy_full W g input -> fair toy_rev W g input.
Proof.
  intros []. split; try done. destruct fair_ext. split; try done. intros p m. cbn. by rewrite reverse_Permutation.
Qed.

Lemma toy_job g : supplied g -> argsb g = true -> args_fit g -> tame g -> (acmd g = CSetParam2 -> is_Some (aparam2 g)) ->
  same_job toy_full toy_rev 4095 (toy_world, g, main_end) (toy_world_rev, g, main_p).
Proof.
  intros H1 H2 H3 H4 H5. split; [reflexivity|].
  split; [exact (toy_fair g main_end H1 H2 H3 H4 H5 end_keys toy_world (or_introl eq_refl))|].
  split; [exact (rev_fair _ _ _ (toy_fair g main_p H1 H2 H3 H4 H5 p_keys toy_world_rev (or_intror eq_refl)))|]. intros _.
  split; [exact end_healthy|]. split; [exact end_storable|]. split; [exact p_healthy|]. split; [exact p_storable|exact p_same].
Qed.

(** An entry without variables and items: it is read, but not written. *)
Definition block_plain : block := mk_block 28 0 {[0 := bstr "default:chest"]} ∅ [] [].
Definition block_blank : block := mk_block 28 0 {[0 := bstr "default:chest"]} {[0 := NM ∅ END_STR]} [] [].
Definition data_plain : bytes := ser block_plain.
Definition data_blank : bytes :=
  take (Z.to_nat 32775) data_plain ++
  stuff ((z2b <$> [2; 0; 1; 0; 0; 0; 0; 0; 0]) ++ END_STR) ++ drop (Z.to_nat 32778) data_plain.
Definition main_plain : mapdata := {[ key_a := data_plain ]}.
Definition main_blank : mapdata := {[ key_a := data_blank ]}.
Definition no_meta : args := toy_args CDeleteMeta.
Lemma plain_read : deserialize toy_full data_plain = Ok block_plain.
Proof. apply (bool_decide_unpack _). by vm_compute. Qed.
Lemma blank_read : deserialize toy_full data_blank = Ok block_blank.
Proof. apply (bool_decide_unpack _). by vm_compute. Qed.
Lemma one_keys x : keys_ok {[ key_a := x ]}.
Proof. intros k [y [<- _]%lookup_singleton_Some]. exists (V3 0 0 0). split; [|done]. unfold key_range; simpl; lia. Qed.

Lemma blank_counted : exists E W g m1 m2 input n, fair E W g input /\ keys_ok m1 /\ 4095 <= n <= 7280 /\
  blocks E m1 (healthy n) /\ blocks E m2 (healthy n) /\ same_contents E m1 m2 /\ acmd g = CDeleteMeta /\
  exists m1' m2' l1 l2, run_ok E g W m1 input m1' l1 /\ run_ok E g W m2 input m2' l2 /\ l1 <> l2.
Proof.
  exists toy_full, toy_world, no_meta, main_blank, main_plain, ∅, 4095.
  split. { apply toy_fair; [toy_supplied|by vm_compute|done|by intros n [?|?]|done|apply keys_none|by left]. }
  split; [apply one_keys|]. split; [lia|].
  split. { apply (one_block data_blank block_blank); [apply blank_read|]. apply healthyb_ok. by vm_compute. }
  split. { apply (one_block data_plain block_plain); [apply plain_read|]. apply healthyb_ok. by vm_compute. }
  split. { apply (one_same _ _ block_blank block_plain); [apply blank_read|apply plain_read|]. apply alikeb_ok. by vm_compute. }
  split; [done|].
  destruct (ran_ok toy_world main_blank ∅ no_meta (warnings no_meta ++ [(LInfo, MMeta 1)] ++ closing 0) (fun _ => true))
    as (m1 & Run1 & _); [by vm_compute|].
  destruct (ran_ok toy_world main_plain ∅ no_meta (warnings no_meta ++ [(LInfo, MMeta 0)] ++ closing 0) (fun _ => true))
    as (m2 & Run2 & _); [by vm_compute|].
  eexists m1, m2, _, _. split; [exact Run1|]. split; [exact Run2|]. by vm_compute.
Qed.

(** Different data of the block, the same messages, and the name of node [i] in both *)
Definition twins (r1 r2 : option (mapdata * list (log_type * msg))) (i : Z) (name : bytes) : bool :=
  negb (bool_decide (data_at r1 key_a = data_at r2 key_a)) && bool_decide (messages r1 = messages r2) &&
  bool_decide (at_key r1 key_a (fun b => node_name b i) = Some (Some name)) &&
  bool_decide (at_key r2 key_a (fun b => node_name b i) = Some (Some name)).
