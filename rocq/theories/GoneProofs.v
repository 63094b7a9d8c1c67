(** What deleteobjects leaves *)
From Verif Require Import SysProofs RunProofs EditProofs ObjProofs BlockProofs CodecProofs SpecGone Toy ToyRun CmdFacts.
From Verif Require Import Spec.

Lemma sublist_filter {A} (P : A -> Prop) `{forall x, Decision (P x)} l : filter P l `sublist_of` l.
Proof. induction l as [|x l IH]; [constructor|]. rewrite filter_cons. destruct (decide (P x)); by constructor. Qed.

Lemma objects_gone_run E W g main input pos : setting E W g main pos -> acmd g = CDeleteObjects ->
  (is_Some (aarea g) -> all_objects E main (fun bp o => in_reach o /\ home bp o)) ->
  exists main' logs, run_ok E g W main input main' logs /\ objects_gone E g main main'.
Proof.
  intros S Hc Hh. destruct (delobj_run E W g main input pos S Hc) as (del & Hdel & main' & failed & Hrun & _ & _ & Heff).
  exists main'. eexists. split; [exact Hrun|]. intros k bp x Hk Hx. destruct (Heff k bp x Hk Hx) as (y & Hy & H).
  exists y. split; [exact Hy|]. destruct (deserialize E x) as [b|] eqn:Ed; [|exact H].
  destruct H as (_ & b' & Hb' & _ & Hn). exists b'. split; [exact Hb'|].
  assert (objects b' = filter (fun o => del bp o = false) (objects b)) as Eo by (by apply (f_equal objects) in Hn).
  rewrite Eo. split; [apply sublist_filter|]. intros o. rewrite elem_of_list_filter.
  assert (o ∈ objects b -> (del bp o = true <-> wanted g o)) as K; [|].
  { intros Ho. pose proof (deserialize_wf E x b Ed) as Hwf.
    assert (wf_object o) as Hwo by (eapply Forall_forall; [|exact Ho]; apply Hwf).
    assert (is_Some (aarea g) -> in_reach o /\ home bp o) as Hho.
    { intros Ha. specialize (Hh Ha k bp x b Hk Hx Ed). rewrite Forall_forall in Hh. by apply Hh. }
    rewrite Hdel; [|done|by intros Ha; apply Hho]. unfold object_chosen, wanted. split; [tauto|]. intros [Hp Hn'].
    split; [|by split]. destruct (aarea g) as [a|] eqn:Ea.
    - destruct (Hho ltac:(by eexists)) as [_ (p & Hp1 & Hp2)]. destruct Hp as (p' & Hp1' & Hs).
      assert (p' = p) as ->; [|by exists p]. unfold nearest in *. destruct p, p'; cbn in *. f_equal; lia.
    - exists (V3 (16 * vx bp) (16 * vy bp) (16 * vz bp)). split; [|done]. unfold node_in_block; cbn. lia. }
  split.
  - intros [Hd Ho]. split; [done|]. rewrite <- (K Ho), Hd. done.
  - intros [Ho Hw]. split; [|done]. rewrite <- (K Ho) in Hw. by destruct (del bp o).
Qed.

(** ** An object that is stored next to the block in which it is *)
Definition stray : static_object := toy_entity (bstr "mobs:rat") (bstr "") (V3 156000 0 0).
Definition stray_block : block := mk_block 29 0 (list_to_map [(0, bstr "air")]) ∅ [stray] [].
Definition stray_main : mapdata := {[ key_a := ser stray_block ]}.
Definition stray_args : args :=
  with_objs (Some (bstr "mobs:rat")) None (with_area (Area (V3 16 0 0) (V3 31 15 15)) false (toy_args CDeleteObjects)).
Lemma stray_read : deserialize toy_full (ser stray_block) = Ok stray_block.
Proof. apply (bool_decide_unpack _). by vm_compute. Qed.
Lemma stray_wanted : wanted stray_args stray.
Proof.
  split.
  - exists (V3 16 0 0). split; [unfold nearest|unfold selected, inside]; simpl; lia.
  - exists []. split; [|by left]. split; [done|]. split; [by vm_compute|]. split; [by vm_compute|]. by exists (bstr "rest").
Qed.
Lemma stray_stays : exists E W g main input pos, setting E W g main pos /\ acmd g = CDeleteObjects /\
  all_objects E main (fun _ o => in_reach o) /\
  exists main' logs, run_ok E g W main input main' logs /\ ~ objects_gone E g main main'.
Proof.
  exists toy_full, toy_world, stray_args, stray_main, ∅, (fun _ => V3 0 0 0).
  split; [apply key_a_setting; [toy_supplied|by vm_compute]|]. split; [done|]. split.
  - intros k bp x b _ Hx Hd. refine (one_block _ _ (fun b => Forall in_reach (objects b)) stray_read _ k x b Hx Hd).
    repeat constructor.
  - destruct (ran_ok toy_world stray_main ∅ stray_args [(LInfo, MObjects 0); (LInfo, MCommitting); (LInfo, MDone)]
      (fun m => raw_is m key_a (ser stray_block))) as (main' & Hrun & H); [by vm_compute|].
    apply bool_decide_eq_true in H. exists main'. eexists. split; [exact Hrun|]. intros Hg.
    destruct (Hg key_a (V3 0 0 0) (ser stray_block)) as (y & Hy & K); [split; [|done]; unfold key_range; simpl; lia|by apply lookup_singleton|].
    assert (y = ser stray_block) as -> by congruence. rewrite stray_read in K. destruct K as (b' & Hb' & _ & Ho).
    assert (b' = stray_block) as -> by congruence. apply (proj2 (proj1 (Ho stray) ltac:(by left))), stray_wanted.
Qed.
