(** Facts about split areas of the toy map *)
From Verif Require Import KeepProofs AgainProofs AgainFacts LocalProofs CmdFacts Toy ToyRun CopyFacts GoneProofs SpecGone SpecLocal Spec.

Definition both_args : args :=
  with_objs (Some (bstr "mobs:rat")) None (with_area (Area (V3 0 0 0) (V3 31 15 15)) false (toy_args CDeleteObjects)).

(** The object is in one half of the area, and stored in a block of the other. *)
Lemma objects_split : exists E W g a1 a2 main input n,
  let g1 := on_area (Some a1) false g in let g2 := on_area (Some a2) false g in
  fair E W g input /\ fair E W g1 input /\ fair E W g2 input /\ keys_ok main /\ 4095 <= n <= 7280 /\
  blocks E main (healthy n) /\ all_objects E main (fun _ o => in_reach o) /\ acmd g = CDeleteObjects /\
  (forall p, selected (aarea g) (invert g) p <-> selected (Some a1) false p \/ selected (Some a2) false p) /\
  exists m l m1 l1 m12 l12, run_ok E g W main input m l /\
    (run_ok E g1 W main input m1 l1 /\ run_ok E g2 W m1 input m12 l12) /\ ~ same_contents E m m12.
Proof.
  exists toy_full, toy_world, both_args, (Area (V3 0 0 0) (V3 15 15 15)), (Area (V3 16 0 0) (V3 31 15 15)), stray_main, ∅, 4095.
  intros g1 g2.
  assert (forall g, supplied g -> argsb g = true -> args_fit g -> tame g -> acmd g = CDeleteObjects -> fair toy_full toy_world g ∅) as HF.
  { intros g Hs Ha Hf Ht Hc. apply toy_fair; try done; [by rewrite Hc|apply keys_none|by left]. }
  split; [apply HF; [toy_supplied|by vm_compute|done|by intros n [?|?]|done]|].
  split; [apply HF; [toy_supplied|by vm_compute|done|by intros n [?|?]|done]|].
  split; [apply HF; [toy_supplied|by vm_compute|done|by intros n [?|?]|done]|].
  split. { unfold stray_main. intros k [y [<- _]%lookup_singleton_Some]. exists (V3 0 0 0). split; [|done]. unfold key_range; simpl; lia. }
  split; [lia|].
  split. { apply (one_block (ser stray_block) stray_block); [apply stray_read|]. apply healthyb_ok. by vm_compute. }
  split.
  { intros k bp x b _ Hx Hd. refine (one_block _ _ (fun b => Forall in_reach (objects b)) stray_read _ k x b Hx Hd).
    repeat constructor. }
  split; [done|]. split.
  { intros [x y z]. unfold selected, inside; cbn. lia. }
  set (l := fun n => [(LInfo, MObjects n); (LInfo, MCommitting); (LInfo, MDone)]).
  destruct (ran_ok toy_world stray_main ∅ both_args (l 1) (fun m =>
    block_is m key_a (fun b => length (objects b)) 0%nat)) as (m & Run & H); [by vm_compute|].
  destruct (ran_ok toy_world stray_main ∅ g1 (l 0) (fun m1 =>
    ran toy_world m1 ∅ g2 (l 0) (fun m2 => block_is m2 key_a (fun b => length (objects b)) 1%nat)))
    as (m1 & Run1 & H1); [by vm_compute|].
  destruct (ran_ok _ _ _ _ _ _ H1) as (m12 & Run12 & H12).
  exists m, (l 1), m1, (l 0), m12, (l 0). split; [done|]. split; [done|]. intros Hs. specialize (Hs key_a).
  unfold block_is in *. destruct (m !! key_a) as [y1|]; [|done]. destruct (m12 !! key_a) as [y2|]; [|done].
  destruct (deserialize toy_full y1) as [b1|] eqn:E1; [|done]. destruct (deserialize toy_full y2) as [b2|] eqn:E2; [|done].
  apply bool_decide_eq_true in H, H12. destruct Hs as [->|(c1 & c2 & D1 & D2 & Hbut & _)].
  - rewrite E1 in E2. injection E2 as ->. congruence.
  - assert (objects c2 = objects c1) as Eo by exact (f_equal objects Hbut). congruence.
Qed.
