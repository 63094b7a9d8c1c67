(** Facts about counts on parts of toy maps *)
From Verif Require Import KeepProofs AgainProofs AgainFacts LocalProofs LocalFacts CongFacts CmdFacts Toy ToyRun CopyFacts GoneProofs LawFacts PairFacts SpecAdd SpecGone SpecLocal Spec.

(** An entry without variables and items beside another entry *)
Definition block_beside : block := mk_block 28 0 {[0 := bstr "default:chest"]}
  (list_to_map [(0, NM ∅ END_STR); (1, NM {[ bstr "k" := (bstr "v", false) ]} END_STR)]) [] [].
Definition data_beside : bytes :=
  take (Z.to_nat 32775) data_plain ++
  stuff ((z2b <$> [2; 0; 2; 0; 0; 0; 0; 0; 0]) ++ END_STR ++
         (z2b <$> [0; 1; 0; 0; 0; 1; 0; 1; 107; 0; 0; 0; 1; 118; 0]) ++ END_STR) ++ drop (Z.to_nat 32778) data_plain.
Definition main_beside : mapdata := {[ key_a := data_beside ]}.
Lemma beside_read : deserialize toy_full data_beside = Ok block_beside.
Proof. apply (bool_decide_unpack _). by vm_compute. Qed.

Definition pair_meta : args := with_area (Area (V3 0 0 0) (V3 1 0 0)) false (toy_args CDeleteMeta).
Lemma blank_parts : exists E W g a1 a2 main input n,
  let g1 := on_area (Some a1) false g in let g2 := on_area (Some a2) false g in
  fair E W g input /\ fair E W g1 input /\ fair E W g2 input /\ keys_ok main /\ 4095 <= n <= 7280 /\
  blocks E main (healthy n) /\ acmd g = CDeleteMeta /\
  (forall p, selected (aarea g) (invert g) p <-> selected (Some a1) false p \/ selected (Some a2) false p) /\ disjoint_areas g1 g2 /\
  exists m c m1 c1 m12 c2, told E W g main input m c /\ told E W g1 main input m1 c1 /\ told E W g2 m1 input m12 c2 /\ ~ sums c c1 c2.
Proof.
  exists toy_full, toy_world, pair_meta, (Area (V3 1 0 0) (V3 1 0 0)), (Area (V3 0 0 0) (V3 0 0 0)), main_beside, ∅, 4095.
  intros g1 g2. split; [plain|]. split; [plain|]. split; [plain|]. split; [apply LawFacts.one_keys|]. split; [lia|].
  split. { apply (one_block data_beside block_beside); [apply beside_read|]. apply healthyb_ok. by vm_compute. }
  split; [done|]. split. { intros [x y z]. unfold selected, inside; cbn. lia. }
  split. { intros [x y z]. unfold selected, inside; cbn. lia. }
  destruct (ran_ok toy_world main_beside ∅ pair_meta (warnings pair_meta ++ [(LInfo, MMeta 2)] ++ closing 0) (fun _ => true)) as (m & Run & _); [by vm_compute|].
  destruct (ran_ok toy_world main_beside ∅ g1 (warnings g1 ++ [(LInfo, MMeta 1)] ++ closing 0) (fun m1 =>
    ran toy_world m1 ∅ g2 (warnings g2 ++ [(LInfo, MMeta 0)] ++ closing 0) (fun _ => true))) as (m1 & Run1 & H1); [by vm_compute|].
  destruct (ran_ok _ _ _ _ _ _ H1) as (m12 & Run12 & _).
  exists m, (MMeta 2), m1, (MMeta 1), m12, (MMeta 0). split; [by exists 0|]. split; [by exists 0|]. split; [by exists 0|]. cbn. lia.
Qed.

(** An object that is stored in a block of the other part *)
Lemma objects_parts : exists E W g a1 a2 main input n,
  let g1 := on_area (Some a1) false g in let g2 := on_area (Some a2) false g in
  fair E W g input /\ fair E W g1 input /\ fair E W g2 input /\ keys_ok main /\ 4095 <= n <= 7280 /\
  blocks E main (healthy n) /\ all_objects E main (fun _ o => in_reach o) /\ acmd g = CDeleteObjects /\
  (forall p, selected (aarea g) (invert g) p <-> selected (Some a1) false p \/ selected (Some a2) false p) /\ disjoint_areas g1 g2 /\
  exists m c m1 c1 m12 c2, told E W g main input m c /\ told E W g1 main input m1 c1 /\ told E W g2 m1 input m12 c2 /\ ~ sums c c1 c2.
Proof.
  exists toy_full, toy_world, both_args, (Area (V3 0 0 0) (V3 15 15 15)), (Area (V3 16 0 0) (V3 31 15 15)), stray_main, ∅, 4095.
  intros g1 g2. split; [plain|]. split; [plain|]. split; [plain|].
  split. { unfold stray_main. intros k [y [<- _]%lookup_singleton_Some]. exists (V3 0 0 0). split; [|done]. unfold key_range; simpl; lia. }
  split; [lia|].
  split. { apply (one_block (ser stray_block) stray_block); [apply stray_read|]. apply healthyb_ok. by vm_compute. }
  split.
  { intros k bp x b _ Hx Hd. refine (one_block _ _ (fun b => Forall in_reach (objects b)) stray_read _ k x b Hx Hd).
    repeat constructor. }
  split; [done|]. split. { intros [x y z]. unfold selected, inside; cbn. lia. }
  split. { intros [x y z]. unfold selected, inside; cbn. lia. }
  destruct (ran_ok toy_world stray_main ∅ both_args (warnings both_args ++ [(LInfo, MObjects 1)] ++ closing 0) (fun _ => true)) as (m & Run & _); [by vm_compute|].
  destruct (ran_ok toy_world stray_main ∅ g1 (warnings g1 ++ [(LInfo, MObjects 0)] ++ closing 0) (fun m1 =>
    ran toy_world m1 ∅ g2 (warnings g2 ++ [(LInfo, MObjects 0)] ++ closing 0) (fun _ => true))) as (m1 & Run1 & H1); [by vm_compute|].
  destruct (ran_ok _ _ _ _ _ _ H1) as (m12 & Run12 & _).
  exists m, (MObjects 1), m1, (MObjects 0), m12, (MObjects 0). split; [by exists 0|]. split; [by exists 0|]. split; [by exists 0|]. cbn. lia.
Qed.

(** All but a part of the block *)
Definition around : args := with_names None [] (Some (bstr "default:dirt")) (with_area (Area (V3 0 0 0) (V3 14 15 15)) true (toy_args CFill)).
Lemma fill_parts : exists E W g a1 a2 main input n,
  let g1 := on_area (Some a1) false g in let g2 := on_area (Some a2) true g in
  fair E W g input /\ fair E W g1 input /\ fair E W g2 input /\ keys_ok main /\ 4095 <= n <= 7280 /\
  blocks E main (healthy n) /\ acmd g = CFill /\
  (forall p, selected (aarea g) (invert g) p <-> selected (Some a1) false p \/ selected (Some a2) true p) /\ disjoint_areas g1 g2 /\
  exists m c m1 c1 m12 c2, told E W g main input m c /\ told E W g1 main input m1 c1 /\ told E W g2 m1 input m12 c2 /\ ~ sums c c1 c2.
Proof.
  exists toy_full, toy_world, around, (Area (V3 15 0 0) (V3 15 15 15)), (Area (V3 0 0 0) (V3 15 15 15)), main_new, ∅, 4095.
  intros g1 g2.
  assert (forall g, new_node g = Some (bstr "default:dirt") -> avalue g = None -> args_fit g) as Hfit.
  { intros g H1 H2. split; [intros n; rewrite H1; intros [= <-]; by vm_compute|intros v; by rewrite H2]. }
  assert (forall g, aitem g = None -> new_item g = None -> tame g) as Ht by (intros g H1 H2 n [H|H]; congruence).
  split; [apply toy_fair; [toy_supplied|by vm_compute|by apply Hfit|by apply Ht|done|apply keys_none|by left]|].
  split; [apply toy_fair; [toy_supplied|by vm_compute|by apply Hfit|by apply Ht|done|apply keys_none|by left]|].
  split; [apply toy_fair; [toy_supplied|by vm_compute|by apply Hfit|by apply Ht|done|apply keys_none|by left]|].
  split; [apply LawFacts.one_keys|]. split; [lia|].
  split; [apply (one_block data_new block_new); [apply new_read|apply healthy_new]|].
  split; [done|]. split. { intros [x y z]. unfold selected, inside; cbn. lia. }
  split. { intros [x y z]. unfold selected, inside; cbn. lia. }
  destruct (ran_ok toy_world main_new ∅ around (warnings around ++ [(LInfo, MFilled 3840)] ++ closing 0) (fun _ => true)) as (m & Run & _); [by vm_compute|].
  destruct (ran_ok toy_world main_new ∅ g1 (warnings g1 ++ [(LInfo, MFilled 256)] ++ closing 0) (fun m1 =>
    ran toy_world m1 ∅ g2 (warnings g2 ++ [(LInfo, MFilled 0)] ++ closing 0) (fun _ => true))) as (m1 & Run1 & H1); [by vm_compute|].
  destruct (ran_ok _ _ _ _ _ _ H1) as (m12 & Run12 & _).
  exists m, (MFilled 3840), m1, (MFilled 256), m12, (MFilled 0). split; [by exists 0|]. split; [by exists 0|]. split; [by exists 0|]. cbn. lia.
Qed.
