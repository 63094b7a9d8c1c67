(** Facts about restoring the toy map *)
From Verif Require Import KeepProofs AgainProofs AgainFacts LocalProofs CmdFacts Toy ToyRun CopyFacts SpecRestore Spec.

Definition back (a : option area) : args :=
  let g := with_input (Some (bstr "backup.sqlite")) (toy_args COverlay) in
  match a with Some a => with_area a false g | None => g end.
Definition one_timer : args := with_area (Area (V3 5 0 0) (V3 5 0 0)) false (toy_args CDeleteTimers).
Definition one_object : args := with_area (Area (V3 0 0 0) (V3 3 1 1)) false (toy_args CDeleteObjects).
Definition one_gone : args := with_area (Area (V3 0 0 0) (V3 15 15 15)) false (toy_args CDeleteBlocks).

Definition block_raw : block :=
  Block (version block_a) (z2b 8) (lighting block_a) (content_width block_a) (params_width block_a)
    (ndata block_a) (metadata block_a) (objects block_a) (timestamp block_a) (nimap block_a) (timers block_a).
Definition main_raw : mapdata := {[ key_a := ser block_raw ]}.
Lemma raw_read : deserialize toy_full (ser block_raw) = Ok block_raw.
Proof. apply (bool_decide_unpack _). by vm_compute. Qed.
Lemma raw_keys : keys_ok main_raw.
Proof.
  unfold main_raw. intros k [y [<- _]%lookup_singleton_Some]. exists (V3 0 0 0). split; [|done]. unfold key_range; simpl; lia.
Qed.
Lemma raw_healthy : blocks toy_full main_raw (healthy 4095).
Proof. apply (one_block (ser block_raw) block_raw); [apply raw_read|]. apply healthyb_ok. by vm_compute. Qed.
Definition says_generated (x : bytes) : bool :=
  match x with v :: f :: _ => (b2z v =? 28) && (Z.land (b2z f) 8 =? 0) | _ => false end.
Lemma says_ok E x : says_generated x = true -> claims_generated E x.
Proof.
  destruct x as [|v [|f t]]; [done..|]. cbn. rewrite andb_true_iff. intros [H1%Z.eqb_eq H2%Z.eqb_eq].
  exists v, f, t, f. rewrite H1. split; [done|]. split; [lia|]. done.
Qed.
Lemma end_generated : all_generated toy_full main_end.
Proof. unfold main_end. intros k x [<- <-]%lookup_singleton_Some. apply says_ok. by vm_compute. Qed.

Lemma cover g g2 a : aarea g = Some a -> invert g = false -> aarea g2 = Some a -> invert g2 = false ->
  acmd g <> CClone -> acmd g <> COverlay ->
  forall p, affects g p -> selected (aarea g2) (invert g2) p.
Proof. intros E1 E2 E3 E4 H1 H2 p. unfold affects. rewrite E1, E2, E3, E4. by destruct (acmd g). Qed.

Lemma lost_timer : exists E W g g2 main input n, fair E W g input /\ fair E W g2 main /\
  acmd g2 = COverlay /\ default (V3 0 0 0) (offset g2) = V3 0 0 0 /\ 4095 <= n <= 7280 /\
  blocks E main (healthy n) /\ all_generated E main /\ acmd g = CDeleteTimers /\
  (forall p, affects g p -> selected (aarea g2) (invert g2) p) /\
  exists m1 m2, restored E W W g g2 main input m1 m2 /\ ~ same_contents E main m2.
Proof.
  set (g2 := back (aarea one_timer)).
  exists toy_full, toy_world, one_timer, g2, main_end, ∅, 4095.
  split. { apply toy_fair; [toy_supplied|by vm_compute|done|by intros n [?|?]|done|apply keys_none|by left]. }
  split. { apply toy_fair; [toy_supplied|by vm_compute|done|by intros n [?|?]|done|apply end_keys|by left]. }
  split; [done|]. split; [done|]. split; [lia|]. split; [exact end_healthy|]. split; [exact end_generated|].
  split; [done|]. split; [by eapply cover|].
  destruct (ran_ok toy_world main_end ∅ one_timer ((LInfo, MTimers 1) :: closing 0) (fun m1 =>
    ran toy_world m1 main_end g2 (warnings g2 ++ closing 0) (fun m2 => block_is m2 key_a (fun b => length (timers b)) 1%nat)))
    as (m1 & Run1 & H1); [by vm_compute|].
  destruct (ran_ok _ _ _ _ _ _ H1) as (m2 & Run2 & H2). exists m1, m2. split; [eexists _, _; split; [exact Run1|exact Run2]|].
  intros Hs. specialize (Hs key_a). unfold main_end in Hs. rewrite lookup_singleton in Hs. unfold block_is in H2.
  destruct (m2 !! key_a) as [y|]; [|done]. destruct (deserialize toy_full y) as [b|] eqn:Eb; [|done].
  apply bool_decide_eq_true in H2. destruct Hs as [<-|(c1 & c2 & D1 & D2 & Hbut & _)].
  - rewrite end_read in Eb. injection Eb as <-. by vm_compute in H2.
  - rewrite end_read in D1. injection D1 as <-. assert (timers c2 = timers block_a) as Et by exact (f_equal timers Hbut).
    injection D2 as ->. rewrite Et in H2. by vm_compute in H2.
Qed.

Lemma lost_object : exists E W g g2 main input n, fair E W g input /\ fair E W g2 main /\
  acmd g2 = COverlay /\ default (V3 0 0 0) (offset g2) = V3 0 0 0 /\ 4095 <= n <= 7280 /\
  blocks E main (healthy n) /\ all_generated E main /\ acmd g = CDeleteObjects /\
  (forall p, affects g p -> selected (aarea g2) (invert g2) p) /\
  exists m1 m2, restored E W W g g2 main input m1 m2 /\ ~ same_contents E main m2.
Proof.
  set (g2 := back (aarea one_object)).
  exists toy_full, toy_world, one_object, g2, main_end, ∅, 4095.
  split. { apply toy_fair; [toy_supplied|by vm_compute|done|by intros n [?|?]|done|apply keys_none|by left]. }
  split. { apply toy_fair; [toy_supplied|by vm_compute|done|by intros n [?|?]|done|apply end_keys|by left]. }
  split; [done|]. split; [done|]. split; [lia|]. split; [exact end_healthy|]. split; [exact end_generated|].
  split; [done|]. split; [by eapply cover|].
  destruct (ran_ok toy_world main_end ∅ one_object ((LInfo, MObjects 1) :: closing 0) (fun m1 =>
    ran toy_world m1 main_end g2 (warnings g2 ++ closing 0) (fun m2 => block_is m2 key_a (fun b => length (objects b)) 2%nat)))
    as (m1 & Run1 & H1); [by vm_compute|].
  destruct (ran_ok _ _ _ _ _ _ H1) as (m2 & Run2 & H2). exists m1, m2. split; [eexists _, _; split; [exact Run1|exact Run2]|].
  intros Hs. specialize (Hs key_a). unfold main_end in Hs. rewrite lookup_singleton in Hs. unfold block_is in H2.
  destruct (m2 !! key_a) as [y|]; [|done]. destruct (deserialize toy_full y) as [b|] eqn:Eb; [|done].
  apply bool_decide_eq_true in H2. destruct Hs as [<-|(c1 & c2 & D1 & D2 & Hbut & _)].
  - rewrite end_read in Eb. injection Eb as <-. by vm_compute in H2.
  - rewrite end_read in D1. injection D1 as <-. assert (objects c2 = objects block_a) as Et by exact (f_equal objects Hbut).
    injection D2 as ->. rewrite Et in H2. by vm_compute in H2.
Qed.

(** A block that says it is not generated is not copied from the backup. *)
Lemma lost_block : exists E W g g2 main input n, fair E W g input /\ fair E W g2 main /\
  acmd g2 = COverlay /\ default (V3 0 0 0) (offset g2) = V3 0 0 0 /\ 4095 <= n <= 7280 /\
  blocks E main (healthy n) /\ restorable g /\
  (forall p, affects g p -> selected (aarea g2) (invert g2) p) /\
  exists m1 m2, restored E W W g g2 main input m1 m2 /\ ~ same_contents E main m2.
Proof.
  set (g2 := back (aarea one_gone)).
  exists toy_full, toy_world, one_gone, g2, main_raw, ∅, 4095.
  split. { apply toy_fair; [toy_supplied|by vm_compute|done|by intros n [?|?]|done|apply keys_none|by left]. }
  split. { apply toy_fair; [toy_supplied|by vm_compute|done|by intros n [?|?]|done|apply raw_keys|by left]. }
  split; [done|]. split; [done|]. split; [lia|]. split; [exact raw_healthy|]. split; [done|]. split; [by eapply cover|].
  destruct (ran_ok toy_world main_raw ∅ one_gone (warnings one_gone ++ closing 0) (fun m1 =>
    ran toy_world m1 main_raw g2 (warnings g2 ++ closing 0) (fun m2 => bool_decide (m2 !! key_a = None))))
    as (m1 & Run1 & H1); [by vm_compute|].
  destruct (ran_ok _ _ _ _ _ _ H1) as (m2 & Run2 & H2). exists m1, m2. split; [eexists _, _; split; [exact Run1|exact Run2]|].
  intros Hs. specialize (Hs key_a). unfold main_raw in Hs. rewrite lookup_singleton in Hs.
  apply bool_decide_eq_true in H2. by rewrite H2 in Hs.
Qed.

(** Blocks that an overlay has added stay. *)
Lemma added_block : exists E W g g2 main input n, fair E W g input /\ fair E W g2 main /\
  acmd g2 = COverlay /\ default (V3 0 0 0) (offset g2) = V3 0 0 0 /\ 4095 <= n <= 7280 /\
  blocks E main (healthy n) /\ blocks E input (healthy n) /\ all_generated E main /\ acmd g = COverlay /\
  (forall p, affects g p -> selected (aarea g2) (invert g2) p) /\
  exists m1 m2, restored E W W g g2 main input m1 m2 /\ ~ same_contents E main m2.
Proof.
  set (g2 := back None).
  exists toy_full, toy_world, g2, g2, ∅, main_end, 4095.
  split. { apply toy_fair; [toy_supplied|by vm_compute|done|by intros n [?|?]|done|apply end_keys|by left]. }
  split. { apply toy_fair; [toy_supplied|by vm_compute|done|by intros n [?|?]|done|apply keys_none|by left]. }
  split; [done|]. split; [done|]. split; [lia|]. split; [apply blocks_none|]. split; [exact end_healthy|].
  split; [intros k x Hx; by rewrite lookup_empty in Hx|]. split; [done|]. split; [done|].
  destruct (ran_ok toy_world ∅ main_end g2 (warnings g2 ++ closing 0) (fun m1 =>
    ran toy_world m1 ∅ g2 (warnings g2 ++ closing 0) (fun m2 => bool_decide (is_Some (m2 !! key_a)))))
    as (m1 & Run1 & H1); [by vm_compute|].
  destruct (ran_ok _ _ _ _ _ _ H1) as (m2 & Run2 & H2). exists m1, m2. split; [eexists _, _; split; [exact Run1|exact Run2]|].
  intros Hs. specialize (Hs key_a). rewrite lookup_empty in Hs. apply bool_decide_eq_true in H2 as [y Hy]. by rewrite Hy in Hs.
Qed.
