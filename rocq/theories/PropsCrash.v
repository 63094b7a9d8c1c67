(** Runs that crash.  [fatal] (SpecCrash.v) says which blocks are at fault. *)
From Verif Require Import SpecCrash SpecOrder CrashRun CrashFacts OrderFacts Toy ToyRun CmdFacts.
From Verif Require Import Spec.

(** ** C38 *)

(** A command that edits blocks in place crashes exactly if it gets to such a block,
    and then it leaves the map as it was; otherwise it completes and skips only the
    unreadable blocks. *)
Theorem C38_exact : forall E W g main input pos, setting E W g main pos -> in_place (acmd g) = true ->
  (acmd g = CSetParam2 -> is_Some (aparam2 g)) -> args_fit g ->
  (meets_fatal E main g -> crashes E W g main input) /\ (~ meets_fatal E main g -> skips E W g main input).
Proof. exact CrashRun.exact_run. Qed.
Print Assumptions C38_exact.

(** A block without names: fill crashes on three nodes, but not on the whole block.
    Metadata at the index 4101: deletemeta crashes if node 5 is in the area. *)
Example C38_exact_example :
  (forall g, g = fill_a \/ g = fill_all -> setting toy_full toy_world g main_nameless (fun _ => V3 0 0 0) /\
     in_place (acmd g) = true /\ args_fit g) /\
  meets_fatal toy_full main_nameless fill_a /\ ~ meets_fatal toy_full main_nameless fill_all /\
  (forall x, x = 4 \/ x = 5 ->
     setting toy_full toy_world (meta_near x) main_stray (fun _ => V3 0 0 0) /\ args_fit (meta_near x)) /\
  meets_fatal toy_full main_stray (meta_near 5) /\ ~ meets_fatal toy_full main_stray (meta_near 4).
Proof.
  split.
  { intros g Hg. split; [destruct Hg as [-> | ->]; (apply key_a_setting; [toy_supplied|by vm_compute])|].
    split; [by destruct Hg as [-> | ->]|].
    split; [destruct Hg as [-> | ->]; intros n [= <-]; by vm_compute|by destruct Hg as [-> | ->]]. }
  split; [exact fill_a_fatal|]. split; [exact fill_all_safe|]. split.
  { intros x Hx. split; [|done].
    destruct Hx as [-> | ->]; (apply key_a_setting; [toy_supplied|by vm_compute]). }
  split; [exact meta_5_fatal|exact meta_4_safe].
Qed.

(** ** C50 *)

(** With the same hash order, the rows can be in any order: either both runs crash, or
    both end with the same stored bytes and messages. *)
Theorem C50_rows_any : forall E W1 W2 g main input pos, setting E W1 g main pos -> setting E W2 g main pos ->
  in_place (acmd g) = true -> (acmd g = CSetParam2 -> is_Some (aparam2 g)) -> args_fit g ->
  (crashes E W1 g main input /\ crashes E W2 g main input) \/
  exists main' l, run_ok E g W1 main input main' l /\ run_ok E g W2 main input main' l.
Proof. exact CrashRun.rows_any. Qed.
Print Assumptions C50_rows_any.

(** Whether a command crashes depends neither on row order nor on hash order. *)
Theorem C50_crashes : forall E1 E2 W1 W2 g main input pos, same_reading E1 E2 ->
  setting E1 W1 g main pos -> setting E2 W2 g main pos ->
  in_place (acmd g) = true -> (acmd g = CSetParam2 -> is_Some (aparam2 g)) -> args_fit g ->
  crashes E1 W1 g main input -> crashes E2 W2 g main input.
Proof. exact CrashRun.crash_any. Qed.
Print Assumptions C50_crashes.

Example C50_crashes_example : same_reading toy_full toy_rev /\
  setting toy_full toy_world fill_a main_nameless (fun _ => V3 0 0 0) /\
  setting toy_rev toy_world_rev fill_a main_nameless (fun _ => V3 0 0 0) /\
  in_place (acmd fill_a) = true /\ args_fit fill_a /\ crashes toy_full toy_world fill_a main_nameless ∅.
Proof.
  split; [done|].
  assert (setting toy_full toy_world fill_a main_nameless (fun _ => V3 0 0 0)) as HS
    by (apply key_a_setting; [toy_supplied|by vm_compute]).
  assert (args_fit fill_a) as Hf by (split; [intros n [= <-]; by vm_compute|done]).
  split; [exact HS|]. split.
  { apply toy_rev_setting. destruct HS as [HE Hfu HW HO Hs Hl Hr Hk]. split; try done.
    intros t m. cbn. apply reverse_Permutation. }
  split; [reflexivity|]. split; [exact Hf|].
  apply (C38_exact toy_full toy_world fill_a main_nameless ∅ (fun _ => V3 0 0 0) HS eq_refl ltac:(done) Hf).
  exact fill_a_fatal.
Qed.
