(** Whole sequences of runs on the same map *)
From Verif Require Import SpecKeep KeepProofs Toy ToyRun CmdFacts CopyFacts.
From Verif Require Import Spec.

(** ** C59 *)

(** One run, of any command, on a map without contradictory blocks; whether blocks can
    be read at all does not matter. *)
Theorem C59_run : forall E W g main input n, fair E W g input -> keys_ok main -> 4095 <= n <= 7280 ->
  blocks E main (healthy n) -> (acmd g = COverlay -> blocks E input (healthy n)) ->
  exists main' l, run_ok E g W main input main' l /\ last l = Some (LInfo, MDone) /\
    keys_ok main' /\ blocks E main' (healthy (n + growth g)).
Proof. exact KeepProofs.run_next. Qed.
Print Assumptions C59_run.

(** Any number of runs, of any commands; IDs go up to 65535, and 7280 is as far as
    clone can go without running out of them. *)
Theorem C59_session : forall E runs n main, 4095 <= n -> n + growths runs <= 7280 ->
  keys_ok main -> blocks E main (healthy n) ->
  Forall (fun '(W, g, input) => fair E W g input /\ blocks E input (healthy n)) runs ->
  exists main', session E runs main main' /\ keys_ok main' /\ blocks E main' (healthy (n + growths runs)).
Proof. exact KeepProofs.session_keeps. Qed.
Print Assumptions C59_session.

(** Stone becomes dirt in some nodes, an area is cloned, another map is laid over it,
    and the items in a chest are replaced. *)
Definition ex_dirt : args :=
  with_area (Area (V3 0 0 0) (V3 3 0 0)) false
    (with_names (Some (bstr "default:stone")) [] (Some (bstr "default:dirt")) (toy_args CReplaceNodes)).
Definition ex_copy : args :=
  with_offset (Some (V3 4 0 0)) (with_area (Area (V3 0 0 0) (V3 1 0 0)) false (toy_args CClone)).
Definition ex_over : args :=
  with_input (Some (bstr "input.sqlite")) (with_area (Area (V3 0 1 0) (V3 15 1 1)) false (toy_args COverlay)).
Definition ex_items : args :=
  with_item (Some (bstr "default:pick")) (Some (bstr "default:axe")) false false (toy_args CReplaceInInv).
Definition ex_runs : list (world * args * mapdata) :=
  [(toy_world, ex_dirt, ∅); (toy_world_rev, ex_copy, ∅); (toy_world, ex_over, toy_input); (toy_world, ex_items, ∅)].

Definition healthyb (n : Z) (b : block) : bool :=
  soundb n b && uniqueb b && forallb (fun e => plainb (inv e.2)) (map_to_list (metadata b)).
Example C59_example_hyps : growths ex_runs = 1 /\ keys_ok toy_main /\ blocks toy_full toy_main (healthy 4095) /\
  Forall (fun '(W, g, input) => fair toy_full W g input /\ blocks toy_full input (healthy 4095)) ex_runs.
Proof.
  assert (forall b, healthyb 4095 b = true -> healthy 4095 b) as Hh.
  { intros b. unfold healthyb. rewrite !andb_true_iff. intros [[H1 H2] H3].
    split; [by apply soundb_ok|by apply uniqueb_ok|]. intros i e He. by eapply all_plain. }
  assert (keys_ok ∅) as He by by intros k [x Hx].
  assert (blocks toy_full ∅ (healthy 4095)) as Hb by by intros k x b Hx.
  assert (forall g, supplied g -> argsb g = true -> args_fit g -> tame g -> acmd g <> CSetParam2 ->
    forall W, W = toy_world \/ W = toy_world_rev -> forall i, keys_ok i -> fair toy_full W g i) as Hf.
  { intros g Hs Hl Hfit Ht Hc W HW i Hi. destruct (toy_setting g Hs Hl).
    assert (world_ok W) as HO.
    { destruct HW as [->| ->]; [assumption|]. intros t m. cbn. apply reverse_Permutation. }
    split; try assumption; destruct HW as [->| ->]; try assumption; intros H; by destruct Hc. }
  split; [done|]. split; [|split].
  - intros k Hk. exists (toy_pos k). by apply (set_keys _ _ _ _ _ (toy_setting ex_dirt ltac:(toy_supplied) ltac:(by vm_compute))).
  - apply (all_blocks_ok _ _ (healthyb 4095)); [by vm_compute|exact Hh].
  - assert (forall n, n = bstr "default:pick" \/ n = bstr "default:axe" -> plain_name n) as Hp.
    { intros n Hn. intros Hend. assert (last n = Some x79) as H2 by (destruct Hend as [l ->]; by rewrite last_app).
      destruct Hn as [-> | ->]; by vm_compute in H2. }
    assert (forall g, aitem g = None -> new_item g = None -> tame g) as Ht by (intros g H1 H2 n [H|H]; congruence).
    apply Forall_cons_2; [split; [|exact Hb]|apply Forall_cons_2; [split; [|exact Hb]|
      apply Forall_cons_2; [split|apply Forall_cons_2; [split; [|exact Hb]|apply Forall_nil_2]]]].
    + apply Hf; [toy_supplied|by vm_compute| |by apply Ht|discriminate|by left|exact He].
      split; [|done]. intros n [= <-]. by vm_compute.
    + apply Hf; [toy_supplied|by vm_compute|done|by apply Ht|discriminate|by right|exact He].
    + apply Hf; [toy_supplied|by vm_compute|done|by apply Ht|discriminate|by left|exact toy_input_keys].
    + apply (all_blocks_ok _ _ (healthyb 4095)); [by vm_compute|exact Hh].
    + apply Hf; [toy_supplied|by vm_compute|done| |discriminate|by left|exact He].
      intros n [[= <-]|[= <-]]; apply Hp; auto.
Qed.
(** The runs one after the other *)
Definition chain (runs : list (world * args * mapdata)) (m : mapdata) : option (mapdata * list (log_type * msg)) :=
  foldl (fun r '(W, g, input) => r ≫= fun r => run_with toy_full W r.1 input g) (Some (m, [])) runs.
Example C59_example :
  sees (chain ex_runs toy_main) ((LInfo, MStacks 4 4) :: closing 1) (fun m =>
    block_is m key_a (fun b => (node_name b <$> [0; 1; 2; 4; 5; 16], bool_decide (nimap b !! 2 = None)))
      ([Some (bstr "default:chest"); Some (bstr "default:dirt"); Some (bstr "air"); Some (bstr "default:chest");
        Some (bstr "default:dirt"); Some (bstr "default:stone")], false)) = true.
Proof. vm_compute. reflexivity. Qed.
