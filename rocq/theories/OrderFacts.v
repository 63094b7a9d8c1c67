(** Facts behind the theorems of PropsOrder.v *)
From Verif Require Import SpecOrder SpecSafe SysProofs QueryProofs EditProofs SafeProofs WholeProofs ThreadProofs Toy ToyRun CmdFacts.
From Verif Require Import Spec.

Lemma same_rows E W1 W2 g main input pos : setting E W1 g main pos -> setting E W2 g main pos ->
  in_place (acmd g) = true \/ acmd g = CDeleteBlocks \/ acmd g = CVacuum ->
  (acmd g = CSetParam2 -> is_Some (aparam2 g)) -> args_fit g -> blocks E main (harmless g) ->
  exists main' l, run_ok E g W1 main input main' l /\ run_ok E g W2 main input main' l.
Proof.
  intros HS1 HS2 Hc Hp Hf Hb. destruct Hc as [Hc|[Hc|Hc]].
  - by eapply in_place_rows.
  - destruct (delblocks_run E W1 g main input pos HS1 Hc) as (m1 & R1 & N1 & H1).
    destruct (delblocks_run E W2 g main input pos HS2 Hc) as (m2 & R2 & N2 & H2).
    assert (m1 = m2) as <-; [|eexists _, _; split; [exact R1|exact R2]].
    apply map_eq. intros k. destruct (main !! k) as [x|] eqn:Hk; [|by rewrite N1, N2].
    pose proof (set_keys _ _ _ _ _ HS1 k ltac:(by eexists)) as Hat.
    destruct (H1 k (pos k) Hat) as [A1 B1]. destruct (H2 k (pos k) Hat) as [A2 B2].
    pose proof (row_sel_iff [] (aarea g) (invert g) false k (pos k) x Hat
      (area_ok_args g (set_supplied _ _ _ _ _ HS1) (set_legal _ _ _ _ _ HS1))) as Hsel.
    destruct (row_sel [] (aarea g) (invert g) false k x).
    + destruct (proj1 Hsel eq_refl) as [Hv _]. by rewrite A1, A2.
    + assert (~ visit (aarea g) (invert g) false (pos k)) as Hv; [|by rewrite B1, B2].
      intros Hv. enough (false = true) by done. apply Hsel. split; [done|]. by left.
  - destruct HS1, HS2. eexists main, _. split; by apply vacuum_run.
Qed.

(** The toy environment with variables in reverse order *)
Definition toy_rev : ext := {|
  zl_enc := zl_enc toy_full; zl_dec := zl_dec toy_full; zs_enc := zs_enc toy_full; zs_dec := zs_dec toy_full;
  zs_first := zs_first toy_full; accept := accept toy_full; vars_iter := fun _ m => reverse (map_to_list m) |}.
Lemma toy_rev_setting W g main pos : setting toy_full W g main pos -> setting toy_rev W g main pos.
Proof.
  intros [HE Hf HW HO Hs Hl Hr Hk]. split; try done.
  destruct HE. split; try done. intros p m. cbn. by rewrite reverse_Permutation.
Qed.

(** ** A new item whose name ends like an inventory *)

(** Once the item is renamed, the inventory of node 0 ends early, and the rest is read
    as node 9 with one variable, in whose name the variables of node 1 end up. *)
Definition bad_line : bytes := z2b <$> [0; 9; 0; 0; 0; 1; 0; 31].
Definition block_bad : block :=
  mk_block 28 0 {[0 := bstr "default:chest"]}
    (list_to_map [(0, NM ∅ (nl [bstr "Item a:b"; bad_line; bstr "EndInventory"]));
                  (1, NM (list_to_map [(bstr "a", ([], false)); (bstr "b", ([], false))]) END_STR)]) [] [].
Definition main_bad : mapdata := {[ key_a := ser block_bad ]}.
Definition replace_bad : args :=
  with_item (Some (bstr "a:b")) (Some (bstr "x:EndInventory")) false false (toy_args CReplaceInInv).
Definition logs_bad : list (log_type * msg) := warnings replace_bad ++ [(LInfo, MStacks 1 1)] ++ closing 0.
Definition reads_bad (m : mapdata) : option metadata_t :=
  m !! key_a ≫= fun y => match deserialize toy_full y with Ok b => Some (metadata (norm b)) | Err _ => None end.

Definition differ (r1 r2 : run unit * sys) : bool :=
  match r1, r2 with
  | (Done tt, s1), (Done tt, s2) =>
    bool_decide (logs (trace s1) = logs_bad) && bool_decide (logs (trace s2) = logs_bad) &&
    bool_decide (final Input s1 = ∅) && bool_decide (final Input s2 = ∅) &&
    match reads_bad (final Main s1), reads_bad (final Main s2) with
    | Some d1, Some d2 => bool_decide (d1 !! 9 <> d2 !! 9)
    | _, _ => false
    end
  | _, _ => false
  end.
Lemma differ_spec r1 r2 : differ r1 r2 = true -> exists s1 s2, r1 = (Done tt, s1) /\ r2 = (Done tt, s2) /\
  logs (trace s1) = logs_bad /\ logs (trace s2) = logs_bad /\ final Input s1 = ∅ /\ final Input s2 = ∅ /\
  ~ same_contents toy_full (final Main s1) (final Main s2).
Proof.
  destruct r1 as [[[]| |] s1]; [|discriminate 1..]. destruct r2 as [[[]| |] s2]; [|discriminate 1..].
  unfold differ. rewrite !andb_true_iff, !bool_decide_eq_true. intros [[[[H1 H2] I1] I2] H].
  exists s1, s2. do 2 (split; [reflexivity|]). do 4 (split; [assumption|]).
  intros Hsame. specialize (Hsame key_a). unfold reads_bad in H.
  destruct (final Main s1 !! key_a) as [y1|]; [|discriminate H].
  destruct (final Main s2 !! key_a) as [y2|]; [|contradiction Hsame]. cbn [mbind option_bind] in H.
  destruct Hsame as [->|(b1 & b2 & D1 & D2 & Ha & _)].
  - destruct (deserialize toy_full y2); [|discriminate H]. by apply bool_decide_eq_true in H.
  - rewrite D1, D2 in H. apply bool_decide_eq_true in H. apply H.
    assert (metadata (norm b2) = metadata (norm b1)) as ->; [|reflexivity]. exact (f_equal metadata Ha).
Qed.

Lemma order_matters : exists E1 E2 W g main input pos new, same_reading E1 E2 /\
  setting E1 W g main pos /\ setting E2 W g main pos /\
  acmd g = CReplaceInInv /\ new_item g = Some new /\ name_ok new /\ blocks E1 main consistent /\
  (forall k x b, main !! k = Some x -> deserialize E1 x = Ok b ->
     forall i m, metadata b !! i = Some m -> plain_inv (inv m)) /\
  exists main1 main2 l, run_ok E1 g W main input main1 l /\ run_ok E2 g W main input main2 l /\
    ~ same_contents E1 main1 main2.
Proof.
  exists toy_full, toy_rev, toy_world, replace_bad, main_bad, ∅, (fun _ => V3 0 0 0), (bstr "x:EndInventory").
  assert (setting toy_full toy_world replace_bad main_bad (fun _ => V3 0 0 0)) as HS
    by (apply key_a_setting; [split; [done|by eexists]|by vm_compute]).
  split; [done|]. split; [exact HS|]. split; [by apply toy_rev_setting|]. do 2 (split; [reflexivity|]).
  split. { destruct HS as [_ _ _ _ _ (_ & _ & _ & Hn & _) _ _]. apply (proj1 (Forall_forall _ _) Hn). apply (bool_decide_unpack _). by vm_compute. }
  assert (deserialize toy_full (ser block_bad) = Ok block_bad) as Hd by (apply (bool_decide_unpack _); by vm_compute).
  split; [apply (one_block (ser block_bad) block_bad); [exact Hd|]; split; [apply soundb_ok|apply uniqueb_ok]; by vm_compute|].
  split.
  { apply (one_block (ser block_bad) block_bad (fun b => forall i m, metadata b !! i = Some m -> plain_inv (inv m))); [exact Hd|].
    apply all_plain. by vm_compute. }
  destruct (differ_spec (thread_main toy_full replace_bad toy_world (start main_bad ∅))
    (thread_main toy_rev replace_bad toy_world (start main_bad ∅))) as (s1 & s2 & H1 & H2 & L1 & L2 & I1 & I2 & Hn);
    [by vm_compute|].
  exists (final Main s1), (final Main s2), logs_bad.
  split; [exists s1; exact (conj H1 (conj eq_refl (conj I1 L1)))|].
  split; [exists s2; exact (conj H2 (conj eq_refl (conj I2 L2)))|]. exact Hn.
Qed.
