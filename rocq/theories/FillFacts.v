(** Facts about the number that fill reports *)
From Verif Require Import NodeProofs WholeProofs CopyProofs CmdFacts KeepProofs AgainProofs AgainFacts CopyFacts Toy ToyRun SpecAgain SpecCmd Spec.

Lemma fill_told E W g main input pos a node : setting E W g main pos ->
  acmd g = CFill -> aarea g = Some a -> new_node g = Some node -> fits16 node ->
  blocks E main (sound 65533) -> invert g = true ->
  reports E W g main input (MFilled (total E main pos (fun bp _ =>
    let n := count_if (fun i => ~ inside a (abs_pos bp i)) in
    if decide (0 < n < 4096) then 4096 - n else n))).
Proof.
  intros HS Hc Ha Hn Hf Hb Hi.
  pose proof (edits_reports _ _ _ _ _ _ _ _ _ (fill_run E W g main input pos a node HS Hc Ha Hn Hf Hb)) as H.
  rewrite Hi in *.
  rewrite <-(total_ext E main pos (fun bp _ => fill_count (Some a) true bp)); [exact H|]. intros bp b. unfold fill_count.
  change (count_if (fun i => selected (Some a) true (abs_pos bp i))) with (count_if (fun i => ~ inside a (abs_pos bp i))). cbv zeta. cbn [andb].
  set (n := count_if _). destruct (decide (0 < n < 4096)) as [Hd|Hd].
  - by rewrite (proj2 (Z.ltb_lt 0 n)), (proj2 (Z.ltb_lt n 4096)) by lia.
  - destruct (0 <? n) eqn:E1; [|done]. destruct (n <? 4096) eqn:E2; [lia|done].
Qed.

Definition outside : args :=
  with_names None [] (Some (bstr "default:dirt")) (with_area (Area (V3 0 0 0) (V3 15 15 14)) true (toy_args CFill)).
Lemma outside_setting : setting toy_full toy_world outside main_end from_block_key.
Proof.
  eapply (fair_setting _ _ _ _ ∅); [|exact end_keys]. apply toy_fair; [toy_supplied|by vm_compute| |by intros n [?|?]|done|apply keys_none|by left].
  split; [|done]. intros n [= <-]. by vm_compute.
Qed.
Lemma end_sound : blocks toy_full main_end (sound 65533).
Proof. intros k x b Hx Hd. apply (sound_mono 4095); [lia|]. by apply (end_healthy k x b Hx Hd). Qed.
