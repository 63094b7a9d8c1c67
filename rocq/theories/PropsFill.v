(** The number that fill reports *)
From Verif Require Import Toy ToyRun CmdFacts CopyFacts.
From Verif Require FillFacts.
From Verif Require Import SpecCmd Spec.

(** ** C20 *)

(** With --invert, fill counts the nodes that it has not changed in blocks that are partly
    in the area. *)
Theorem C20_fill_inverted : forall E W g main input pos a node, setting E W g main pos ->
  acmd g = CFill -> aarea g = Some a -> new_node g = Some node -> fits16 node ->
  blocks E main (sound 65533) -> invert g = true ->
  reports E W g main input (MFilled (total E main pos (fun bp _ =>
    let n := count_if (fun i => ~ inside a (abs_pos bp i)) in
    if decide (0 < n < 4096) then 4096 - n else n))).
Proof. exact FillFacts.fill_told. Qed.
Print Assumptions C20_fill_inverted.

(** 256 nodes of block (0,0,0) are outside the area and get filled; 3840 are reported. *)
Example C20_inverted_hyps : setting toy_full toy_world FillFacts.outside main_end from_block_key /\
  blocks toy_full main_end (sound 65533) /\ fits16 (bstr "default:dirt") /\ invert FillFacts.outside = true.
Proof.
  split; [exact FillFacts.outside_setting|]. split; [exact FillFacts.end_sound|by vm_compute].
Qed.
Example C20_inverted_example :
  ran toy_world main_end ∅ FillFacts.outside (warnings FillFacts.outside ++ [(LInfo, MFilled 3840)] ++ closing 0) (fun m =>
    block_is m key_a (fun b => node_name b <$> [0; 1; 3839; 3840; 4095])
      [Some (bstr "default:chest"); Some (bstr "default:stone"); Some (bstr "air"); Some (bstr "default:dirt"); Some (bstr "default:dirt")]) = true.
Proof. by vm_compute. Qed.
