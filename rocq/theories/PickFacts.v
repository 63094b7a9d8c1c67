(** A block in which a name is registered twice, for the examples of PropsPick.v *)
From Verif Require NodeProofs.
From Verif Require Import SpecPick SpecSafe CmdFacts Toy ToyRun.
From Verif Require Import Spec.

(** Nodes 0 and 1 are both stone, under different IDs; both have metadata and a timer. *)
Definition twin_inv : bytes :=
  nl [bstr "List main 1"; bstr "Item default:stone 5"; bstr "EndInventoryList"; bstr "EndInventory"].
Definition twin_meta : node_meta := NM {[ bstr "owner" := (bstr "sfan5", false) ]} twin_inv.
Definition twin_block : block :=
  Block 29 (z2b 0) 65535 (z2b 2) (z2b 2)
    (ND ([2; 1] ++ replicate (Z.to_nat 4094) 0)
       (replicate (Z.to_nat 4096) (z2b 15)) (replicate (Z.to_nat 4096) (z2b 3)))
    (list_to_map [(0, twin_meta); (1, twin_meta)]) [] 77
    (list_to_map [(0, bstr "air"); (1, bstr "default:stone"); (2, bstr "default:stone")])
    [NT 0 1000 5; NT 1 2000 10].
Definition twin_main : mapdata := {[ key_a := ser twin_block ]}.

(** The six commands, looking for stone *)
Definition twin_replace : args :=
  with_names (Some (bstr "default:stone")) [] (Some (bstr "default:dirt")) (toy_args CReplaceNodes).
Definition twin_param2 : args :=
  with_param2 (Some (z2b 7)) (with_names (Some (bstr "default:stone")) [] None (toy_args CSetParam2)).
Definition twin_delmeta : args := with_names (Some (bstr "default:stone")) [] None (toy_args CDeleteMeta).
Definition twin_deltimers : args := with_names (Some (bstr "default:stone")) [] None (toy_args CDeleteTimers).
Definition twin_setvar : args :=
  with_var (Some (bstr "owner")) (Some (bstr "me")) false
    (with_names None [bstr "default:dirt"; bstr "default:stone"] None (toy_args CSetMetaVar)).
Definition twin_replinv : args :=
  with_item (Some (bstr "default:stone")) (Some (bstr "default:cobble")) false false
    (with_names None [bstr "default:stone"] None (toy_args CReplaceInInv)).

Lemma twin_setting g : supplied g -> argsb g = true ->
  setting toy_full toy_world g twin_main (fun _ => V3 0 0 0).
Proof. apply key_a_setting. Qed.
Lemma twin_blocks (P : block -> Prop) : P twin_block -> blocks toy_full twin_main P.
Proof. apply one_block. apply (bool_decide_unpack _). by vm_compute. Qed.
Lemma twin_sound : blocks toy_full twin_main (sound 65533).
Proof. apply twin_blocks, soundb_ok. by vm_compute. Qed.
Lemma twin_meta_in : blocks toy_full twin_main meta_in.
Proof. intros k x b Hx Hd. by destruct (twin_sound k x b Hx Hd). Qed.
Lemma twin_timers_in : blocks toy_full twin_main timers_in.
Proof. intros k x b Hx Hd. by destruct (twin_sound k x b Hx Hd). Qed.
Lemma twin_plain : blocks toy_full twin_main (fun b => forall i m, metadata b !! i = Some m -> plain_inv (inv m)).
Proof. apply twin_blocks, all_plain. by vm_compute. Qed.
Lemma twin_not_unique : ~ unique_names twin_block.
Proof.
  intros H. assert (1 = 2) as He; [|lia].
  apply (H 1 2 (bstr "default:stone")); apply (bool_decide_unpack _); by vm_compute.
Qed.

Definition twin_run : args -> option (mapdata * list (log_type * msg)) :=
  run_with toy_full toy_world twin_main ∅.

(** ** What replacenodes leaves *)
Lemma replace_leaves E W g main input pos old new : setting E W g main pos ->
  acmd g = CReplaceNodes -> anode g = Some old -> new_node g = Some new -> fits16 new ->
  blocks E main (sound 65533) ->
  exists main' l, run_ok E g W main input main' l /\
    forall k y b' i, main' !! k = Some y -> deserialize E y = Ok b' -> 0 <= i < 4096 ->
      exists x b, main !! k = Some x /\ deserialize E x = Ok b /\
        (chosen (aarea g) (invert g) [old] (pos k) b' i <->
         chosen (aarea g) (invert g) [old] (pos k) b i /\ ~ has_lowest b i old).
Proof.
  intros HS Hc Ho Hnn Hf Hb.
  assert (old <> new) as Hne.
  { destruct HS as [_ _ _ _ _ (_ & _ & _ & _ & Hl) _ _]. rewrite Hc, Ho, Hnn in Hl. congruence. }
  destruct (NodeProofs.replace_picks E W g main input pos old new HS Hc Ho Hnn Hf Hb)
    as (main' & failed & Hrun & _ & Hnone & Heff).
  eexists main', _. split; [exact Hrun|]. intros k y b' i Hy Hd Hi.
  destruct (main !! k) as [x|] eqn:Ex; [|rewrite (Hnone k Ex) in Hy; discriminate].
  assert (block_at k (pos k)) as Hk by (apply (set_keys _ _ _ _ _ HS); by eexists).
  destruct (Heff k (pos k) x Hk Ex) as (y' & Hy' & He). rewrite Hy in Hy'. injection Hy' as <-.
  destruct (deserialize E x) as [b|e] eqn:Ed; [|subst y; rewrite Ed in Hd; discriminate].
  destruct He as (_ & b2 & Hd2 & _ & Hren). rewrite Hd in Hd2. injection Hd2 as <-.
  exists x, b. split; [done|]. split; [done|].
  destruct Hren as (_ & _ & _ & _ & _ & Hname). specialize (Hname i Hi).
  unfold chosen. rewrite !Exists_cons, !Exists_nil, Hname. case_decide as Hp.
  - split.
    + intros [_ [?|[?|[]]]]; [discriminate|congruence].
    + intros [_ Hl]. destruct Hl. destruct Hp as [_ [?|He]]; [discriminate|].
      apply Exists_cons in He as [He|He]; [done|by apply Exists_nil in He].
  - split.
    + intros [Hs Hn]. split; [by split|]. intros Hl. apply Hp. split; [done|]. right. by left.
    + intros [H _]. exact H.
Qed.
Lemma replace_gone E W g main input pos old new : setting E W g main pos ->
  acmd g = CReplaceNodes -> anode g = Some old -> new_node g = Some new -> fits16 new ->
  blocks E main (sound 65533) -> blocks E main unique_names ->
  exists main' l, run_ok E g W main input main' l /\
    forall k y b i, main' !! k = Some y -> deserialize E y = Ok b -> 0 <= i < 4096 ->
      ~ chosen (aarea g) (invert g) [old] (pos k) b i.
Proof.
  intros HS Hc Ho Hnn Hf Hb Hu.
  destruct (replace_leaves E W g main input pos old new HS Hc Ho Hnn Hf Hb) as (main' & l & Hrun & H).
  exists main', l. split; [exact Hrun|]. intros k y b' i Hy Hd Hi Hch.
  destruct (H k y b' i Hy Hd Hi) as (x & b & Hx & Hdb & Hiff). apply Hiff in Hch as [Hch Hl]. apply Hl.
  apply (NodeProofs.picked_unique (aarea g) (invert g) [old]) in Hch; [|left; by apply (Hu k x b)].
  destruct Hch as [_ [?|He]]; [discriminate|]. apply Exists_cons in He as [He|He]; [done|by apply Exists_nil in He].
Qed.
