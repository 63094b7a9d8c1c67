(** Example maps for PropsCrash.v *)
From Verif Require Import SpecCrash CrashRun QueryProofs SpatialProofs EditProofs SysProofs RunProofs MapProofs WholeProofs ThreadProofs Toy ToyRun CmdFacts.
From Verif Require Import Spec.

(** All of the block without names *)
Definition fill_all : args :=
  with_names None [] (Some (bstr "air")) (with_area (Area (V3 0 0 0) (V3 15 15 15)) false (toy_args CFill)).

Lemma read_back b x : ser b = x -> bool_decide (deserialize toy_full x = Ok b) = true -> deserialize toy_full x = Ok b.
Proof. intros _ H. by apply bool_decide_eq_true in H. Qed.

Lemma key_a_at : block_at key_a (V3 0 0 0).
Proof. split; [unfold key_range; simpl; lia|done]. Qed.
Lemma key_a_only bp : block_at key_a bp -> bp = V3 0 0 0.
Proof. intros H. by apply (block_at_fun key_a). Qed.

Lemma fill_a_fatal : meets_fatal toy_full main_nameless fill_a.
Proof.
  exists key_a, (V3 0 0 0), (ser block_nameless), block_nameless. split; [exact key_a_at|].
  split; [by apply lookup_singleton_Some|]. split.
  { exists (V3 0 0 0). split; apply (bool_decide_unpack _); by vm_compute. }
  split; [by left|]. split; [apply (read_back _ _ eq_refl); by vm_compute|]. exists (bstr "air"). split; [done|].
  split; [exists 4095|by left]. split; [lia|]. apply (bool_decide_unpack _). by vm_compute.
Qed.
Lemma fill_all_safe : ~ meets_fatal toy_full main_nameless fill_all.
Proof.
  intros (k & bp & x & b & Hk & Hx & _ & _ & _ & (n & _ & (i & Hi & Hs) & _)).
  unfold main_nameless in Hx. apply lookup_singleton_Some in Hx as [<- _]. apply key_a_only in Hk as ->. apply Hs.
  unfold abs_pos, idx_pos, plus. simpl. unfold inside. simpl. Z.div_mod_to_equations. lia.
Qed.

(** Metadata at the index 4101, which is node 5 of the block once more *)
Definition block_stray : block :=
  mk_block 29 0 {[0 := bstr "default:chest"]} {[4101 := NM ∅ toy_inv]} [] [].
Definition main_stray : mapdata := {[ key_a := ser block_stray ]}.
Definition meta_near (x : Z) : args :=
  with_names (Some (bstr "default:chest")) [] None (with_area (Area (V3 0 0 0) (V3 x 0 0)) false (toy_args CDeleteMeta)).

Lemma meta_5_fatal : meets_fatal toy_full main_stray (meta_near 5).
Proof.
  exists key_a, (V3 0 0 0), (ser block_stray), block_stray. split; [exact key_a_at|].
  split; [by apply lookup_singleton_Some|]. split.
  { exists (V3 0 0 0). split; apply (bool_decide_unpack _); by vm_compute. }
  split. { right. left. intros v r Hv. assert (head (ser block_stray) = Some (z2b 29)) as Hh by (by vm_compute).
    rewrite Hv in Hh. injection Hh as ->. apply (bool_decide_unpack _). by vm_compute. }
  split; [apply (read_back _ _ eq_refl); by vm_compute|]. split.
  - exists (bstr "default:chest"). split; [by left|]. exists 0. by vm_compute.
  - exists 4101. split; [by eexists|]. split; [lia|]. apply (bool_decide_unpack _). by vm_compute.
Qed.
Lemma meta_4_safe : ~ meets_fatal toy_full main_stray (meta_near 4).
Proof.
  intros (k & bp & x & b & Hk & Hx & _ & _ & Hd & (_ & i & Hi & Hl & Hs)).
  unfold main_stray in Hx. apply lookup_singleton_Some in Hx as [<- <-]. apply key_a_only in Hk as ->.
  rewrite (read_back block_stray _ eq_refl) in Hd by (by vm_compute). injection Hd as <-.
  destruct Hi as [y Hi]. unfold block_stray, mk_block in Hi. cbn [metadata] in Hi. apply lookup_singleton_Some in Hi as [<- _]. revert Hs.
  apply (bool_decide_unpack _). by vm_compute.
Qed.
