(** Proofs about deleting blocks before or after other edits *)
From Verif Require Import CodecProofs BlockProofs UtilsProofs QueryProofs EditProofs NodeProofs MetaProofs InvProofs ObjProofs WholeProofs ArgProofs MapProofs MixProofs
  ThreadProofs FragProofs ToyRun CmdFacts SpecNodes KeepProofs OrderProofs AgainProofs LocalProofs RestoreProofs UndoProofs
  SpecUndo SpecAgain SpecLocal Spec.

Lemma acted_both g d bp b b1 b2 : meta_in b -> acted g d bp b b1 -> acted g d bp b b2 -> alike b1 b2.
Proof.
  intros Hm A1 A2. eapply acted_alike; [exact A1|exact A2|done|done|..].
  - by rewrite (acted_shell _ _ _ _ _ A1), (acted_shell _ _ _ _ _ A2).
  - by rewrite (acted_timers _ _ _ _ _ A1), (acted_timers _ _ _ _ _ A2).
  - by rewrite (acted_objects _ _ _ _ _ A1), (acted_objects _ _ _ _ _ A2).
  - intros i Hi. by rewrite (acted_nodes _ _ _ _ _ A1 i Hi), (acted_nodes _ _ _ _ _ A2 i Hi).
Qed.
Lemma acted_nothing g bp b b1 : meta_in b -> timers_in b -> acmd g <> CDeleteObjects ->
  (forall i, 0 <= i < 4096 -> ~ selected (aarea g) (invert g) (abs_pos bp i)) -> acted g (adel g) bp b b1 -> alike b1 b.
Proof.
  intros Hm Ht Ho Hn A. apply state_alike.
  - by apply A.
  - by apply meta_norm.
  - apply A.
  - rewrite (acted_timers _ _ _ _ _ A). apply filter_all. intros t Htb. unfold stays. destruct (acmd g); try done.
    intros [Hs _]. eapply Hn; [|exact Hs]. unfold timers_in in Ht. rewrite Forall_forall in Ht. by apply Ht.
  - rewrite (acted_objects _ _ _ _ _ A). apply filter_all. intros o _. by apply adel_none.
  - intros i Hi. rewrite (acted_nodes _ _ _ _ _ A i Hi). rewrite decide_False; [done|]. intros [Hs _]. by eapply Hn.
Qed.

Definition whole_dec a inv bp : {visit a inv false bp} + {~ visit a inv false bp}.
Proof.
  destruct (decide (Forall (fun i => selected a inv (abs_pos bp i)) (seqZ 0 4096))) as [H|H].
  - left. intros q Hq. apply block_of_iff in Hq as ->. destruct (idx_in_ok q) as [Hi Hq]. rewrite <-Hq. rewrite Forall_forall in H. apply H, elem_of_seqZ. lia.
  - right. intros Hv. apply H. apply Forall_forall. intros i Hi%elem_of_seqZ. apply Hv, index_inside. lia.
Qed.

Lemma drop E W1 W2 W3 W4 g gd main input inputd n :
  fair E W1 g input -> fair E W2 gd inputd -> fair E W3 gd inputd -> fair E W4 g input ->
  keys_ok main -> 4095 <= n <= 7280 -> blocks E main (healthy n) ->
  in_place (acmd g) = true -> acmd gd = CDeleteBlocks ->
  exists m1 l1 m12 m2 m21 l21 l,
    (run_ok E g W1 main input m1 l1 /\ run_ok E gd W2 m1 inputd m12 l) /\
    (run_ok E gd W3 main inputd m2 l /\ run_ok E g W4 m2 input m21 l21) /\
    same_contents E m12 m21 /\
    (covers gd g -> acmd g <> CDeleteObjects -> same_contents E m12 m2 /\ same_contents E m21 m2).
Proof.
  intros F1 F2 F3 F4 Hk Hn Hb Hin Hc.
  destruct (local_next E W1 g main input n) as (m1 & l1 & Run1 & [N1 E1] & K1 & B1); [done..|].
  destruct (delblocks_run E W2 gd m1 inputd _ (fair_setting _ _ _ _ _ F2 K1) Hc) as (m12 & Run12 & N12 & D12).
  destruct (delblocks_run E W3 gd main inputd _ (fair_setting _ _ _ _ _ F3 Hk) Hc) as (m2 & Run2 & N2 & D2).
  assert (forall k x, m2 !! k = Some x -> main !! k = Some x) as Hsub.
  { intros k x Hx. destruct (main !! k) as [y|] eqn:Hy; [|by rewrite (N2 k Hy) in Hx].
    destruct (Hk k ltac:(by eexists)) as [bp Hbp]. destruct (D2 k bp Hbp) as [A B].
    destruct (whole_dec (aarea gd) (invert gd) bp) as [Hv|Hv]; [by rewrite (A Hv) in Hx|]. by rewrite (B Hv), Hy in Hx. }
  assert (keys_ok m2) as K2 by (intros k [x Hx%Hsub]; apply Hk; by eexists).
  assert (blocks E m2 (healthy n)) as B2 by (intros k x b Hx%Hsub Hd; by eapply Hb).
  destruct (local_second E W4 g m2 input n) as (m21 & l21 & Run21 & [N21 E21]); [done..|lia|done|].
  assert (forall k x b, main !! k = Some x -> deserialize E x = Ok b -> meta_in b /\ timers_in b) as Hin2.
  { intros k x b Hx Hd. pose proof (Hb k x b Hx Hd) as Hh. split; [apply (sound_meta n)|apply (sound_timers n)]; apply Hh. }
  exists m1, l1, m12, m2, m21, l21, (warnings gd ++ closing 0). split; [done|]. split; [done|]. split.
  - intros k. destruct (main !! k) as [x|] eqn:Hx; [|by rewrite (N12 k (N1 k Hx)), (N21 k (N2 k Hx))].
    destruct (Hk k ltac:(by eexists)) as [bp Hbp]. destruct (D12 k bp Hbp) as [A12 C12]. destruct (D2 k bp Hbp) as [A2 C2].
    destruct (whole_dec (aarea gd) (invert gd) bp) as [Hv|Hv]; [by rewrite (A12 Hv), (N21 k (A2 Hv))|].
    rewrite (C12 Hv). specialize (C2 Hv). rewrite Hx in C2.
    destruct (E1 k bp x Hbp Hx) as (y1 & -> & H1). destruct (E21 k bp x Hbp C2) as (y2 & -> & H2).
    destruct (deserialize E x) as [b|] eqn:Ed; [|left; congruence]. destruct H1 as (b1 & D1 & A1). destruct H2 as (b2 & D2' & A2').
    right. exists b1, b2. split; [done|]. split; [done|]. eapply acted_both; [|exact A1|exact A2']. by eapply Hin2.
  - intros Hcov Hob. assert (same_contents E m21 m2 /\ same_contents E m12 m2); [|tauto].
    split; intros k.
    + destruct (m2 !! k) as [x|] eqn:Hx; [|by rewrite (N21 k Hx)]. pose proof (Hsub k x Hx) as Hx'.
      destruct (K2 k ltac:(by eexists)) as [bp Hbp]. destruct (E21 k bp x Hbp Hx) as (y & -> & H).
      destruct (deserialize E x) as [b|] eqn:Ed; [|by left]. destruct H as (b1 & D1 & A1). right. exists b1, b. split; [done|]. split; [done|].
      eapply acted_nothing; [by eapply Hin2|by eapply Hin2|done| |exact A1]. intros i Hi Hs.
      destruct (D2 k bp Hbp) as [A _]. rewrite A in Hx; [done|]. apply Hcov. exists (abs_pos bp i). split; [by apply index_inside|done].
    + destruct (main !! k) as [x|] eqn:Hx; [|by rewrite (N12 k (N1 k Hx)), (N2 k Hx)].
      destruct (Hk k ltac:(by eexists)) as [bp Hbp]. destruct (D12 k bp Hbp) as [A12 C12]. destruct (D2 k bp Hbp) as [A2 C2].
      destruct (whole_dec (aarea gd) (invert gd) bp) as [Hv|Hv]; [by rewrite (A12 Hv), (A2 Hv)|].
      rewrite (C12 Hv), (C2 Hv), Hx. destruct (E1 k bp x Hbp Hx) as (y1 & -> & H1).
      destruct (deserialize E x) as [b|] eqn:Ed; [|by left]. destruct H1 as (b1 & D1 & A1). right. exists b1, b. split; [done|]. split; [done|].
      eapply acted_nothing; [by eapply Hin2|by eapply Hin2|done| |exact A1]. intros i Hi Hs. apply Hv, Hcov. exists (abs_pos bp i). split; [by apply index_inside|done].
Qed.
