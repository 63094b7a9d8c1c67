(** Proofs about sequences of runs on maps with the same contents *)
From Verif Require Import CodecProofs BlockProofs UtilsProofs QueryProofs EditProofs NodeProofs MetaProofs ObjProofs WholeProofs SpatialProofs ArgProofs MapProofs MixProofs
  ThreadProofs FragProofs CopyProofs CopyRun OverlayRun ToyRun CmdFacts SpecNodes KeepProofs OrderProofs AgainProofs LocalProofs RestoreProofs CongProofs LawProofs
  LooseProofs UndoProofs DropProofs SpecSeq SpecLaws SpecAgain SpecLocal Spec.

Lemma public_same E1 E2 m : same_reading E1 E2 -> blocks E1 m no_early_private <-> blocks E2 m no_early_private.
Proof. intros Hr. split; intros H k x b Hx Hd; [rewrite <-(deser_same E1 E2 Hr) in Hd|rewrite (deser_same E1 E2 Hr) in Hd]; by eapply H. Qed.

(** Every command keeps the maps without private variables in old blocks. *)
Lemma next_public E W g main input n m l : fair E W g input -> keys_ok main -> 4095 <= n <= 7280 -> blocks E main (healthy n) ->
  blocks E main no_early_private -> (acmd g = COverlay -> blocks E input (healthy n) /\ blocks E input no_early_private) ->
  run_ok E g W main input m l -> blocks E m no_early_private.
Proof.
  intros HF Hk Hn Hb Hs Hi Run.
  destruct (in_place (acmd g)) eqn:Hp; [by eapply (store_next E W g main input n m l); auto|].
  destruct (acmd g) eqn:Hc; try done.
  - eapply (store_next E W g main input n m l); try done; rewrite Hc; auto.
  - destruct (delblocks_run E W g main input _ (fair_setting _ _ _ _ _ HF Hk) Hc) as (m' & Run' & N & D).
    destruct (run_ok_fun _ _ _ _ _ _ _ _ _ Run Run') as [<- _].
    intros k x b Hx Hd. destruct (main !! k) as [y|] eqn:Hy; [|by rewrite (N k Hy) in Hx].
    destruct (Hk k ltac:(by eexists)) as [bp Hbp]. destruct (D k bp Hbp) as [A B].
    destruct (whole_dec (aarea g) (invert g) bp) as [Hv|Hv]; [by rewrite (A Hv) in Hx|]. rewrite (B Hv), Hy in Hx. injection Hx as ->. by eapply Hs.
  - eapply (store_next E W g main input n m l); try done; rewrite Hc; auto.
  - assert (exists l', run_ok E g W main input main l') as [l' Run'] by (eexists; apply vacuum_run; try done; apply HF).
    by destruct (run_ok_fun _ _ _ _ _ _ _ _ _ Run Run') as [<- _].
Qed.

Lemma loose_up E1 E2 n d r1 r2 : 0 <= d -> loose_job E1 E2 n r1 r2 -> loose_job E1 E2 (n + d) r1 r2.
Proof.
  destruct r1 as [[W1 g1] in1], r2 as [[W2 g2] in2]. intros Hd (-> & F1 & F2 & H). split; [done|]. split; [done|]. split; [done|].
  intros Hc. destruct (H Hc) as (A & ? & B & ? & ?).
  split; [intros k x b Hx Hb; apply (KeepProofs.healthy_up n); [lia|by eapply A]|]. split; [done|].
  split; [intros k x b Hx Hb; apply (KeepProofs.healthy_up n); [lia|by eapply B]|]. done.
Qed.

Lemma contents_session E1 E2 runs1 : forall runs2 m1 m2 n, same_reading E1 E2 ->
  keys_ok m1 -> 4095 <= n -> n + growths runs1 <= 7280 -> blocks E1 m1 (healthy n) -> blocks E1 m2 (healthy n) ->
  same_contents E1 m1 m2 ->
  (Exists copy_job runs1 -> blocks E1 m1 no_early_private /\ blocks E1 m2 no_early_private) ->
  Forall2 (loose_job E1 E2 n) runs1 runs2 ->
  exists m1' m2', session E1 runs1 m1 m1' /\ session E2 runs2 m2 m2' /\ same_contents E1 m1' m2'.
Proof.
  induction runs1 as [|[[W1 g] in1] runs1 IH]; intros runs2 m1 m2 n Hr K1 Hn Hg H1 H2 Hs P HF.
  - apply Forall2_nil_inv_l in HF as ->. by exists m1, m2.
  - apply Forall2_cons_inv_l in HF as ([[W2 g2] in2] & runs2' & (<- & F1 & F2 & Hi) & HF & ->).
    cbn [growths] in Hg. pose proof (growths_nonneg runs1) as Hg1.
    assert (0 <= growth g) as Hg0 by (unfold growth; destruct (acmd g); lia).
    pose proof (pair_keys E1 m1 m2 Hs K1) as K2.
    assert (acmd g = COverlay -> blocks E1 in1 (healthy n) /\ blocks E1 in2 (healthy n) /\ same_contents E1 in1 in2 /\
      blocks E1 in1 no_early_private /\ blocks E1 in2 no_early_private) as Hi'.
    { intros Hc. destruct (Hi Hc) as (A & B & C & D & S). split; [done|]. split; [by apply (healthy_same E1 E2)|].
      split; [done|]. split; [done|]. by apply (public_same E1 E2). }
    destruct (contents_cong E1 E2 W1 W2 g m1 m2 in1 in2 n Hr F1 F2 K1 ltac:(lia) H1 H2 Hs) as (a & l1 & b & l2 & Run1 & Run2 & Hab).
    { intros Hc. apply P. by apply Exists_cons_hd. }
    { done. }
    destruct (run_next E1 W1 g m1 in1 n F1 K1 ltac:(lia) H1) as (a' & l1' & Run1' & L1 & Ka & Ha); [intros Hc; by apply Hi|].
    destruct (run_ok_fun _ _ _ _ _ _ _ _ _ Run1 Run1') as [<- <-].
    destruct (run_next E2 W2 g m2 in2 n F2 K2 ltac:(lia)) as (b' & l2' & Run2' & L2 & Kb & Hb);
      [by apply (healthy_same E1 E2)|intros Hc; by apply Hi|].
    destruct (run_ok_fun _ _ _ _ _ _ _ _ _ Run2 Run2') as [<- <-].
    destruct (IH runs2' a b (n + growth g) Hr Ka ltac:(lia) ltac:(lia) Ha) as (m1' & m2' & D1 & D2 & He).
    { by apply (healthy_same E1 E2). }
    { done. }
    { intros HX. destruct P as [P1 P2]; [by apply Exists_cons_tl|]. split.
      - apply (next_public E1 W1 g m1 in1 n a l1); try done; [lia|]. intros Hc. destruct (Hi' Hc) as (? & ? & ? & ? & ?). done.
      - apply (public_same E1 E2); [done|]. apply (next_public E2 W2 g m2 in2 n b l2); try done; [lia|by apply (healthy_same E1 E2)|by apply (public_same E1 E2)|].
        intros Hc. destruct (Hi Hc) as (? & ? & ? & ? & ?). done. }
    { eapply Forall2_impl; [exact HF|]. intros. by apply loose_up. }
    exists m1', m2'. split; [by exists a, l1|]. split; [by exists b, l2|done].
Qed.
