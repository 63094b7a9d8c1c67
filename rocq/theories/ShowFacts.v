(** The number of blocks in the displays, runs that end, and a run whose displays
    stay below the total *)
From Verif Require Import Sys Ui SysProofs SpecRun CodecProofs Instance UiProofs QueryProofs EditProofs WholeProofs CopyRun SpatialProofs.
From Verif Require Import SpecCmd SpecCopy SpecShow ShowTrace ShowProofs Toy ToyRun.
From Verif Require Import Spec.

(** ** Number of blocks *)
Lemma picked_stored W m names a inv_ partial n (P : vec3 -> bytes -> Prop) : world_ok W -> keys_ok m -> area_ok a ->
  many W m names a inv_ partial n ->
  (forall bp x, (visit a inv_ partial bp /\ mentions names x) <-> P bp x) ->
  stored m P n.
Proof.
  intros HO Hk Ha (keys & [t ->] & ->) HP. eexists. split; [|split; [done|]].
  - eapply sublist_nodup; [apply sublist_sel|]. rewrite (HO t m). apply NoDup_fst_map_to_list.
  - intros k. rewrite elem_of_list_fmap. split.
    + intros ([k' x] & -> & [Hs Hx]%elem_of_list_filter). simpl in *.
      rewrite (HO t m) in Hx. apply elem_of_map_to_list in Hx.
      destruct (Hk k' ltac:(by eexists)) as [bp Hb]. exists bp, x.
      rewrite row_sel_iff in Hs by done. by rewrite <- HP.
    + intros (bp & x & Hb & Hx & Hp). exists (k, x). split; [done|].
      unfold sel_rows. apply elem_of_list_filter. simpl. split.
      * rewrite row_sel_iff by done. by apply HP.
      * rewrite (HO t m). by apply elem_of_map_to_list.
Qed.

Lemma plan_workload W main input g n : world_ok W -> keys_ok main -> keys_ok input -> supplied g -> legal g ->
  plan W (maps main input) g n -> workload g main input n.
Proof.
  intros HO Hm Hi Hs Hl. pose proof (area_ok_args _ Hs Hl) as Ha. unfold plan, workload, searched.
  assert (forall names, many W main names (aarea g) (invert g) true n ->
    stored main (fun bp x => visit (aarea g) (invert g) true bp /\ mentions names x) n) as K.
  { intros names H. eapply picked_stored; try done. }
  assert (match aarea g with Some a => nonempty a /\ area_within 31000 a | None => True end) as Hw.
  { destruct Hs as [Hs _]. destruct Hl as (_ & Hl & _). destruct (aarea g) as [a|]; [|done].
    split; [by apply Hs|]. by apply Hl. }
  assert (forall o, offset g = Some o -> many W main [] (shifted (aarea g) o) false true n ->
    stored main (fun bp _ => target (aarea g) (default (V3 0 0 0) (offset g)) bp) n) as Kc.
  { intros o Ho H. assert (within 62000 o) as Ho' by (by apply Hl). rewrite Ho. cbn [default].
    eapply picked_stored; [done|done|by apply shifted_ok|exact H|]. intros bp x.
    rewrite shifted_target by auto. split; [tauto|]. split; [done|]. by left. }
  destruct (acmd g) eqn:Ec; cbn [maps]; try (apply K).
  - intros (a & o & Ea & Eo & H). apply (Kc o Eo). unfold shifted. by rewrite Ea.
  - intros H. eapply picked_stored; [done|done|exact Ha|exact H|]. intros bp x. split; [tauto|]. split; [done|]. by left.
  - case_bool_decide as E0; intros H.
    + split; [|done]. intros _. eapply picked_stored; [done|done|exact Ha|exact H|]. intros bp x. split; [tauto|]. split; [done|]. by left.
    + split; [done|]. intros _. destruct H as (o & Eo & H). apply (Kc o Eo).
      assert (invert g = false) as Ei.
      { destruct Hl as (_ & _ & _ & _ & Hl). rewrite Ec in Hl. destruct Hl as [Hl _].
        destruct (invert g); [|done]. destruct E0. rewrite Eo. cbn. by apply Hl. }
      rewrite Ei in H. by destruct (aarea g).
  - done.
Qed.

(** Blocks have less than 2^37 positions. *)
Lemma few_keys m : keys_ok m -> Z.of_nat (size m) < 2 ^ 64.
Proof.
  intros Hk. assert (length (map_to_list m).*1 <= length (seqZ (- 2 ^ 40) (2 ^ 41)))%nat as H.
  { apply submseteq_length, NoDup_submseteq; [apply NoDup_fst_map_to_list|].
    intros k (kx & -> & Hx)%elem_of_list_fmap. destruct kx as [k x]. apply elem_of_map_to_list in Hx.
    destruct (Hk k ltac:(by eexists)) as [bp (Hr & Hb)]. apply elem_of_seqZ. cbn [fst].
    unfold key_range in Hr. cbn in Hb. lia. }
  rewrite fmap_length, seqZ_length in H. unfold size, map_size. lia.
Qed.

Lemma tables_few W main input : world_ok W -> keys_ok main -> keys_ok input -> finite_tables W main input.
Proof.
  intros HO Hm Hi t. assert (forall m, keys_ok m -> Z.of_nat (length (rows W t m)) < 2 ^ 64) as H.
  { intros m Hk. rewrite (HO t m). by apply few_keys. }
  split; by apply H.
Qed.

(** ** The displays of a run that goes through *)
Section run.
  Context (E : ext) (g : args) (W : world) (main input : mapdata) (line : list Z) (p : proc).
  Context (Hp : behaves p E g W main input).
  Notation l := (logged (events E g W main input (confirms line))).

  Lemma shown_run ls t s : finite_tables W main input -> execution line p ls t -> ph t = UEnd ->
    thread_main E g (replying (confirms line) W) (start main input) = (Done tt, s) ->
    (displays (outs t) = [] \/ exists n, shows_run g l n (outs t)) /\
    (finished l -> exists n, shows_run g l n (outs t)).
  Proof.
    intros Hf X He Hr. destruct (displays_run E g W main input line p ls t s Hp Hf X He Hr) as [H1 H2]. split.
    - destruct H1 as [H1|(n & _ & H1)]; [by left|right; by exists n].
    - intros H. destruct (H2 H) as (n & _ & Hn). by exists n.
  Qed.
  Lemma shown_blocks ls t s : world_ok W -> keys_ok main -> keys_ok input -> supplied g -> legal g ->
    execution line p ls t -> ph t = UEnd ->
    thread_main E g (replying (confirms line) W) (start main input) = (Done tt, s) -> finished l ->
    exists n, workload g main input n /\ shows_run g l n (outs t).
  Proof.
    intros HO Hm Hi Hs Hl X He Hr Hd. pose proof (tables_few W main input HO Hm Hi) as Hf.
    destruct (displays_run E g W main input line p ls t s Hp Hf X He Hr) as [_ H2].
    destruct (H2 Hd) as (n & Hn & H). exists n. split; [|done]. by eapply plan_workload.
  Qed.

  (** Some execution comes to the end. *)
  Lemma reaches_end : exists ls t, execution line p ls t /\ ended t.
  Proof.
    assert (forall m ls t, (UiProofs.size line t <= m)%nat -> execution line p ls t -> exists ls' t', execution line p ls' t' /\ ended t') as H.
    { induction m as [m IH] using lt_wf_ind. intros ls t Hm X.
      pose proof (both_inv E g W main input line p Hp ls t X) as I.
      assert (ended t \/ ~ ended t) as [He|He] by (unfold ended; destruct (wk t), (ph t); intuition discriminate); [by exists ls, t|].
      destruct (can_step line p t I He) as (lb & t' & Hl & Hst).
      pose proof (size_step line p (not_over E g W main input line p Hp) lb t t' I Hst) as Hsz.
      eapply (IH (UiProofs.size line t')); [destruct lb; try lia; done|done|]. eapply X_step; [exact X|exact Hst]. }
    eapply H; [done|apply X_start].
  Qed.
End run.

(** ** A run whose displays stay below the total *)
Definition junk_main : mapdata := {[ key_c := junk_c ]}.
Definition junk_args : args :=
  with_names (Some (bstr "default:stone")) [] (Some (bstr "default:chest")) (toy_args CReplaceNodes).
Lemma toy_rows m : Z.of_nat (length (map_to_list m)) < 2 ^ 64 -> finite_tables toy_world m m.
Proof. by intros H t. Qed.
Lemma junk_log b : logged (events toy_full junk_args toy_world junk_main junk_main b) =
  [(LInfo, MReplaced 0); (LInfo, MSkipped 1); (LInfo, MCommitting); (LInfo, MDone)].
Proof. destruct b; by vm_compute. Qed.
Definition is_done {A} (r : run A * sys) : bool := match r with (Done _, _) => true | _ => false end.
Lemma junk_done b : exists s, thread_main toy_full junk_args (replying b toy_world) (start junk_main junk_main) = (Done tt, s).
Proof.
  assert (is_done (thread_main toy_full junk_args (replying b toy_world) (start junk_main junk_main)) = true) as H by (destruct b; by vm_compute).
  destruct (thread_main _ _ _ _) as [[[]| |] s]; [by exists s|done..].
Qed.
Lemma shows_same n d n' d' o : shows n d o -> shows n' d' o -> n = n' /\ d = d'.
Proof.
  intros (qs & ds & H1 & _ & _ & _ & Hd & _) (qs' & ds' & H2 & _ & _ & _ & Hd' & _). rewrite H1 in H2.
  apply (f_equal last) in H2. rewrite !last_app, !fmap_last, Hd, Hd' in H2. cbn in H2. by inversion H2.
Qed.
Lemma not_all_done : exists E g W main input line p ls t s,
  ext_ok E /\ full_writes E /\ no_faults W /\ world_ok W /\ keys_ok main /\ supplied g /\ legal g /\
  behaves p E g W main input /\ execution line p ls t /\ ended t /\
  thread_main E g (replying (confirms line) W) (start main input) = (Done tt, s) /\
  finished (logged (events E g W main input (confirms line))) /\
  ~ exists n, shows n n (outs t).
Proof.
  destruct (behaves_ex toy_full junk_args toy_world junk_main junk_main) as [p Hp].
  destruct (reaches_end _ _ _ _ _ [] p Hp) as (ls & t & X & He). destruct (junk_done (confirms [])) as [s Hs].
  exists toy_full, junk_args, toy_world, junk_main, junk_main, [], p, ls, t, s.
  assert (finished (logged (events toy_full junk_args toy_world junk_main junk_main (confirms [])))) as Hf.
  { rewrite junk_log. by exists [(LInfo, MReplaced 0); (LInfo, MSkipped 1); (LInfo, MCommitting)]. }
  assert (finite_tables toy_world junk_main junk_main) as Ht by (by apply toy_rows; vm_compute).
  split; [apply toy_full_ok|]. split; [apply toy_full_writes|]. split; [done|]. split; [by intros ??|].
  split; [|split; [|split; [|do 5 (split; [done|])]]].
  - intros k [x Hk]. unfold junk_main in Hk. apply lookup_singleton_Some in Hk as [<- _]. exists (V3 1 0 0). split; [by vm_compute|done].
  - split; [done|]. by split; eexists.
  - apply argsb_legal; [split; [done|by split; eexists]|by vm_compute].
  - intros [n Hn]. destruct He as [_ He].
    destruct (shown_run _ _ _ _ _ _ p Hp ls t s Ht X He Hs) as [_ K]. destruct (K Hf) as [n' Hn'].
    unfold shows_run in Hn'. cbn [acmd junk_args with_names toy_args] in Hn'. rewrite junk_log in Hn'.
    destruct (shows_same _ _ _ _ _ Hn Hn') as [-> H]. cbn in H. lia.
Qed.

(** ** Another run *)
Definition meta_args : args := toy_args CDeleteMeta.
Lemma meta_log b : logged (events toy_full meta_args toy_world toy_main ∅ b) =
  [(LWarning, MAllMeta); (LInfo, MMeta 3); (LInfo, MSkipped 1); (LInfo, MCommitting); (LInfo, MDone)].
Proof. destruct b; by vm_compute. Qed.
Lemma meta_done b : exists s, thread_main toy_full meta_args (replying b toy_world) (start toy_main ∅) = (Done tt, s).
Proof.
  assert (is_done (thread_main toy_full meta_args (replying b toy_world) (start toy_main ∅)) = true) as H by (destruct b; by vm_compute).
  destruct (thread_main _ _ _ _) as [[[]| |] s]; [by exists s|done..].
Qed.
Lemma stored_same m P n n' : stored m P n -> stored m P n' -> n = n'.
Proof.
  intros (l & H1 & -> & H2) (l' & H1' & -> & H2'). f_equal. apply Permutation_length, NoDup_Permutation; [done..|].
  intros k. by rewrite H2, H2'.
Qed.
Lemma toy_at k : is_Some (toy_main !! k) -> block_at k (toy_pos k).
Proof. refine (set_keys _ _ _ _ _ (toy_setting meta_args _ _) k); [done|by vm_compute]. Qed.
Lemma meta_workload : workload meta_args toy_main ∅ 4.
Proof.
  exists [key_a; key_b; key_c; key_d]. split; [by apply (bool_decide_unpack _); vm_compute|]. split; [done|]. intros k. split.
  - intros Hk. assert (is_Some (toy_main !! k)) as [x Hx] by (revert k Hk; apply Forall_forall; apply (bool_decide_unpack _); by vm_compute).
    exists (toy_pos k), x. split; [apply toy_at; by eexists|]. split; [done|]. split; [|by left].
    exists (V3 (16 * vx (toy_pos k)) (16 * vy (toy_pos k)) (16 * vz (toy_pos k))). split; [|done].
    unfold node_in_block; cbn [vx vy vz]. lia.
  - intros (bp & x & _ & Hx & _). apply toy_keys. by eexists.
Qed.
Lemma toy_keys_ok : keys_ok toy_main.
Proof. intros k Hk. exists (toy_pos k). by apply toy_at. Qed.
Lemma meta_supplied : supplied meta_args.
Proof. done. Qed.
Lemma meta_legal : legal meta_args.
Proof. apply argsb_legal; [apply meta_supplied|by vm_compute]. Qed.
Lemma meta_shown : exists p ls t, behaves p toy_full meta_args toy_world toy_main ∅ /\
  execution [] p ls t /\ ended t /\ shows 4 4 (outs t).
Proof.
  destruct (behaves_ex toy_full meta_args toy_world toy_main ∅) as [p Hp].
  destruct (reaches_end _ _ _ _ _ [] p Hp) as (ls & t & X & He). destruct (meta_done (confirms [])) as [s Hs].
  exists p, ls, t. split; [done|]. split; [done|]. split; [done|].
  destruct (shown_blocks _ _ _ _ _ [] p Hp ls t s) as (n & Hn & H).
  - by intros ??.
  - apply toy_keys_ok.
  - intros k [x Hk]. by rewrite lookup_empty in Hk.
  - apply meta_supplied.
  - apply meta_legal.
  - exact X.
  - by apply He.
  - exact Hs.
  - rewrite meta_log. by exists [(LWarning, MAllMeta); (LInfo, MMeta 3); (LInfo, MSkipped 1); (LInfo, MCommitting)].
  - pose proof (stored_same _ _ _ _ Hn meta_workload) as ->. exact H.
Qed.
