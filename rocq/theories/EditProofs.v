(** Runs of the commands that edit blocks in place, from facts about one block *)
From Verif Require Import SysProofs RunProofs ArgProofs ThreadProofs SpecCmd SpatialProofs MapProofs
  CodecProofs CodecRound BlockProofs QueryProofs UtilsProofs Spec.

Lemma area_ok_args g : supplied g -> legal g -> area_ok (aarea g).
Proof.
  intros [Hn _] (_ & Ha & _). unfold area_ok. destruct (aarea g) as [a|]; [|done].
  split; [by apply Hn|]. specialize (Ha a eq_refl). unfold area_within, within in *. lia.
Qed.

Lemma zsum_bounds {A} (f : A -> Z) l lo hi : lo <= 0 -> 0 <= hi ->
  (forall x, x ∈ l -> lo <= f x <= hi) -> lo * Z.of_nat (length l) <= zsum f l <= hi * Z.of_nat (length l).
Proof.
  intros Hlo Hhi. induction l as [|x l IH]; intros H; simpl; [lia|].
  pose proof (H x ltac:(set_solver)). specialize (IH ltac:(set_solver)). lia.
Qed.

Lemma zsum_filter {A} (f : A -> Z) (P : A -> Prop) `{forall x, Decision (P x)} l :
  (forall x, x ∈ l -> ~ P x -> f x = 0) -> zsum f (filter P l) = zsum f l.
Proof.
  induction l as [|x l IH]; intros Hf; simpl; [done|]. rewrite filter_cons.
  case_decide; simpl; rewrite IH by set_solver; [done|]. rewrite (Hf x); [lia|set_solver|done].
Qed.
Lemma zsum_count {A} (P : A -> Prop) `{forall x, Decision (P x)} l :
  zsum (fun x => if decide (P x) then 1 else 0) l = Z.of_nat (length (filter P l)).
Proof.
  induction l as [|x l IH]; simpl; [done|]. rewrite filter_cons. case_decide; simpl; lia.
Qed.

(** There are at most 2^36 blocks. *)
Lemma map_size_bound (m : mapdata) : keys_ok m -> Z.of_nat (length (map_to_list m)) <= 68719476736.
Proof.
  intros Hk. set (lo := -2048 * (1 + 4096 + 16777216)).
  enough (length ((fun k : Z => (k - lo)%Z) <$> (map_to_list m).*1) <= Z.to_nat 68719476736)%nat as H.
  { rewrite !fmap_length in H. lia. }
  apply NoDup_bounded.
  - apply NoDup_fmap_2; [intros ? ?; lia|]. apply NoDup_fst_map_to_list.
  - apply Forall_forall. intros x (k & -> & Hkm)%elem_of_list_fmap.
    apply elem_of_list_fmap in Hkm as ([k' d] & -> & Hkd). apply elem_of_map_to_list in Hkd. simpl.
    destruct (Hk k' ltac:(by eexists)) as (bp & Hr & ->). unfold key_range, lo in *. lia.
Qed.

Definition is_err {A} (r : res A) : bool := match r with Err _ => true | Ok _ => false end.

Section run.
  Context (E : ext) (W : world) (g : args) (main input : mapdata) (pos : Z -> vec3).
  Context (HS : setting E W g main pos).

  Lemma pos_keys : keys_ok main.
  Proof. intros k Hk. exists (pos k). by apply (set_keys _ _ _ _ _ HS). Qed.

  Lemma total_bounds (f : vec3 -> block -> Z) hi : 0 <= hi ->
    (forall k x b, main !! k = Some x -> deserialize E x = Ok b -> 0 <= f (pos k) b <= hi) ->
    0 <= total E main pos f <= hi * 68719476736.
  Proof.
    intros Hhi H. unfold total. pose proof (map_size_bound main pos_keys) as Hm.
    assert (0 * Z.of_nat (length (map_to_list main)) <=
      zsum (fun kx : Z * bytes => match deserialize E kx.2 with Ok b => f (pos kx.1) b | Err _ => 0 end)
        (map_to_list main) <= hi * Z.of_nat (length (map_to_list main))) as Hz.
    { apply zsum_bounds; [lia|done|]. intros [k x] Hk%elem_of_map_to_list. simpl.
      destruct (deserialize E x) as [b|] eqn:Ed; [by eapply H|lia]. }
    nia.
  Qed.

  Context (late : bool) (names : list bytes) (body : Z -> bytes -> out (edit * counts)).
  Context (cnt : vec3 -> block -> counts) (untouched : vec3 -> block -> Prop).
  Context (R : vec3 -> block -> block -> Prop) (mk : counts -> msg).

  Definition body_fn (k : Z) (x : bytes) : edit * counts :=
    match body k x with Ret r => r | Panic => (ESkip, (0, 0)) end.

  Let sel := row_sel names (aarea g) (invert g) true.
  Let rows := sel_rows names (aarea g) (invert g) true (map_to_list main).

  Lemma sel_iff k x : main !! k = Some x -> sel k x = true <->
    visit (aarea g) (invert g) true (pos k) /\ mentions names x.
  Proof.
    intros Hk. destruct HS as [HE Hfull HW HO Hsup Hleg Hrdy Hkeys].
    apply row_sel_iff; [|by apply area_ok_args]. apply Hkeys. by eexists.
  Qed.

  (** The body fails on unreadable blocks only. *)
  Lemma run_any :
    cmd_func E g = (c ← edit_blocks late names (aarea g) (invert g) true body; log LInfo (mk c)) ->
    (forall k bp x, block_at k bp -> main !! k = Some x -> visit (aarea g) (invert g) true bp ->
       mentions names x ->
       match deserialize E x with
       | Err _ => body k x = Ret (EFail, (0, 0))
       | Ok b => exists e c, e <> EFail /\ body k x = Ret (e, c)
       end) ->
    exists failed,
      run_ok E g W main input (edit_map sel body_fn main)
        (warnings g ++ [(LInfo, mk (u64 (zsum (fun r => (body_fn r.1 r.2).2.1) rows),
                                    u64 (zsum (fun r => (body_fn r.1 r.2).2.2) rows)))] ++
         closing failed) /\
      skipped E main (aarea g) (invert g) names failed.
  Proof.
    intros Hcmd Hbody. destruct HS as [HE Hfull HW HO Hsup Hleg Hrdy Hkeys].
    pose proof (thread_edit E W g main input late names (aarea g) (invert g) true body body_fn mk
      HW HO Hsup Hleg Hrdy) as Hrun. fold sel in Hrun.
    specialize (Hrun ltac:(intros k x Hk Hs; unfold body_fn;
      apply sel_iff in Hs as [Hv Hm]; [|done];
      pose proof (Hbody k (pos k) x (Hkeys k ltac:(by eexists)) Hk Hv Hm) as HB;
      destruct (deserialize E x); [destruct HB as (? & ? & _ & HB)|]; by rewrite HB) Hcmd).
    cbv zeta in Hrun. fold rows in Hrun.
    set (failed := u64 (zsum (fun r => failed1 (body_fn r.1 r.2).1) rows)) in *.
    exists failed. split; [exact Hrun|].
    exists ((filter (fun r : Z * bytes => sel r.1 r.2 = true /\
      is_err (deserialize E r.2) = true) (map_to_list main)).*1).
    split; [|split].
    + apply NoDup_fst_filter, NoDup_fst_map_to_list.
    + unfold failed. rewrite u64_id.
      * rewrite fmap_length, <-zsum_count. symmetry.
        transitivity (zsum (fun x : Z * bytes => if decide (sel x.1 x.2 = true /\
           is_err (deserialize E x.2) = true) then 1 else 0) rows).
        { symmetry. apply zsum_filter. intros x _ Hx. rewrite decide_False; [done|]. intros [? ?]. done. }
        apply zsum_ext. intros [k x] [Hs Hk%elem_of_map_to_list]%elem_of_list_filter. simpl in Hs |- *.
        fold sel in Hs. pose proof Hs as Hs'. apply sel_iff in Hs as [Hv Hm]; [|done].
        pose proof (Hbody k (pos k) x (Hkeys k ltac:(by eexists)) Hk Hv Hm) as HB. unfold body_fn.
        destruct (deserialize E x).
        -- destruct HB as (e & c & He & HB). rewrite HB. rewrite decide_False by (by intros [_ ?]). by destruct e.
        -- rewrite HB. by rewrite decide_True.
      * assert (0 * Z.of_nat (length rows) <=
          zsum (fun r => failed1 (body_fn r.1 r.2).1) rows <= 1 * Z.of_nat (length rows)) as Hz.
        { apply zsum_bounds; [lia|lia|]. intros r _. unfold failed1. destruct (body_fn r.1 r.2).1; lia. }
        assert (length rows <= length (map_to_list main))%nat by apply filter_length.
        pose proof (map_size_bound main pos_keys). lia.
    + intros k. rewrite elem_of_list_fmap. split.
      * intros ([k' x] & -> & [Hs Hk%elem_of_map_to_list]%elem_of_list_filter). simpl in *.
        destruct Hs as [Hs He]. destruct (deserialize E x) eqn:Ed; [done|].
        apply sel_iff in Hs as [Hv Hm]; [|done]. exists (pos k'), x, e. split; [|done].
        apply Hkeys. by eexists.
      * intros (bp & x & e & Hb & Hk & Hv & Hm & Ed). exists (k, x). split; [done|].
        apply elem_of_list_filter. split; [|by apply elem_of_map_to_list]. simpl.
        rewrite Ed. split; [|done]. apply sel_iff; [done|].
        by rewrite (block_at_fun k (pos k) bp (Hkeys k ltac:(by eexists)) Hb).
  Qed.

  (** The same, forgetting about readable blocks. *)
  Lemma run_skips :
    cmd_func E g = (c ← edit_blocks late names (aarea g) (invert g) true body; log LInfo (mk c)) ->
    (forall k bp x, block_at k bp -> main !! k = Some x -> visit (aarea g) (invert g) true bp ->
       mentions names x ->
       match deserialize E x with
       | Err _ => body k x = Ret (EFail, (0, 0))
       | Ok b => exists e c, e <> EFail /\ body k x = Ret (e, c)
       end) ->
    exists main' m failed, run_ok E g W main input main' (warnings g ++ [(LInfo, m)] ++ closing failed) /\
      skipped E main (aarea g) (invert g) names failed /\
      (forall k, is_Some (main' !! k) <-> is_Some (main !! k)) /\
      forall k x e, main !! k = Some x -> deserialize E x = Err e -> main' !! k = Some x.
  Proof.
    intros Hcmd Hbody. destruct (run_any Hcmd Hbody) as (failed & Hrun & Hskip).
    eexists _, _, failed. split; [exact Hrun|]. split; [done|]. split.
    - intros k. rewrite lookup_edit_map. apply fmap_is_Some.
    - intros k x e Hk Hd. rewrite lookup_edit_map, Hk. simpl. f_equal. destruct (sel k x) eqn:Hs; [|done].
      apply sel_iff in Hs as [Hv Hm]; [|done].
      pose proof (Hbody k (pos k) x (set_keys _ _ _ _ _ HS k ltac:(by eexists)) Hk Hv Hm) as HB.
      rewrite Hd in HB. unfold body_fn. by rewrite HB.
  Qed.

  Lemma run_edit_mod :
    cmd_func E g = (c ← edit_blocks late names (aarea g) (invert g) true body; log LInfo (mk c)) ->
    (forall k bp x, block_at k bp -> main !! k = Some x -> visit (aarea g) (invert g) true bp ->
       mentions names x ->
       match deserialize E x with
       | Err _ => body k x = Ret (EFail, (0, 0))
       | Ok b => exists e, e <> EFail /\ body k x = Ret (e, cnt bp b) /\ (untouched bp b -> e = ESkip) /\
           exists b', deserialize E (new_data e x) = Ok b' /\ (untouched bp b \/ norm b' = b') /\ R bp b b'
       end) ->
    (forall k bp x b, block_at k bp -> main !! k = Some x -> deserialize E x = Ok b ->
       ~ (visit (aarea g) (invert g) true bp /\ mentions names x) -> cnt bp b = (0, 0) /\ untouched bp b /\ R bp b b) ->
    edits E W g main input names
      (mk (u64 (total E main pos (fun bp b => (cnt bp b).1)), u64 (total E main pos (fun bp b => (cnt bp b).2))))
      untouched R.
  Proof.
    intros Hcmd Hbody Hskip.
    destruct (run_any Hcmd) as (failed & Hrun & Hsk).
    { intros k bp x Hb Hk Hv Hm. specialize (Hbody k bp x Hb Hk Hv Hm). destruct (deserialize E x); [|done].
      destruct Hbody as (e & He & Hbody & _). by eauto. }
    pose proof (set_keys _ _ _ _ _ HS) as Hkeys.
    assert (forall f : counts -> Z, f (0, 0) = 0 -> zsum (fun r => f (body_fn r.1 r.2).2) rows =
      total E main pos (fun bp b => f (cnt bp b))) as Hsum.
    { intros f Hf. unfold rows, sel_rows. unfold total.
      transitivity (zsum (fun kx : Z * bytes =>
        match deserialize E kx.2 with Ok b => f (cnt (pos kx.1) b) | Err _ => 0 end)
        (filter (fun r => row_sel names (aarea g) (invert g) true r.1 r.2 = true) (map_to_list main))).
      - apply zsum_ext. intros [k x] [Hs Hk%elem_of_map_to_list]%elem_of_list_filter. simpl in Hs |- *.
        apply sel_iff in Hs as [Hv Hm]; [|done].
        pose proof (Hbody k (pos k) x (Hkeys k ltac:(by eexists)) Hk Hv Hm) as HB. unfold body_fn.
        destruct (deserialize E x); [destruct HB as (? & _ & HB & _)|]; by rewrite HB.
      - apply zsum_filter. intros [k x] Hk%elem_of_map_to_list Hs. simpl in Hs |- *.
        destruct (deserialize E x) as [b|] eqn:Ed; [|done].
        destruct (Hskip k (pos k) x b (Hkeys k ltac:(by eexists)) Hk Ed) as [-> _]; [|done].
        intros H. apply Hs, sel_iff; done. }
    rewrite (Hsum fst), (Hsum snd) in Hrun by done.
    eexists _, failed. split; [exact Hrun|]. split; [done|]. split.
    - intros k Hk. by rewrite lookup_edit_map, Hk.
    - intros k bp x Hb Hk. rewrite lookup_edit_map, Hk. simpl. eexists. split; [done|].
      assert (pos k = bp) as Hp by (eapply block_at_fun; [apply Hkeys; by eexists|done]).
      destruct (sel k x) eqn:Hs.
      + apply sel_iff in Hs as [Hv Hm]; [|done]. rewrite Hp in Hv.
        pose proof (Hbody k bp x Hb Hk Hv Hm) as HB. unfold body_fn.
        destruct (deserialize E x) as [b|] eqn:Ed.
        * destruct HB as (e & _ & HB & Hu & b' & Hd & Hcan & HR). rewrite HB. simpl. split.
          -- intros Hun. by rewrite Hu.
          -- exists b'. split; [done|]. by split.
        * by rewrite HB.
      + destruct (deserialize E x) as [b|] eqn:Ed; [|done]. split; [done|]. exists b. split; [done|].
        destruct (Hskip k bp x b Hb Hk Ed) as (_ & Hu & HR); [|split; [by left|done]].
        intros H. rewrite <-Hp in H. apply sel_iff in H; congruence.
  Qed.

  Lemma run_edit :
    cmd_func E g = (c ← edit_blocks late names (aarea g) (invert g) true body; log LInfo (mk c)) ->
    (forall k bp x, block_at k bp -> main !! k = Some x -> visit (aarea g) (invert g) true bp ->
       mentions names x ->
       match deserialize E x with
       | Err _ => body k x = Ret (EFail, (0, 0))
       | Ok b => exists e, e <> EFail /\ body k x = Ret (e, cnt bp b) /\ (untouched bp b -> e = ESkip) /\
           exists b', deserialize E (new_data e x) = Ok b' /\ (untouched bp b \/ norm b' = b') /\ R bp b b'
       end) ->
    (forall k bp x b, block_at k bp -> main !! k = Some x -> deserialize E x = Ok b ->
       ~ (visit (aarea g) (invert g) true bp /\ mentions names x) -> cnt bp b = (0, 0) /\ untouched bp b /\ R bp b b) ->
    0 <= total E main pos (fun bp b => (cnt bp b).1) < 18446744073709551616 ->
    0 <= total E main pos (fun bp b => (cnt bp b).2) < 18446744073709551616 ->
    edits E W g main input names
      (mk (total E main pos (fun bp b => (cnt bp b).1), total E main pos (fun bp b => (cnt bp b).2)))
      untouched R.
  Proof.
    intros Hcmd Hbody Hskip Hb1 Hb2. pose proof (run_edit_mod Hcmd Hbody Hskip) as H.
    rewrite !u64_id in H by done. exact H.
  Qed.
End run.
