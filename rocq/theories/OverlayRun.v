(** Runs of overlay without offset *)
From Verif Require Import SysProofs RunProofs ArgProofs ThreadProofs SpatialProofs MapProofs CodecProofs
  BlockProofs QueryProofs UtilsProofs EditProofs BodyProofs MixProofs FragProofs CopyProofs CopyRun SpecCopy Spec.

(** ** Positions *)
Section position.
  Context (a : option area) (inv : bool) (bp : vec3) (Hk : key_range bp) (Ha : area_ok a).

  Definition wholeb : bool :=
    match a with
    | Some a => (negb inv && contains_block a bp) || (inv && negb (touches_block a bp))
    | None => true
    end.

  Lemma corner_in : node_in_block bp (block_corner bp).
  Proof. clear. unfold node_in_block, block_corner; simpl. lia. Qed.

  Lemma wholeb_iff : wholeb = true <-> whole a inv bp.
  Proof.
    assert (within 100000000 bp) as Hw by (unfold key_range, within in *; lia).
    unfold wholeb, whole, selected. destruct a as [c|]; [|done]. destruct Ha as [Hne _].
    destruct inv; simpl.
    - rewrite negb_true_iff. split.
      + intros Ht q Hq Hin. assert (touches_block c bp = true) as H by (apply touches_block_iff; [done|done|by exists q]). congruence.
      + intros H. destruct (touches_block c bp) eqn:E; [|done]. apply touches_block_iff in E as (q & Hq & Hi); [|done..].
        by destruct (H q Hq).
    - rewrite orb_false_r. by apply contains_block_iff.
  Qed.
  Lemma wholeb_false : wholeb = false <-> ~ whole a inv bp.
  Proof. rewrite <-wholeb_iff. destruct wholeb; naive_solver. Qed.

  Lemma visit_none : visit a inv true bp <-> ~ none a inv bp.
  Proof.
    unfold none. split.
    - intros (q & Hq & Hs) Hn. by apply (Hn q).
    - intros Hn. pose proof (row_sel_iff [] a inv true (key_of bp) bp [] ltac:(by split) Ha) as Hr.
      destruct (row_sel [] a inv true (key_of bp) []); [by apply Hr|].
      destruct Hn. intros q Hq Hs. enough (false = true) by done. apply Hr. split; [by exists q|]. by left.
  Qed.

  (** Partly selected blocks overlap the area. *)
  Lemma part_box : wholeb = false -> visit a inv true bp -> exists c part, a = Some c /\
    rel_block_overlap c bp = Some part /\ box_ok part /\
    forall i, 0 <= i < 4096 -> inside part (idx_pos i) <-> inside c (abs_pos bp i).
  Proof.
    intros Hw Hv. unfold wholeb, visit, selected in *. destruct a as [c|]; [|done]. destruct Ha as [Hne Haw].
    assert (within 50000000 bp) as Hb by (unfold key_range, within in *; lia).
    assert (within 100000000 bp) as Hb2 by (unfold key_range, within in *; lia).
    assert (area_within 1000000000 c) as Hac by by apply area_ok_big.
    exists c. destruct (rel_block_overlap c bp) as [part|] eqn:Ep.
    - exists part. destruct (rel_overlap_Some c bp part Hb Hac Ep) as (Hpn & Hc & Hin).
      split; [done|]. split; [done|]. split; [by split|].
      intros i Hi. rewrite Hin. unfold abs_pos. pose proof (idx_pos_cube i Hi). tauto.
    - apply rel_overlap_None in Ep; [|done..]. destruct inv.
      + simpl in Hw. destruct (touches_block c bp) eqn:Et; [|done].
        apply touches_block_iff in Et as (q & ? & ?); [|done..]. destruct Ep. by exists q.
      + destruct Hv as (q & ? & ?). destruct Ep. by exists q.
  Qed.
End position.

Section block.
  Context (E : ext) (HE : ext_ok E) (Hfull : full_writes E).
  Context (main input : mapdata) (a : option area) (inv : bool) (Ha : area_ok a).
  Context {nd ns : Z} (Hroom : room (V3 0 0 0) nd ns) (Hmain : blocks E main (sound nd)) (Hinp : blocks E input (sound ns)).

  Definition box_mix (bp : vec3) (sb b : block) : out block :=
    match a with
    | None => Panic
    | Some a => let* part := unwrap (rel_block_overlap a bp) in
                if inv then overlay_box b sb part else overlay_box sb b part
    end.

  Lemma box_mix_ok k k' x y bp sb b : key_range bp -> wholeb a inv bp = false -> visit a inv true bp ->
    input !! k = Some x -> deserialize E x = Ok sb -> main !! k' = Some y -> deserialize E y = Ok b ->
    exists c d b', box_mix bp sb b = Ret c /\ (let* c' := clean_name_id_map c in serialize E c') = Ret d /\
      deserialize E d = Ok b' /\ mixed a inv bp sb b b'.
  Proof.
    intros Hk Hw Hv Hx Hdx Hy Hdy.
    destruct (part_box a inv bp Hk Ha Hw Hv) as (ar & part & Ea & Ep & Hbox & Hin).
    assert (good ns sb) as Hgs by (apply sound_good; [by eapply deserialize_wf|by eapply Hinp]).
    assert (good nd b) as Hgb by (apply sound_good; [by eapply deserialize_wf|by eapply Hmain]).
    unfold box_mix. rewrite Ea, Ep. cbn [unwrap bindO].
    set (over := if inv then b else sb). set (under := if inv then sb else b).
    assert ((if inv then overlay_box b sb part else overlay_box sb b part) = mix over under part part) as ->
      by by destruct inv.
    destruct Hroom as (Hnd0 & Hns0 & Hfit). change (pieces (V3 0 0 0)) with 1 in Hfit.
    destruct (mix_ok over under part part (if inv then nd else ns) (if inv then ns else nd)) as (c & Ec & Hgc & Hr & Hn);
      [by destruct inv|by destruct inv|done|done|done|destruct inv; lia..|].
    assert (good 65534 c) as Hgc' by (eapply good_upto; [|exact Hgc]; destruct inv; lia).
    destruct (stored_mix E under c HE Hfull Hgc' Hr) as (d & b' & Ed & Ed' & Hrest & _ & Htidy & Hcan & Hsn).
    exists c, d, b'. split; [done|]. split; [done|]. split; [done|]. split; [exact Hrest|]. split; [exact Htidy|]. split; [exact Hcan|].
    intros i Hi. specialize (Hn i Hi). unfold over, under in *.
    assert (matching part part (idx_pos i) = i) as Hmi.
    { unfold matching. replace (plus _ _) with (idx_pos i); [apply pos_idx_pos; lia|].
      destruct (idx_pos i). unfold plus, minus; simpl. f_equal; lia. }
    rewrite Hmi in Hn. pose proof (Hin i Hi) as Hii.
    destruct (decide (selected (Some ar) inv (abs_pos bp i))) as [Hs|Hs]; unfold selected in Hs;
      destruct (decide (inside part (idx_pos i))) as [Hp|Hp]; apply Hsn; destruct inv; try done; tauto.
  Qed.

  Definition ovl (k : Z) : option bytes :=
    match input !! k with
    | None => main !! k
    | Some x =>
      if wholeb a inv (from_block_key k) then
        if is_valid_generated E x then Some x else main !! k
      else
        match Commands.keep (is_valid_generated E) (main !! k) with
        | None => main !! k
        | Some y =>
          match deserialize E x, deserialize E y with
          | Ok sb, Ok b =>
            match (let* c := box_mix (from_block_key k) sb b in let* c' := clean_name_id_map c in serialize E c') with
            | Ret d => Some d
            | Panic => Some y
            end
          | _, _ => Some y
          end
        end
    end.
  Definition ovl_fl (k : Z) : Z :=
    match input !! k with
    | None => 0
    | Some x =>
      if wholeb a inv (from_block_key k) then 0 else
      match Commands.keep (is_valid_generated E) (main !! k) with
      | None => 0
      | Some y => match deserialize E x, deserialize E y with Ok _, Ok _ => 0 | _, _ => 1 end
      end
    end.

  Context (W : world) (HW : no_faults W).
  Context (d : mapdata) (i : mapdb) (h : bool) (t : list (log_type * msg)) (Hr : reading i input).

  Lemma h_put k m' x u : 0 <= blocks_failed u < 18446744073709551616 -> ovl k = Some x -> ovl_fl k = 0 ->
    hoare W (st d m' i h u t) (r2 ← set_block Main k x; unwrapD r2)
      (fun _ s => exists u'' m'', blocks_failed u'' = u64 (blocks_failed u + ovl_fl k) /\
         (forall k2, m'' !! k2 = if decide (k2 = k) then ovl k else m' !! k2) /\ st d m'' i h u'' t s) never.
  Proof.
    intros Hu Ho Hf. eapply h_bind; [by apply h_set_block|]. intros r. cbn beta.
    eapply h_weaken with (P := fun s => r = DOk tt /\ st d (<[k := x]> m') i h u t s); [|tauto].
    apply h_pre. intros ->. apply h_ret. intros s Hs. exists u, (<[k := x]> m').
    split; [by rewrite Hf, Z.add_0_r, u64_id|]. split; [|done].
    intros k2. rewrite Ho. case_decide; [subst; by rewrite lookup_insert|by rewrite lookup_insert_ne].
  Qed.
  Lemma h_stay k m' u : 0 <= blocks_failed u < 18446744073709551616 -> m' !! k = ovl k -> ovl_fl k = 0 ->
    hoare W (st d m' i h u t) (mret tt)
      (fun _ s => exists u'' m'', blocks_failed u'' = u64 (blocks_failed u + ovl_fl k) /\
         (forall k2, m'' !! k2 = if decide (k2 = k) then ovl k else m' !! k2) /\ st d m'' i h u'' t s) never.
  Proof.
    intros Hu Ho Hf. apply h_ret. intros s Hs. exists u, m'.
    split; [by rewrite Hf, Z.add_0_r, u64_id|]. split; [|done]. intros k2. by case_decide; subst.
  Qed.

  Lemma h_overlay_step k x m' u tt0 : input !! k = Some x -> m' !! k = main !! k ->
    block_at k (from_block_key k) -> visit a inv true (from_block_key k) ->
    0 <= blocks_failed u < 18446744073709551616 ->
    hoare W (st d m' i h u t) (overlay_step E a inv tt0 k)
      (fun _ s => exists u'' m'', blocks_failed u'' = u64 (blocks_failed u + ovl_fl k) /\
         (forall k2, m'' !! k2 = if decide (k2 = k) then ovl k else m' !! k2) /\ st d m'' i h u'' t s) never.
  Proof.
    intros Hx Hk Hb Hv Hu. unfold overlay_step.
    eapply h_bind; [apply h_inc_done|]. intros ?. cbn beta.
    apply h_ex. intros u1. eapply h_weaken with (P := fun s => blocks_failed u1 = blocks_failed u /\ st d m' i h u1 t s); [|tauto].
    apply h_pre. intros Hu1. rewrite <-Hu1 in Hu |- *.
    assert (wholeb a inv (from_block_key k) = true ->
      hoare W (st d m' i h u1 t) (copy_whole E k)
      (fun _ s => exists u'' m'', blocks_failed u'' = u64 (blocks_failed u1 + ovl_fl k) /\
         (forall k2, m'' !! k2 = if decide (k2 = k) then ovl k else m' !! k2) /\ st d m'' i h u'' t s) never) as Hwhole.
    { intros Hw. unfold copy_whole.
      eapply h_bind; [apply h_get_any with (im := input) (w := Input); [done|by left]|]. intros r. cbn beta.
      apply h_pre. cbn [seen]. rewrite Hx. intros ->. cbn [unwrapD]. apply h_ret_bind.
      assert (ovl_fl k = 0) as Hf by (unfold ovl_fl; by rewrite Hx, Hw).
      destruct (is_valid_generated E x) eqn:Eg.
      - apply h_put; [done| |done]. unfold ovl. by rewrite Hx, Hw, Eg.
      - apply h_stay; [done| |done]. unfold ovl. by rewrite Hx, Hw, Eg. }
    assert (forall c, a = Some c -> wholeb a inv (from_block_key k) = false ->
      hoare W (st d m' i h u1 t) (overlay_part E c inv k)
      (fun _ s => exists u'' m'', blocks_failed u'' = u64 (blocks_failed u1 + ovl_fl k) /\
         (forall k2, m'' !! k2 = if decide (k2 = k) then ovl k else m' !! k2) /\ st d m'' i h u'' t s) never) as Hpart.
    { intros c Ec Hw. unfold overlay_part.
      eapply h_bind; [apply h_get_any with (im := input) (w := Main); [done|by left]|]. intros r. cbn beta.
      apply h_pre. cbn [seen]. rewrite Hk. intros ->.
      assert (okD (match main !! k with Some x => DOk x | None => DErr MissingData end) = main !! k) as ->
        by by destruct (main !! k).
      assert (ovl k = match Commands.keep (is_valid_generated E) (main !! k) with
        | None => main !! k
        | Some y =>
          match deserialize E x, deserialize E y with
          | Ok sb, Ok b =>
            match (let* c := box_mix (from_block_key k) sb b in let* c' := clean_name_id_map c in serialize E c') with
            | Ret d => Some d
            | Panic => Some y
            end
          | _, _ => Some y
          end
        end) as Ho by (unfold ovl; by rewrite Hx, Hw).
      assert (ovl_fl k = match Commands.keep (is_valid_generated E) (main !! k) with
      | None => 0
      | Some y => match deserialize E x, deserialize E y with Ok _, Ok _ => 0 | _, _ => 1 end
      end) as Hf by (unfold ovl_fl; by rewrite Hx, Hw).
      destruct (Commands.keep (is_valid_generated E) (main !! k)) as [y|] eqn:Ek.
      2: { apply h_stay; congruence. }
      assert (main !! k = Some y) as Hy.
      { unfold Commands.keep in Ek. destruct (main !! k) as [y'|]; [|done]. destruct (is_valid_generated E y'); by inv Ek. }
      eapply h_bind; [apply h_get_any with (im := input) (w := Input); [done|by left]|]. intros r. cbn beta.
      apply h_pre. cbn [seen]. rewrite Hx. intros ->. cbn [unwrapD]. apply h_ret_bind.
      assert (ovl k = Some y -> ovl_fl k = 1 -> hoare W (st d m' i h u1 t) inc_failed
        (fun _ s => exists u'' m'', blocks_failed u'' = u64 (blocks_failed u1 + ovl_fl k) /\
         (forall k2, m'' !! k2 = if decide (k2 = k) then ovl k else m' !! k2) /\ st d m'' i h u'' t s) never) as Hfail.
      { intros Ho1 Hf1. eapply h_post; [apply h_inc_failed|]. intros ? s (u' & Hs & Hu'). exists u', m'.
        rewrite Hf1. split; [done|]. split; [|done]. intros k2. rewrite Ho1. case_decide; [subst; congruence|done]. }
      destruct (deserialize E x) as [sb|e] eqn:Ex; [|by apply Hfail].
      destruct (deserialize E y) as [b|e] eqn:Ey; [|by apply Hfail].
      destruct (box_mix_ok k k x y (from_block_key k) sb b) as (cc & dd & b' & Emix & Ed & _); [by destruct Hb|done..|].
      assert (ovl k = Some dd) as Ho' by (rewrite Ho, Emix; cbn [bindO]; by rewrite Ed).
      unfold box_mix in Emix. rewrite Ec in Emix.
      eapply h_lift_bind; [exact Emix|].
      unfold clean_write. eapply h_lift_bind; [exact Ed|]. by apply h_put. }
    unfold wholeb in Hwhole, Hpart. destruct a as [c|]; [|by apply Hwhole].
    destruct (_ || _); [by apply Hwhole|by apply Hpart].
  Qed.
End block.

Section run.
  Context (E : ext) (W : world) (g : args) (main input : mapdata) (pos : Z -> vec3).
  Context (HS : setting E W g main pos) (Hin : keys_ok input).

  Lemma overlay_run : acmd g = COverlay -> default (V3 0 0 0) (offset g) = V3 0 0 0 -> roomy E g main input ->
    overlays E W g main input.
  Proof.
    intros Hcmd Eo (n & ns & Hroom & Hmain & Hinp). rewrite Eo in Hroom.
    destruct HS as [HE Hfull HW HO Hsup Hleg Hrdy _].
    pose proof (area_ok_args g Hsup Hleg) as Ha.
    assert (is_Some (input_map_path g)) as Hip by (destruct Hsup as [_ H]; by rewrite Hcmd in H).
    assert (has_input g = true /\ reading (idb_opened g input) input) as [Hhas Hread].
    { unfold has_input, idb_opened, reading. by destruct Hip as [? ->]. }
    assert (forall k x, input !! k = Some x -> block_at k (from_block_key k)) as Hat.
    { intros k x Hx. destruct (Hin k ltac:(by eexists)) as [bp Hb]. by destruct (block_at_key k bp Hb) as [_ ->]. }
    set (ov := ovl E main input (aarea g) (invert g)). set (fo := ovl_fl E main input (aarea g) (invert g)).
    destruct (thread_run W HW E g main input (fun u m' l => l = [] /\ exists keys, NoDup keys /\
      Z.of_nat (length keys) <= 68719476736 /\
      (forall k, k ∈ keys <-> exists x, input !! k = Some x /\ visit (aarea g) (invert g) true (from_block_key k)) /\
      so_far main ov keys m' /\ blocks_failed u = u64 (0 + zsum fo keys)))
      as (u & m' & l & (-> & keys & Hnd & Hlen & Hk & Hm' & Hu) & Hrun); [done..| |].
    - intros t. unfold cmd_func. rewrite Hcmd. unfold overlay. rewrite Eo. rewrite bool_decide_true by done.
      unfold overlay_no_offset.
      eapply h_bind; [apply h_has|]. intros hh. cbn beta. apply h_pre. intros ->. rewrite Hhas. apply h_ret_bind.
      eapply h_bind; [apply h_query with (im := input); [done|done|by left]|]. intros keys. cbn beta.
      cbn [seen].
      eapply h_weaken with (P := fun s => (exists rs, row_list W input rs /\
        keys = (sel_rows [] (aarea g) (invert g) true rs).*1) /\
        st main main (idb_opened g input) true (with_total status_new (Z.of_nat (length keys)) Ignore) t s); [|tauto].
      apply h_pre. intros (rs & [Hp _] & Ekeys).
      assert (NoDup keys) as Hnd.
      { rewrite Ekeys. unfold sel_rows. apply NoDup_fst_filter. rewrite Hp. apply NoDup_fst_map_to_list. }
      assert (forall k, k ∈ keys <-> exists x, input !! k = Some x /\ visit (aarea g) (invert g) true (from_block_key k)) as Hk.
      { intros k. rewrite Ekeys. unfold sel_rows. rewrite elem_of_list_fmap. split.
        - intros ([k' x] & -> & [Hs Hi]%elem_of_list_filter). rewrite Hp in Hi. apply elem_of_map_to_list in Hi.
          exists x. split; [done|]. cbn [fst snd] in Hs |- *.
          apply (row_sel_iff [] (aarea g) (invert g) true k' (from_block_key k') x) in Hs as [Hs _]; [done|by eapply Hat|done].
        - intros (x & Hx & Ht). exists (k, x). split; [done|]. apply elem_of_list_filter. split.
          + simpl. apply (row_sel_iff [] (aarea g) (invert g) true k (from_block_key k) x); [by eapply Hat|done|].
            split; [done|]. by left.
          + rewrite Hp. by apply elem_of_map_to_list. }
      assert (Z.of_nat (length keys) <= 68719476736) as Hlen.
      { rewrite Ekeys. unfold sel_rows. rewrite fmap_length. pose proof (map_size_bound input Hin) as Hms. rewrite <-Hp in Hms.
        match goal with |- Z.of_nat (length (filter ?P rs)) <= _ => pose proof (filter_length P rs) end. lia. }
      eapply h_bind; [apply h_set_state|]. intros ?. cbn beta.
      eapply h_bind.
      { apply h_key_loop with (I := fun _ _ => True) (upd := ov) (fl := fo); [done|done|simpl; lia|].
        intros ks k rest c m' u' El' Hkn Hc Hsf Hu'.
        assert (k ∈ keys) as Hki by (rewrite El'; set_solver).
        apply Hk in Hki as (x & Hx & Ht). pose proof (Hat k x Hx) as Hb.
        eapply h_post.
        - apply (h_overlay_step E HE Hfull main input (aarea g) (invert g) Ha Hroom Hmain Hinp W HW) with (x := x); try done.
          rewrite Hsf. by rewrite decide_False.
        - intros ? s Hs. split; [done|]. exact Hs. }
      intros ?. cbn beta. apply h_ex. intros u. apply h_ex. intros m'. apply h_pre. intros Hu. apply h_pre. intros Hsf.
      eapply h_post; [apply h_set_state|]. intros ? s Hs. eexists _, m', []. rewrite app_nil_r. split; [|exact Hs].
      split; [done|]. exists keys. split; [done|]. split; [done|]. split; [done|].
      split; [done|]. simpl in Hu |- *. rewrite Hu. done.
    - exists m', (blocks_failed u). split; [exact Hrun|].
      assert (forall k, fo k = 0 \/ fo k = 1) as Hfl.
      { intros k. unfold fo, ovl_fl. destruct (input !! k); [|by left]. destruct (wholeb _ _ _); [by left|].
        destruct (Commands.keep _ _); [|by left]. repeat destruct (deserialize _ _); auto. }
      split; [|split].
      + exists (filter (fun k => fo k = 1) keys). split; [by apply NoDup_filter|]. split.
        * rewrite <-zsum_count, Hu.
          assert (zsum (fun x => if decide (fo x = 1) then 1 else 0) keys = zsum fo keys) as ->.
          { apply zsum_ext. intros k _. destruct (Hfl k) as [->| ->]; done. }
          apply u64_id.
          pose proof (zsum_bounds fo keys 0 1 ltac:(lia) ltac:(lia) ltac:(intros k _; destruct (Hfl k); lia)). lia.
        * intros k. rewrite elem_of_list_filter, Hk. split.
          -- intros [Hf (x & Hx & Hv)]. pose proof (Hat k x Hx) as Hb. pose proof (proj1 Hb) as Hr.
             unfold fo, ovl_fl in Hf. rewrite Hx in Hf.
             destruct (wholeb _ _ _) eqn:Ew; [done|]. apply (wholeb_false _ _ _ Hr Ha) in Ew.
             unfold Commands.keep in Hf. destruct (main !! k) as [y|] eqn:Ey; [|done].
             destruct (is_valid_generated E y) eqn:Eg; [|done]. apply claims_iff in Eg.
             exists (from_block_key k), x, y. split; [done|]. split; [done|]. split; [done|]. split; [done|].
             split; [by apply visit_none|]. split; [done|].
             destruct (deserialize E x); [|left; by eexists]. destruct (deserialize E y); [done|right; by eexists].
          -- intros (bp & x & y & Hb & Hx & Hy & Hw & Hn & Hg & He).
             destruct (block_at_key k bp Hb) as [Hr Hbp]. apply (visit_none _ _ _ Hr Ha) in Hn.
             apply (wholeb_false _ _ _ Hr Ha) in Hw. apply claims_iff in Hg.
             split; [|exists x; by rewrite Hbp]. unfold fo, ovl_fl. rewrite Hx, Hbp, Hw, Hy. unfold Commands.keep. rewrite Hg.
             destruct He as [[e ->]|[e ->]]; [done|]. by destruct (deserialize E x).
      + intros k Hx. rewrite Hm'. rewrite decide_False; [done|]. intros (x & Hx' & _)%Hk. congruence.
      + intros k bp x Hb Hx. destruct (block_at_key k bp Hb) as [Hr Hbp].
        pose proof (Hm' k) as Hmk. unfold overlaid.
        assert (decide (k ∈ keys) = decide (k ∈ keys)) as _ by done.
        assert (none (aarea g) (invert g) bp -> m' !! k = main !! k) as Hnone.
        { intros Hn. rewrite decide_False in Hmk; [done|]. intros (x' & _ & Hv)%Hk. rewrite Hbp in Hv.
          by apply (visit_none _ _ _ Hr Ha) in Hv. }
        assert (~ none (aarea g) (invert g) bp -> m' !! k = ov k) as Hsome.
        { intros Hn. rewrite decide_True in Hmk; [done|]. apply Hk. exists x. split; [done|]. rewrite Hbp.
          by apply visit_none. }
        assert (whole (aarea g) (invert g) bp -> ~ none (aarea g) (invert g) bp) as Hwn.
        { intros Hw Hn. apply (Hn (block_corner bp)); [apply corner_in|]. apply Hw, corner_in. }
        split; [|split; [|split; [done|]]].
        * intros Hw Hg. rewrite Hsome by auto. unfold ov, ovl. rewrite Hx, Hbp.
          rewrite (proj2 (wholeb_iff _ _ _ Hr Ha) Hw). apply claims_iff in Hg. by rewrite Hg.
        * intros Hw Hg. rewrite Hsome by auto. unfold ov, ovl. rewrite Hx, Hbp.
          rewrite (proj2 (wholeb_iff _ _ _ Hr Ha) Hw). apply claims_false in Hg. by rewrite Hg.
        * intros Hw Hn. rewrite Hsome by auto. pose proof (proj2 (wholeb_false _ _ _ Hr Ha) Hw) as Hwb.
          unfold ov, ovl. rewrite Hx, Hbp, Hwb. destruct (main !! k) as [y|] eqn:Ey; [|done]. unfold Commands.keep. split.
          -- intros Hg. apply claims_false in Hg. by rewrite Hg.
          -- intros Hg. apply claims_iff in Hg. rewrite Hg.
             destruct (deserialize E x) as [sb|] eqn:Ex; [|done]. destruct (deserialize E y) as [b|] eqn:Eyd; [|done].
             destruct (box_mix_ok E HE Hfull main input (aarea g) (invert g) Ha Hroom Hmain Hinp k k x y bp sb b)
               as (cc & dd & b' & Emix & Ed & Ed' & Hmx); [done|done|by apply visit_none|done..|].
             exists dd, b'. rewrite Emix. cbn [bindO]. by rewrite Ed.
  Qed.
End run.
