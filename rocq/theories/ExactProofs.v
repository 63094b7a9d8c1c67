(** Coordinate computations do not overflow *)
From Verif Require Import Spatial BlockUtils Commands SpatialProofs SpecExact Spec.

Ltac coords := repeat match goal with
  | v : vec3 |- _ => destruct v
  | a : area |- _ => destruct a
  end.
Ltac exact_ := unfold accepted_area, accepted_offset, area_within, within, key_range, nonempty, inside, i32_ok in *;
  coords; cbn -[Z.mul Z.add Z.sub Z.div w32] in *.

Lemma if_any_spec a : filter_valid a = if_any a.
Proof.
  unfold filter_valid, if_any, area_valid. destruct (decide (nonempty a)) as [H|H]; unfold nonempty in H;
    coords; cbn in *; destruct (_ && _ && _) eqn:E; try done; lia.
Qed.
Lemma w32e z : -2147483648 <= z < 2147483648 -> w32 z = z.
Proof. apply w32_id. Qed.

Ltac w32s := repeat match goal with |- context [w32 ?z] => rewrite (w32e z) by lia end.
Ltac eqs := w32s; try done; try lia; repeat (f_equal; try lia).

Lemma corner_exact bp : within 1000000 bp -> vmuls bp 16 = block_corner bp.
Proof. intros H. unfold vmuls, vmap, block_corner. exact_. eqs. Qed.
Lemma add_exact a o : area_within 1000000 a -> within 1000000 o -> area_add a o = moved a o.
Proof. intros H Ho. unfold area_add, vadd, moved, plus. exact_. eqs. Qed.
Lemma sub_exact a o : area_within 1000000 a -> within 1000000 o -> area_sub a o = moved_back a o.
Proof. intros H Ho. unfold area_sub, vsub, moved_back, minus. exact_. eqs. Qed.
Lemma touching_exact a : to_touching_block_area a = touched_blocks a.
Proof. done. Qed.
Lemma contained_exact a : area_within 1000000 a -> to_contained_block_area a = if_any (contained_blocks a).
Proof.
  intros H. unfold to_contained_block_area. rewrite if_any_spec. f_equal.
  unfold contained_blocks, vmap. exact_. eqs.
Qed.
Lemma abs_exact a bp : area_within 1000000 a -> within 100000 bp ->
  abs_block_overlap a bp = if_any (meet a (cube bp)).
Proof.
  intros H Hb. unfold abs_block_overlap. rewrite if_any_spec. f_equal.
  unfold meet, cube, vmuls, vadds, vmap, block_corner. exact_. w32s. eqs.
Qed.
Lemma rel_exact a bp : area_within 1000000 a -> within 100000 bp ->
  rel_block_overlap a bp =
  if_any (meet (moved_back a (block_corner bp)) (Area (V3 0 0 0) (V3 15 15 15))).
Proof.
  intros H Hb. unfold rel_block_overlap. rewrite if_any_spec. f_equal.
  unfold meet, moved_back, minus, vsub, vmuls, vmap, block_corner. exact_. w32s. eqs.
Qed.
Lemma volume_exact a : nonempty a -> area_within 1000 a -> volume a = extent a.
Proof.
  intros Hn H. apply volume_eq; [done|]. unfold area_within, within in *. lia.
Qed.

Lemma moved_within a o : accepted_area a -> accepted_offset o -> area_within 93000 (moved a o).
Proof. intros [_ H] Ho. unfold moved, plus. exact_. lia. Qed.
Lemma key_within bp : key_range bp -> within 2048 bp.
Proof. intros H. exact_. lia. Qed.
Lemma within_mono k k' p : k <= k' -> within k p -> within k' p.
Proof. intros Hk H. exact_. lia. Qed.
Lemma area_within_mono k k' a : k <= k' -> area_within k a -> area_within k' a.
Proof. intros Hk [H H']. split; by eapply within_mono. Qed.

Lemma query_exact a o : accepted_area a -> accepted_offset o ->
  area_add a o = moved a o /\
  to_touching_block_area (area_add a o) = touched_blocks (moved a o) /\
  to_contained_block_area (area_add a o) = if_any (contained_blocks (moved a o)).
Proof.
  intros Ha Ho. pose proof (moved_within a o Ha Ho) as Hm.
  rewrite add_exact by (first [eapply area_within_mono, Ha|eapply within_mono, Ho]; lia).
  split; [done|]. split; [done|]. apply contained_exact. eapply area_within_mono, Hm. lia.
Qed.
Lemma block_exact a o bp : accepted_area a -> accepted_offset o -> key_range bp ->
  vmuls bp 16 = block_corner bp /\ vadds (vmuls bp 16) 15 = amax (cube bp) /\
  abs_block_overlap (moved a o) bp = if_any (meet (moved a o) (cube bp)) /\
  rel_block_overlap (moved a o) bp =
    if_any (meet (moved_back (moved a o) (block_corner bp)) (Area (V3 0 0 0) (V3 15 15 15))) /\
  (contains_block (moved a o) bp = true <-> forall q, node_in_block bp q -> inside (moved a o) q) /\
  (touches_block (moved a o) bp = true <-> exists q, node_in_block bp q /\ inside (moved a o) q).
Proof.
  intros Ha Ho Hb. pose proof (moved_within a o Ha Ho) as Hm. pose proof (key_within bp Hb) as Hk.
  rewrite corner_exact by (eapply within_mono, Hk; lia).
  split; [done|]. split.
  { unfold vadds, vmap, block_corner, cube. exact_. eqs. }
  split; [apply abs_exact; [eapply area_within_mono, Hm|eapply within_mono, Hk]; lia|].
  split; [apply rel_exact; [eapply area_within_mono, Hm|eapply within_mono, Hk]; lia|].
  split.
  - apply contains_block_iff. eapply within_mono, Hk. lia.
  - apply touches_block_iff; [eapply within_mono, Hk; lia|].
    destruct Ha as [Hn _]. clear - Hn. unfold moved, plus. exact_. lia.
Qed.
Lemma node_exact bp i : key_range bp -> 0 <= i < 4096 ->
  vadd (from_u16_key i) (vmuls bp 16) = abs_pos bp i.
Proof.
  intros Hb Hi. rewrite corner_exact by (eapply within_mono, key_within, Hb; lia).
  unfold abs_pos, plus, vadd. rewrite from_u16_key_idx by lia. unfold idx_pos, block_corner.
  exact_. eqs.
Qed.
Lemma index_exact p : inside (Area (V3 0 0 0) (V3 15 15 15)) p -> pos_index p = pos_idx p.
Proof. intros H. unfold pos_index, pos_idx. exact_. eqs. Qed.
Lemma volume_part a : nonempty a -> inside (Area (V3 0 0 0) (V3 15 15 15)) (amin a) ->
  inside (Area (V3 0 0 0) (V3 15 15 15)) (amax a) -> volume a = extent a.
Proof. intros Hn Hi Ha. apply volume_exact; [done|]. exact_. lia. Qed.

Lemma copy_exact o bp part : accepted_offset o -> key_range bp -> nonempty part ->
  (forall p, inside part p -> node_in_block bp p) ->
  area_sub part o = moved_back part o /\
  to_touching_block_area (moved_back part o) = touched_blocks (moved_back part o) /\
  forall sp f, inside (touched_blocks (moved_back part o)) sp ->
    meet (moved_back part o) (cube sp) = f -> nonempty f ->
    abs_block_overlap (moved_back part o) sp = Some f /\
    area_sub f (vmuls sp 16) = moved_back f (block_corner sp) /\
    area_add f o = moved f o /\
    rel_block_overlap (moved f o) bp = Some (moved_back (moved f o) (block_corner bp)) /\
    idx_diff (moved_back f (block_corner sp)) (moved_back (moved f o) (block_corner bp)) =
      pos_idx (minus (plus (amin f) o) (block_corner bp)) - pos_idx (minus (amin f) (block_corner sp)).
Proof.
  intros Ho Hb Hn Hin.
  assert (area_within 40000 part /\ node_in_block bp (amin part) /\ node_in_block bp (amax part)) as (Hp & H1 & H2).
  { pose proof (Hin (amin part)) as A. pose proof (Hin (amax part)) as B. clear Hin. unfold node_in_block in *. exact_. lia. }
  clear Hin.
  assert (area_within 102000 (moved_back part o)) as Hs.
  { unfold moved_back, minus. exact_. lia. }
  rewrite sub_exact by (first [eapply area_within_mono, Hp|eapply within_mono, Ho]; lia).
  split; [done|]. split; [done|]. intros sp f Hsp Hf Hfn.
  assert (within 7000 sp) as Hw. { unfold touched_blocks, moved_back, minus in Hsp. exact_. lia. }
  assert (area_within 102000 f) as Hfw.
  { subst f. clear - Hs Hfn Hsp Hw. revert Hs Hfn. generalize (moved_back part o). intros q Hs Hfn.
    unfold meet, cube, block_corner in *. exact_. lia. }
  split. { rewrite abs_exact by (first [eapply area_within_mono, Hs|eapply within_mono, Hw]; lia).
    rewrite Hf. unfold if_any. by rewrite decide_True. }
  split. { rewrite corner_exact by (eapply within_mono, Hw; lia).
    apply sub_exact; [eapply area_within_mono, Hfw; lia|]. unfold block_corner. exact_. lia. }
  split; [apply add_exact; [eapply area_within_mono, Hfw|eapply within_mono, Ho]; lia|].
  assert (area_within 170000 (moved f o)) as Hfo. { unfold moved, plus. exact_. lia. }
  assert (node_in_block bp (plus (amin f) o) /\ node_in_block bp (plus (amax f) o) /\
          node_in_block sp (amin f) /\ node_in_block sp (amax f)) as (A1 & A2 & A3 & A4).
  { subst f. clear - H1 H2 Hfn. unfold node_in_block, meet, cube, moved_back, minus, plus, block_corner in *. exact_. lia. }
  split.
  - rewrite rel_exact by (first [eapply area_within_mono, Hfo|eapply within_mono, key_within, Hb]; lia).
    assert (meet (moved_back (moved f o) (block_corner bp)) (Area (V3 0 0 0) (V3 15 15 15)) =
      moved_back (moved f o) (block_corner bp)) as ->.
    { clear - A1 A2. unfold node_in_block, meet, moved_back, moved, minus, plus, block_corner in *. exact_. f_equal; f_equal; lia. }
    unfold if_any. rewrite decide_True; [done|].
    clear - Hfn. unfold moved_back, moved, minus, plus. exact_. lia.
  - clear - A1 A3 Hb Hw. unfold idx_diff, vsub, moved_back, moved, minus, plus, block_corner, pos_idx, node_in_block in *.
    exact_. w32s. lia.
Qed.

Lemma order_exact o k bp : key_range bp -> k = vx bp + 4096 * vy bp + 16777216 * vz bp ->
  sort_key o k = Ret (let m := mirror o bp in vx m + 4096 * vy m + 16777216 * vz m).
Proof.
  intros Hb ->. unfold sort_key.
  assert (from_block_key (vx bp + 4096 * vy bp + 16777216 * vz bp) = bp) as ->.
  { exact (from_key_of bp Hb). }
  unfold sort_dir, sort_off, mirror, vmul, vadd, vmap. cbn -[Z.mul Z.add w32 to_block_key].
  assert (forall d z, -2048 <= z < 2048 ->
    w32 (w32 (z * (if 0 <? d then -1 else 1)) + (if (if 0 <? d then -1 else 1) =? -1 then -1 else 0)) =
    (if 0 <? d then - z - 1 else z) /\ -2048 <= (if 0 <? d then - z - 1 else z) < 2048) as H.
  { intros d z Hz. destruct (0 <? d); cbn -[Z.mul Z.add w32]; w32s; lia. }
  destruct Hb as (B1 & B2 & B3).
  destruct (H (vx o) _ B1) as [-> C1]. destruct (H (vy o) _ B2) as [-> C2]. destruct (H (vz o) _ B3) as [-> C3].
  rewrite key_formula by (split; [exact C1|split; [exact C2|exact C3]]). done.
Qed.
