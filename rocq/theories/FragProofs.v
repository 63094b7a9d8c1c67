(** Geometry of copying from block to block *)
From Verif Require Import SysProofs RunProofs ArgProofs ThreadProofs SpatialProofs MapProofs CodecProofs
  BlockProofs QueryProofs UtilsProofs EditProofs BodyProofs MixProofs SpecCopy Spec.

(** ** Geometry *)
Definition block_of (p : vec3) : vec3 := V3 (vx p / 16) (vy p / 16) (vz p / 16).
Lemma block_of_iff bp p : node_in_block bp p <-> bp = block_of p.
Proof.
  destruct bp as [x y z], p as [px py pz]. unfold node_in_block, block_of; simpl. split.
  - intros H. f_equal; lia.
  - intros [= -> -> ->]. lia.
Qed.
Definition idx_in (p : vec3) : Z := pos_idx (minus p (block_corner (block_of p))).
Lemma idx_in_ok p : 0 <= idx_in p < 4096 /\ abs_pos (block_of p) (idx_in p) = p.
Proof.
  assert (in_cube (minus p (block_corner (block_of p)))) as Hc.
  { destruct p. unfold in_cube, minus, block_corner, block_of; simpl. lia. }
  split; [by apply pos_idx_range|]. unfold abs_pos, idx_in. rewrite idx_pos_idx by done.
  destruct p. unfold plus, minus, block_corner, block_of; simpl. f_equal; lia.
Qed.
Lemma abs_pos_block bp i : 0 <= i < 4096 -> block_of (abs_pos bp i) = bp /\ idx_in (abs_pos bp i) = i.
Proof.
  intros Hi. assert (bp = block_of (abs_pos bp i)) as E.
  { apply block_of_iff, in_cube_node. by apply idx_pos_cube. }
  split; [done|]. unfold idx_in. rewrite <-E. unfold abs_pos.
  replace (minus _ _) with (idx_pos i); [apply pos_idx_pos; lia|].
  destruct (idx_pos i). unfold minus, plus, block_corner; simpl. f_equal; lia.
Qed.

Lemma valid_block_pos p : is_valid_block_pos p = true <-> within 1937 p.
Proof.
  unfold is_valid_block_pos, within, MAP_LIMIT. change (Z.quot 31000 16) with 1937. lia.
Qed.

Section frag.
  Context (part : area) (off dpos spos : vec3).
  Context (Hne : nonempty part) (Hin : forall p, inside part p -> node_in_block dpos p).
  Context (Hd : within 6000 dpos) (Ho : within 62000 off).
  Context (Hs : exists q, inside (area_sub part off) q /\ node_in_block spos q).

  Lemma part_corners : node_in_block dpos (amin part) /\ node_in_block dpos (amax part).
  Proof. clear Hs spos Hd Ho. unfold nonempty in Hne. split; apply Hin; unfold inside; lia. Qed.
  Lemma sub_exact : area_sub part off = Area (minus (amin part) off) (minus (amax part) off).
  Proof.
    clear Hs spos. destruct part_corners as [H1 H2]. unfold node_in_block, within in *. unfold area_sub, vsub, minus.
    rewrite !w32_id by (unfold i32_ok; lia). done.
  Qed.

  Lemma frag_boxes : exists abs dr, abs_block_overlap (area_sub part off) spos = Some abs /\
    let sr := area_sub abs (vmuls spos 16) in
    rel_block_overlap (area_add abs off) dpos = Some dr /\ box_ok sr /\ box_ok dr /\ same_size sr dr /\
    (forall i, 0 <= i < 4096 -> inside dr (idx_pos i) <->
       inside part (abs_pos dpos i) /\ block_of (minus (abs_pos dpos i) off) = spos) /\
    forall i, 0 <= i < 4096 -> inside dr (idx_pos i) ->
      matching sr dr (idx_pos i) = idx_in (minus (abs_pos dpos i) off).
  Proof.
    destruct part_corners as [H1 H2]. rewrite sub_exact in Hs |- *.
    destruct Hs as (q & Hq & Hqs).
    assert (within 20000 spos) as Hsw.
    { unfold within, inside, node_in_block, minus in *; simpl in *. lia. }
    set (mn := V3 (Z.max (vx (amin part) - vx off) (16 * vx spos)) (Z.max (vy (amin part) - vy off) (16 * vy spos))
      (Z.max (vz (amin part) - vz off) (16 * vz spos))).
    set (mx := V3 (Z.min (vx (amax part) - vx off) (16 * vx spos + 15)) (Z.min (vy (amax part) - vy off) (16 * vy spos + 15))
      (Z.min (vz (amax part) - vz off) (16 * vz spos + 15))).
    assert (nonempty (Area mn mx)) as Hmn.
    { unfold nonempty, mn, mx, inside, node_in_block, minus in *; simpl in *. lia. }
    assert (abs_block_overlap (Area (minus (amin part) off) (minus (amax part) off)) spos = Some (Area mn mx)) as Ea.
    { unfold abs_block_overlap. rewrite corner15, block_corner_muls by (unfold within in *; lia).
      apply filter_valid_Some. split; [|exact Hmn]. done. }
    set (dn := minus (plus mn off) (block_corner dpos)). set (dx := minus (plus mx off) (block_corner dpos)).
    assert (area_add (Area mn mx) off = Area (plus mn off) (plus mx off)) as Eadd.
    { unfold area_add, vadd, plus, mn, mx; simpl. unfold within, node_in_block in *.
      rewrite !w32_id by (unfold i32_ok; lia). done. }
    assert (rel_block_overlap (area_add (Area mn mx) off) dpos = Some (Area dn dx)) as Er.
    { rewrite Eadd. unfold rel_block_overlap. rewrite block_corner_muls by (unfold within in *; lia).
      cbv zeta. cbn [amin amax]. apply filter_valid_Some.
      assert (Area (vmap (fun v => Z.max v 0) (vsub (plus mn off) (block_corner dpos)))
         (vmap (fun v => Z.min v 15) (vsub (plus mx off) (block_corner dpos))) = Area dn dx) as ->.
      { unfold dn, dx, vmap, vsub, minus, plus, mn, mx, block_corner; simpl.
        unfold within, node_in_block in *.
        rewrite !w32_id by (unfold i32_ok; lia). f_equal; f_equal; lia. }
      split; [done|]. unfold dn, dx, nonempty, minus, plus in *; simpl in *. lia. }
    assert (area_sub (Area mn mx) (vmuls spos 16) = Area (minus mn (block_corner spos)) (minus mx (block_corner spos))) as Esr.
    { rewrite block_corner_muls by (unfold within in *; lia). unfold area_sub, vsub, minus, mn, mx, block_corner; simpl.
      unfold within, node_in_block in *. rewrite !w32_id by (unfold i32_ok; lia). done. }
    exists (Area mn mx), (Area dn dx). split; [done|]. rewrite Esr. cbv zeta. split; [done|].
    assert (forall i, 0 <= i < 4096 -> in_cube (idx_pos i)) as Hcube by (intros; by apply idx_pos_cube).
    split; [|split; [|split; [|split]]].
    - apply box_ok_corners. unfold nonempty, minus, mn, mx, block_corner in *; simpl in *. lia.
    - apply box_ok_corners. unfold nonempty, dn, dx, minus, plus, mn, mx, block_corner, node_in_block in *; simpl in *. lia.
    - unfold same_size, dn, dx, minus, plus; simpl. f_equal; lia.
    - intros i Hi. specialize (Hcube i Hi). unfold abs_pos. revert Hcube. generalize (idx_pos i). intros p Hp.
      rewrite (eq_comm _ spos), <-block_of_iff.
      unfold in_cube, inside, node_in_block, dn, dx, plus, minus, mn, mx, block_corner in *; simpl in *. lia.
    - intros i Hi Hii. unfold matching. specialize (Hcube i Hi).
      assert (spos = block_of (minus (abs_pos dpos i) off)) as Eb.
      { apply block_of_iff. revert Hii Hcube. unfold abs_pos. generalize (idx_pos i). intros p Hii Hcube.
        unfold in_cube, inside, node_in_block, dn, dx, plus, minus, mn, mx, block_corner in *; simpl in *. lia. }
      unfold idx_in. rewrite <-Eb. f_equal. unfold abs_pos. destruct (idx_pos i).
      unfold dn, plus, minus, block_corner; simpl. f_equal; lia.
  Qed.
End frag.
