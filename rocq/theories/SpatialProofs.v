(** Lemmas about Spatial.v *)
From Verif Require Import Spatial Spec.

Lemma w32_id z : i32_ok z -> w32 z = z.
Proof. unfold i32_ok, w32. lia. Qed.
Lemma w64_id z : i64_ok z -> w64 z = z.
Proof. unfold i64_ok, w64. lia. Qed.
Lemma u64_id z : 0 <= z < 18446744073709551616 -> u64 z = z.
Proof. unfold u64. lia. Qed.
Lemma w16_id z : u16_ok z -> w16 z = z.
Proof. unfold u16_ok, w16. lia. Qed.

Ltac bdestr :=
  repeat match goal with
  | |- context [(?a <=? ?b)] => destruct (Z.leb_spec a b)
  | |- context [(?a <? ?b)] => destruct (Z.ltb_spec a b)
  end.

Lemma vec3_ext p q : vx p = vx q -> vy p = vy q -> vz p = vz q -> p = q.
Proof. destruct p, q; simpl; congruence. Qed.

(** *** Block keys *)

Definition key_of (p : vec3) : Z := vx p + 4096 * vy p + 16777216 * vz p.

Lemma to_block_key_ok p : key_range p -> to_block_key p = Ret (key_of p).
Proof.
  destruct p as [x y z]. unfold key_range, to_block_key, key_of; simpl. intros H.
  replace ((-2048 <=? x) && _ && _ && _ && _ && _) with true by lia.
  f_equal. unfold w64. lia.
Qed.

Lemma to_block_key_panic p : ~ key_range p -> to_block_key p = Panic.
Proof.
  destruct p as [x y z]. unfold key_range, to_block_key; simpl. intros H.
  destruct (_ && _ && _ && _ && _ && _) eqn:E; [|done]. exfalso; lia.
Qed.

Lemma from_key_of p : key_range p -> from_block_key (key_of p) = p.
Proof.
  destruct p as [x y z]. unfold key_range, key_of, from_block_key; simpl. intros H.
  set (k := x + 4096 * y + 16777216 * z).
  assert (Hx : w64 (k + 2048) mod 4096 - 2048 = x).
  { unfold k. rewrite w64_id by (unfold i64_ok; lia). lia. }
  rewrite Hx.
  assert (Hr : Z.quot (w64 (k - x)) 4096 = y + 4096 * z).
  { unfold k. rewrite w64_id by (unfold i64_ok; lia).
    replace (x + 4096 * y + 16777216 * z - x) with ((y + 4096 * z) * 4096) by lia.
    by rewrite Z.quot_mul. }
  rewrite Hr.
  assert (Hy : w64 (y + 4096 * z + 2048) mod 4096 - 2048 = y).
  { rewrite w64_id by (unfold i64_ok; lia). lia. }
  rewrite Hy.
  assert (Hz : Z.quot (w64 (y + 4096 * z - y)) 4096 = z).
  { rewrite w64_id by (unfold i64_ok; lia).
    replace (y + 4096 * z - y) with (z * 4096) by lia. by rewrite Z.quot_mul. }
  rewrite Hz.
  rewrite !w32_id by (unfold i32_ok; lia). done.
Qed.

(** Keys of stored blocks: those of positions in range. *)
Definition key_valid (k : Z) : Prop := exists p, key_range p /\ k = key_of p.

Lemma key_of_inj p q : key_range p -> key_range q -> key_of p = key_of q -> p = q.
Proof. intros Hp Hq E. rewrite <-(from_key_of p), <-(from_key_of q), E; done. Qed.

Lemma key_valid_from k : key_valid k ->
  key_range (from_block_key k) /\ key_of (from_block_key k) = k.
Proof. intros (p & Hp & ->). rewrite from_key_of by done. done. Qed.

(** A key is valid iff it lies in the contiguous range of encodings. *)
Lemma key_valid_iff k : key_valid k <->
  -2048 * (1 + 4096 + 16777216) <= k <= 2047 * (1 + 4096 + 16777216).
Proof.
  split.
  - intros ([x y z] & H & ->). unfold key_range, key_of in *; simpl in *. lia.
  - intros H.
    set (x := (k + 2048) mod 4096 - 2048).
    set (r := (k - x) / 4096).
    set (y := (r + 2048) mod 4096 - 2048).
    set (z := (r - y) / 4096).
    exists (V3 x y z). unfold key_range, key_of; simpl.
    assert (k - x = 4096 * r) by (unfold r, x; lia).
    assert (r - y = 4096 * z) by (unfold z, y; lia).
    assert (-2048 <= x < 2048) by (unfold x; lia).
    assert (-2048 <= y < 2048) by (unfold y; lia).
    clearbody x r y z. lia.
Qed.

(** *** Node indices *)

Lemma from_u16_key_eq k : 0 <= k -> 
  from_u16_key k = V3 (k mod 16) (k / 16 mod 16) (k / 256 mod 16).
Proof.
  intros Hk. unfold from_u16_key.
  change 15 with (Z.ones 4).
  rewrite !Z.land_ones by lia. rewrite !Z.shiftr_div_pow2 by lia. done.
Qed.

Lemma from_u16_key_idx k : 0 <= k < 4096 -> from_u16_key k = idx_pos k.
Proof.
  intros Hk. rewrite from_u16_key_eq by lia. unfold idx_pos. f_equal. lia.
Qed.

Lemma pos_idx_pos i : 0 <= i -> pos_idx (idx_pos i) = i.
Proof. intros. unfold pos_idx, idx_pos; simpl. lia. Qed.

Definition in_cube (p : vec3) : Prop :=
  0 <= vx p < 16 /\ 0 <= vy p < 16 /\ 0 <= vz p < 16.

Lemma idx_pos_idx p : in_cube p -> idx_pos (pos_idx p) = p.
Proof.
  destruct p as [x y z]. unfold in_cube, pos_idx, idx_pos; simpl. intros.
  f_equal; lia.
Qed.

Lemma idx_pos_cube i : 0 <= i < 4096 -> in_cube (idx_pos i).
Proof. unfold in_cube, idx_pos; simpl. lia. Qed.

Lemma pos_idx_range p : in_cube p -> 0 <= pos_idx p < 4096.
Proof. unfold in_cube, pos_idx. lia. Qed.

(** *** Areas *)

Lemma area_valid_iff a : area_valid a = true <-> nonempty a.
Proof. unfold area_valid, nonempty. lia. Qed.

Lemma contains_iff a p : contains a p = true <-> inside a p.
Proof. unfold contains, inside. lia. Qed.

Lemma contains_bool a p : contains a p = bool_decide (inside a p).
Proof.
  destruct (contains a p) eqn:E; symmetry.
  - apply bool_decide_eq_true. by apply contains_iff.
  - apply bool_decide_eq_false. intros H%contains_iff. congruence.
Qed.

Lemma nonempty_inside a : nonempty a <-> exists p, inside a p.
Proof.
  split.
  - intros H. exists (amin a). unfold inside, nonempty in *. lia.
  - intros (p & H). unfold inside, nonempty in *. lia.
Qed.

Lemma from_unsorted_inside a b p :
  inside (from_unsorted a b) p <->
  (Z.min (vx a) (vx b) <= vx p <= Z.max (vx a) (vx b)) /\
  (Z.min (vy a) (vy b) <= vy p <= Z.max (vy a) (vy b)) /\
  (Z.min (vz a) (vz b) <= vz p <= Z.max (vz a) (vz b)).
Proof. unfold inside, from_unsorted; simpl. done. Qed.

Lemma filter_valid_Some a b : filter_valid a = Some b <-> b = a /\ nonempty a.
Proof.
  unfold filter_valid. destruct (area_valid a) eqn:E.
  - apply area_valid_iff in E. naive_solver.
  - split; [done|]. intros [-> H%area_valid_iff]. congruence.
Qed.
Lemma filter_valid_None a : filter_valid a = None <-> ~ nonempty a.
Proof.
  unfold filter_valid. rewrite <-area_valid_iff. destruct (area_valid a); naive_solver.
Qed.

Lemma intersection_Some a b c : intersection a b = Some c ->
  nonempty c /\ forall p, inside c p <-> inside a p /\ inside b p.
Proof.
  unfold intersection. rewrite filter_valid_Some. intros [-> H]. split; [done|].
  intros p. unfold inside; simpl. lia.
Qed.
Lemma intersection_None a b : intersection a b = None <->
  ~ exists p, inside a p /\ inside b p.
Proof.
  unfold intersection. rewrite filter_valid_None, nonempty_inside.
  split; intros H [p Hp]; apply H; exists p; unfold inside in *; simpl in *; lia.
Qed.

Lemma block_corner_muls bp : within 100000000 bp -> vmuls bp 16 = block_corner bp.
Proof.
  destruct bp as [x y z]. unfold within, vmuls, vmap, block_corner; simpl. intros.
  rewrite !w32_id by (unfold i32_ok; lia). f_equal; lia.
Qed.

Lemma corner15 bp : within 100000000 bp ->
  vadds (vmuls bp 16) 15 = V3 (16 * vx bp + 15) (16 * vy bp + 15) (16 * vz bp + 15).
Proof.
  intros H. rewrite block_corner_muls by done. unfold within in H.
  unfold vadds, vmap, block_corner; simpl.
  rewrite !w32_id by (unfold i32_ok; lia). done.
Qed.

Lemma key_range_within p : key_range p -> within 100000000 p.
Proof. unfold key_range, within. lia. Qed.

Lemma contains_block_iff a bp : within 100000000 bp ->
  contains_block a bp = true <-> forall q, node_in_block bp q -> inside a q.
Proof.
  intros H. unfold contains_block. rewrite block_corner_muls by done.
  unfold within in H. unfold block_corner; simpl.
  rewrite !w32_id by (unfold i32_ok; lia). split.
  - intros Hc q Hq. unfold node_in_block, inside in *. lia.
  - intros Hq.
    pose proof (Hq (V3 (16 * vx bp) (16 * vy bp) (16 * vz bp))) as H1.
    pose proof (Hq (V3 (16 * vx bp + 15) (16 * vy bp + 15) (16 * vz bp + 15))) as H2.
    unfold node_in_block, inside in *; simpl in *. lia.
Qed.

Lemma touches_block_iff a bp : within 100000000 bp -> nonempty a ->
  touches_block a bp = true <-> exists q, node_in_block bp q /\ inside a q.
Proof.
  intros H Hne. unfold touches_block. rewrite block_corner_muls by done.
  unfold within in H. unfold block_corner; simpl.
  rewrite !w32_id by (unfold i32_ok; lia). split.
  - intros Hc.
    exists (V3 (Z.max (vx (amin a)) (16 * vx bp)) (Z.max (vy (amin a)) (16 * vy bp))
          (Z.max (vz (amin a)) (16 * vz bp))).
    unfold node_in_block, inside, nonempty in *; simpl. lia.
  - intros (q & Hq & Hi). unfold node_in_block, inside in *; simpl in *. lia.
Qed.

Lemma to_touching_iff a bp : nonempty a ->
  inside (to_touching_block_area a) bp <-> exists q, node_in_block bp q /\ inside a q.
Proof.
  intros Hne. split.
  - intros Hc.
    exists (V3 (Z.max (vx (amin a)) (16 * vx bp)) (Z.max (vy (amin a)) (16 * vy bp))
          (Z.max (vz (amin a)) (16 * vz bp))).
    unfold node_in_block, inside, nonempty, to_touching_block_area, vmap in *; simpl in *. lia.
  - intros (q & Hq & Hi).
    unfold node_in_block, inside, to_touching_block_area, vmap in *; simpl in *. lia.
Qed.

Lemma to_touching_nonempty a : nonempty a -> nonempty (to_touching_block_area a).
Proof. unfold nonempty, to_touching_block_area, vmap; simpl. lia. Qed.

Lemma to_contained_Some a b : area_within 1000000000 a ->
  to_contained_block_area a = Some b ->
  nonempty b /\ forall bp, inside b bp <-> forall q, node_in_block bp q -> inside a q.
Proof.
  intros Ha. unfold to_contained_block_area. rewrite filter_valid_Some.
  intros [-> Hne]. split; [done|]. clear Hne.
  unfold area_within, within in Ha.
  intros bp. unfold inside at 1; unfold vmap; simpl.
  rewrite !w32_id by (unfold i32_ok; lia). split.
  - intros Hc q Hq. unfold node_in_block, inside in *. lia.
  - intros Hq.
    pose proof (Hq (V3 (16 * vx bp) (16 * vy bp) (16 * vz bp))) as H1.
    pose proof (Hq (V3 (16 * vx bp + 15) (16 * vy bp + 15) (16 * vz bp + 15))) as H2.
    unfold node_in_block, inside in *; simpl in *. lia.
Qed.

Lemma to_contained_None a : area_within 1000000000 a ->
  to_contained_block_area a = None <->
  ~ exists bp, forall q, node_in_block bp q -> inside a q.
Proof.
  intros Ha. unfold to_contained_block_area. rewrite filter_valid_None, nonempty_inside.
  unfold area_within, within in Ha. unfold vmap.
  rewrite !w32_id by (unfold i32_ok; lia).
  split; intros H [bp Hb]; apply H; exists bp.
  - pose proof (Hb (V3 (16 * vx bp) (16 * vy bp) (16 * vz bp))) as H1.
    pose proof (Hb (V3 (16 * vx bp + 15) (16 * vy bp + 15) (16 * vz bp + 15))) as H2.
    unfold node_in_block, inside in *; simpl in *. lia.
  - intros q Hq. unfold node_in_block, inside in *; simpl in *. lia.
Qed.

Lemma abs_overlap_Some a bp c : within 100000000 bp ->
  abs_block_overlap a bp = Some c ->
  nonempty c /\ forall p, inside c p <-> inside a p /\ node_in_block bp p.
Proof.
  intros H. unfold abs_block_overlap. rewrite corner15, block_corner_muls by done.
  rewrite filter_valid_Some. intros [-> Hne]. split; [done|].
  intros p. unfold inside, node_in_block, block_corner; simpl. lia.
Qed.
Lemma abs_overlap_None a bp : within 100000000 bp ->
  abs_block_overlap a bp = None <-> ~ exists p, inside a p /\ node_in_block bp p.
Proof.
  intros H. unfold abs_block_overlap. rewrite corner15, block_corner_muls by done.
  rewrite filter_valid_None, nonempty_inside.
  split; intros Hn [p Hp]; apply Hn; exists p;
    unfold inside, node_in_block, block_corner in *; simpl in *; lia.
Qed.

Lemma rel_overlap_Some a bp c : within 50000000 bp -> area_within 1000000000 a ->
  rel_block_overlap a bp = Some c ->
  nonempty c /\ (forall p, inside c p -> in_cube p) /\
  forall p, inside c p <-> inside a (plus (block_corner bp) p) /\ in_cube p.
Proof.
  intros H Ha. unfold rel_block_overlap.
  rewrite block_corner_muls by (unfold within in *; lia).
  rewrite filter_valid_Some. intros [-> Hne].
  unfold within, area_within, within in *.
  revert Hne. unfold vsub, vmap, block_corner; simpl.
  rewrite !w32_id by (unfold i32_ok; lia).
  intros Hne.
  split; [done|]. split.
  - intros p. unfold inside, in_cube; simpl. lia.
  - intros p. unfold inside, in_cube, plus; simpl. lia.
Qed.
Lemma rel_overlap_None a bp : within 50000000 bp -> area_within 1000000000 a ->
  rel_block_overlap a bp = None <-> ~ exists p, inside a p /\ node_in_block bp p.
Proof.
  intros H Ha. unfold rel_block_overlap.
  rewrite block_corner_muls by (unfold within in *; lia).
  rewrite filter_valid_None, nonempty_inside.
  unfold within, area_within, within in *.
  unfold vsub, vmap, block_corner; simpl.
  rewrite !w32_id by (unfold i32_ok; lia).
  split; intros Hn [p Hp]; apply Hn.
  - exists (minus p (block_corner bp)).
    unfold inside, node_in_block, minus, block_corner in *; simpl in *. lia.
  - exists (plus (block_corner bp) p).
    unfold inside, node_in_block, plus, block_corner in *; simpl in *. lia.
Qed.

(** *** Area iteration *)

(** The enumeration in z, y, x order. *)
Definition enum_row (a : area) (y z x0 : Z) : list vec3 :=
  (fun x => V3 x y z) <$> zrange x0 (vx (amax a)).
Definition enum_plane (a : area) (z y0 : Z) : list vec3 :=
  zrange y0 (vy (amax a)) ≫= fun y => enum_row a y z (vx (amin a)).
Definition enum_vol (a : area) (z0 : Z) : list vec3 :=
  zrange z0 (vz (amax a)) ≫= fun z => enum_plane a z (vy (amin a)).
Definition enum_area (a : area) : list vec3 := enum_vol a (vz (amin a)).

Lemma zrange_cons a b : a <= b -> zrange a b = a :: zrange (a + 1) b.
Proof.
  intros. unfold zrange. rewrite seqZ_cons by lia. f_equal. f_equal; lia.
Qed.
Lemma zrange_nil a b : b < a -> zrange a b = [].
Proof. intros. unfold zrange. apply seqZ_nil. lia. Qed.
Lemma elem_of_zrange a b x : x ∈ zrange a b <-> a <= x <= b.
Proof. unfold zrange. rewrite elem_of_seqZ. lia. Qed.
Lemma zrange_length a b : length (zrange a b) = Z.to_nat (b - a + 1).
Proof. unfold zrange. by rewrite seqZ_length. Qed.
Lemma NoDup_zrange a b : NoDup (zrange a b).
Proof. apply NoDup_seqZ. Qed.

Lemma enum_row_cons a y z x0 : x0 <= vx (amax a) ->
  enum_row a y z x0 = V3 x0 y z :: enum_row a y z (x0 + 1).
Proof. intros. unfold enum_row. by rewrite zrange_cons. Qed.
Lemma enum_plane_cons a z y0 : y0 <= vy (amax a) ->
  enum_plane a z y0 = enum_row a y0 z (vx (amin a)) ++ enum_plane a z (y0 + 1).
Proof. intros. unfold enum_plane. rewrite zrange_cons by done. done. Qed.
Lemma enum_vol_cons a z0 : z0 <= vz (amax a) ->
  enum_vol a z0 = enum_plane a z0 (vy (amin a)) ++ enum_vol a (z0 + 1).
Proof. intros. unfold enum_vol. rewrite zrange_cons by done. done. Qed.

Definition enum_rest (a : area) (p : vec3) : list vec3 :=
  if vz (amax a) <? vz p then []
  else enum_row a (vy p) (vz p) (vx p) ++ enum_plane a (vz p) (vy p + 1)
       ++ enum_vol a (vz p + 1).

Lemma collect_area a n p :
  area_within 2147483646 a -> nonempty a ->
  vx (amin a) <= vx p <= vx (amax a) -> vy (amin a) <= vy p <= vy (amax a) ->
  vz (amin a) <= vz p <= vz (amax a) + 1 ->
  (length (enum_rest a p) <= n)%nat ->
  collect area_next n (AI (amin a) (amax a) p) = Some (enum_rest a p).
Proof.
  intros Ha Hne. revert p. induction n as [|n IH]; intros p Hx Hy Hz Hn.
  - unfold enum_rest in *. simpl. unfold area_next; simpl.
    destruct (vz (amax a) <? vz p) eqn:E; [done|].
    rewrite enum_row_cons in Hn by lia. simpl in Hn. lia.
  - simpl. unfold area_next; simpl.
    unfold enum_rest in *.
    destruct (vz (amax a) <? vz p) eqn:E; [done|].
    unfold area_within, within in Ha.
    rewrite enum_row_cons in * by lia.
    rewrite (w32_id (vx p + 1)), (w32_id (vy p + 1)), (w32_id (vz p + 1))
      by (unfold i32_ok; lia).
    destruct p as [x y z]; simpl in *.
    destruct (vx (amax a) <? x + 1) eqn:E1.
    + assert (enum_row a y z (x + 1) = []) as Hr.
      { unfold enum_row. by rewrite zrange_nil by lia. }
      rewrite Hr in *. simpl in *.
      destruct (vy (amax a) <? y + 1) eqn:E2.
      * assert (enum_plane a z (y + 1) = []) as Hp.
        { unfold enum_plane. by rewrite zrange_nil by lia. }
        rewrite Hp in *. simpl in *.
        rewrite IH; simpl; try (unfold nonempty in Hne; lia).
        -- f_equal. f_equal.
           destruct (vz (amax a) <? z + 1) eqn:E3.
           ++ unfold enum_vol. by rewrite zrange_nil by lia.
           ++ rewrite (enum_vol_cons a (z+1)) by lia.
              rewrite (enum_plane_cons a (z+1) (vy (amin a))) by (unfold nonempty in Hne; lia).
              by rewrite <-app_assoc.
        -- destruct (vz (amax a) <? z + 1) eqn:E3; [simpl; lia|].
           rewrite (enum_vol_cons a (z+1)) in Hn by lia.
           rewrite (enum_plane_cons a (z+1) (vy (amin a))) in Hn by (unfold nonempty in Hne; lia).
           rewrite <-app_assoc in Hn. lia.
      * rewrite (enum_plane_cons a z (y+1)) in * by lia.
        rewrite <-app_assoc in *.
        rewrite IH; simpl; try (unfold nonempty in Hne; lia).
        -- rewrite E. done.
        -- rewrite E. lia.
    + rewrite IH; simpl; rewrite ?E; try lia. done.
Qed.

Lemma enum_row_length a y z x0 : 
  length (enum_row a y z x0) = Z.to_nat (vx (amax a) - x0 + 1).
Proof. unfold enum_row. by rewrite fmap_length, zrange_length. Qed.

Lemma bind_const_length {A B} (f : A -> list B) (l : list A) n :
  (forall x, length (f x) = n) -> length (l ≫= f) = (length l * n)%nat.
Proof.
  intros H. induction l as [|x l IH]; [done|].
  csimpl. rewrite app_length, H, IH. lia.
Qed.
Lemma enum_plane_length a z y0 : 
  length (enum_plane a z y0) =
   (Z.to_nat (vy (amax a) - y0 + 1) * Z.to_nat (vx (amax a) - vx (amin a) + 1))%nat.
Proof.
  unfold enum_plane. erewrite bind_const_length; [by rewrite zrange_length|].
  intros y. apply enum_row_length.
Qed.
Lemma enum_area_length a : length (enum_area a) = area_size a.
Proof.
  unfold enum_area, enum_vol. erewrite bind_const_length; [by rewrite zrange_length|].
  intros z. apply enum_plane_length.
Qed.

Lemma volume_eq a : nonempty a -> area_within 500000 a ->
  volume a = (vx (amax a) - vx (amin a) + 1) * (vy (amax a) - vy (amin a) + 1)
             * (vz (amax a) - vz (amin a) + 1).
Proof.
  unfold nonempty, area_within, within. intros Hne H. unfold volume.
  set (dx := vx (amax a) - vx (amin a)).
  set (dy := vy (amax a) - vy (amin a)).
  set (dz := vz (amax a) - vz (amin a)).
  assert (0 <= dx <= 1000000) by (unfold dx; lia).
  assert (0 <= dy <= 1000000) by (unfold dy; lia).
  assert (0 <= dz <= 1000000) by (unfold dz; lia).
  clearbody dx dy dz.
  rewrite (w32_id dx), (w32_id dy), (w32_id dz) by (unfold i32_ok; lia).
  rewrite (w32_id (dx+1)), (w32_id (dy+1)), (w32_id (dz+1)) by (unfold i32_ok; lia).
  rewrite (u64_id (dx+1)), (u64_id (dy+1)), (u64_id (dz+1)) by lia.
  assert (0 <= (dx+1)*(dy+1) <= 1000001 * 1000001) by nia.
  rewrite (u64_id ((dx+1)*(dy+1))) by lia.
  apply u64_id. split; [nia|].
  assert ((dx + 1) * (dy + 1) * (dz + 1) <= 1000001 * 1000001 * 1000001) by nia. lia.
Qed.

Lemma area_positions_enum a : nonempty a -> area_within 2147483646 a ->
  area_positions a = Some (enum_area a).
Proof.
  intros Hne Ha. unfold area_positions, area_into_iter.
  assert (enum_rest a (amin a) = enum_area a) as He.
  { unfold enum_rest, enum_area. unfold nonempty in Hne.
    destruct (vz (amax a) <? vz (amin a)) eqn:E; [lia|].
    rewrite (enum_vol_cons a (vz (amin a))) by lia.
    rewrite (enum_plane_cons a (vz (amin a)) (vy (amin a))) by lia.
    by rewrite <-app_assoc. }
  rewrite <-He. apply collect_area.
  - done.
  - done.
  - unfold nonempty in Hne. lia.
  - unfold nonempty in Hne. lia.
  - unfold nonempty in Hne. lia.
  - rewrite He, enum_area_length. done.
Qed.

Lemma elem_of_enum_area a p : p ∈ enum_area a <-> inside a p.
Proof.
  unfold enum_area, enum_vol. rewrite elem_of_list_bind. unfold inside. split.
  - intros (z & Hp & Hz%elem_of_zrange). unfold enum_plane in Hp.
    apply elem_of_list_bind in Hp as (y & Hp & Hy%elem_of_zrange).
    apply elem_of_list_fmap in Hp as (x & -> & Hx%elem_of_zrange). simpl. lia.
  - intros H. exists (vz p). rewrite elem_of_zrange. split; [|lia].
    unfold enum_plane. apply elem_of_list_bind. exists (vy p). rewrite elem_of_zrange.
    split; [|lia]. unfold enum_row. apply elem_of_list_fmap.
    exists (vx p). rewrite elem_of_zrange. split; [by destruct p|lia].
Qed.

Lemma zrange_sorted a b : StronglySorted Z.lt (zrange a b).
Proof.
  remember (Z.to_nat (b - a + 1)) as n eqn:Hn. revert a Hn.
  induction n as [|n IH]; intros a Hn.
  - rewrite zrange_nil by lia. constructor.
  - rewrite zrange_cons by lia. constructor; [apply IH; lia|].
    apply Forall_forall. intros x. rewrite elem_of_zrange. lia.
Qed.

Lemma sorted_bind {A B} (R : relation A) (S : relation B) (f : A -> list B) (l : list A) :
  StronglySorted R l ->
  (forall x, StronglySorted S (f x)) ->
  (forall x y u v, R x y -> u ∈ f x -> v ∈ f y -> S u v) ->
  StronglySorted S (l ≫= f).
Proof.
  intros Hl Hf HR. induction Hl as [|x l Hl IH Hx]; [constructor|].
  csimpl.
  assert (forall l1 l2, StronglySorted S l1 -> StronglySorted S l2 ->
    (forall u v, u ∈ l1 -> v ∈ l2 -> S u v) -> StronglySorted S (l1 ++ l2)) as Happ.
  { clear. intros l1 l2 H1 H2 H. induction H1 as [|u l1 H1 IH Hu]; [done|].
    simpl. constructor.
    - apply IH. intros; apply H; [by right|done].
    - apply Forall_app. split; [done|]. apply Forall_forall. intros v Hv. apply H; [left|done]. }
  apply Happ; [done|done|].
  intros u v Hu Hv. apply elem_of_list_bind in Hv as (y & Hv & Hy).
  eapply HR; [|done|done]. rewrite Forall_forall in Hx. by apply Hx.
Qed.

Lemma enum_area_sorted a : StronglySorted zyx_lt (enum_area a).
Proof.
  unfold enum_area, enum_vol. eapply sorted_bind; [apply zrange_sorted| |].
  - intros z. unfold enum_plane. eapply sorted_bind; [apply zrange_sorted| |].
    + intros y. unfold enum_row.
      pose proof (zrange_sorted (vx (amin a)) (vx (amax a))) as H.
      induction H as [|x l Hl IH Hx]; [constructor|]. csimpl. constructor; [done|].
      apply Forall_forall. intros p Hp. apply elem_of_list_fmap in Hp as (x' & -> & Hx').
      rewrite Forall_forall in Hx. apply Hx in Hx'. unfold zyx_lt; simpl. lia.
    + intros y y' u v Hy Hu Hv.
      apply elem_of_list_fmap in Hu as (x & -> & _).
      apply elem_of_list_fmap in Hv as (x' & -> & _). unfold zyx_lt; simpl. lia.
  - intros z z' u v Hz Hu Hv.
    apply elem_of_list_bind in Hu as (y & Hu & _).
    apply elem_of_list_fmap in Hu as (x & -> & _).
    apply elem_of_list_bind in Hv as (y' & Hv & _).
    apply elem_of_list_fmap in Hv as (x' & -> & _). unfold zyx_lt; simpl. lia.
Qed.

Lemma sorted_NoDup {A} (R : relation A) (l : list A) :
  (forall x, ~ R x x) -> StronglySorted R l -> NoDup l.
Proof.
  intros HR H. induction H as [|x l Hl IH Hx]; constructor; [|done].
  intros Hin. rewrite Forall_forall in Hx. by apply (HR x), Hx.
Qed.

Lemma enum_area_NoDup a : NoDup (enum_area a).
Proof.
  eapply sorted_NoDup; [|apply enum_area_sorted]. intros x. unfold zyx_lt. lia.
Qed.

(** *** Inverse iteration *)

Definition cube_area (a : area) : Prop :=
  0 <= vx (amin a) <= vx (amax a) /\ vx (amax a) < 16 /\
  0 <= vy (amin a) <= vy (amax a) /\ vy (amax a) < 16 /\
  0 <= vz (amin a) <= vz (amax a) /\ vz (amax a) < 16.

Definition inv_inv (a : area) (it : inv_iter) : Prop :=
  ii_area it = a /\ 0 <= ii_idx it <= 4096 /\
  ii_len it = vx (amax a) - vx (amin a) + 1 /\
  if ii_can it then
    vx (ii_pos it) = vx (amin a) /\
    vy (amin a) <= vy (ii_pos it) <= vy (amax a) /\
    vz (amin a) <= vz (ii_pos it) <= vz (amax a) /\
    ii_sidx it = pos_idx (ii_pos it) /\
    ii_idx it <= ii_sidx it /\
    forall x y z, inside a (V3 x y z) ->
      x + 16 * y + 256 * z < ii_sidx it -> x + 16 * y + 256 * z < ii_idx it
  else forall x y z, inside a (V3 x y z) -> x + 16 * y + 256 * z < ii_idx it.

Lemma inv_skip_spec a fuel it :
  cube_area a -> inv_inv a it ->
  (ii_can it = true -> 4096 - ii_sidx it <= 16 * Z.of_nat fuel) ->
  exists it', inv_skip fuel it = Some it' /\ inv_inv a it' /\
    (ii_can it' = true -> ii_idx it' < ii_sidx it') /\
    ii_idx it <= ii_idx it' /\
    forall j, ii_idx it <= j < ii_idx it' -> inside a (idx_pos j).
Proof.
  intros Hc. revert it. induction fuel as [|fuel IH]; intros it Hinv Hf.
  - simpl. destruct (ii_can it) eqn:Ecan.
    + exfalso. destruct Hinv as (_ & _ & _ & H). rewrite Ecan in H.
      specialize (Hf eq_refl). unfold cube_area, pos_idx in *. lia.
    + simpl. exists it. rewrite Ecan. split; [done|]. split; [done|]. split; [done|]. split; lia.
  - simpl. destruct (ii_can it) eqn:Ecan; simpl.
    2:{ exists it. rewrite Ecan. split; [done|]. split; [done|]. split; [done|]. split; lia. }
    destruct (ii_sidx it <=? ii_idx it) eqn:Ele.
    2:{ exists it. split; [done|]. split; [done|]. split; [lia|]. split; lia. }
    destruct Hinv as (Ha & Hidx & Hlen & H). rewrite Ecan in H.
    destruct H as (Hpx & Hpy & Hpz & Hs & His & Hbelow).
    destruct it as [ar idx can [px py pz] sidx len]; simpl in *. subst ar can px.
    assert (idx = sidx) by lia. subst idx. clear Ele His.
    unfold cube_area, pos_idx in *; simpl in *.
    assert (Hrow : forall j, sidx <= j < sidx + len -> inside a (idx_pos j)).
    { intros j Hj.
      replace j with (pos_idx (V3 (vx (amin a) + (j - sidx)) py pz))
        by (unfold pos_idx; simpl; lia).
      rewrite idx_pos_idx by (unfold in_cube; simpl; lia).
      unfold inside; simpl; lia. }
    destruct (vy (amax a) <? py + 1) eqn:E1.
    + destruct (vz (amax a) <? pz + 1) eqn:E2.
      * eexists; split; [done|]; simpl. split; [|split; [done|split; [lia|exact Hrow]]].
        unfold inv_inv; simpl. split; [done|]. split; [lia|]. split; [done|].
        intros x y z Hi. pose proof (Hbelow x y z Hi).
        unfold inside in Hi; simpl in Hi. lia.
      * edestruct IH as (it' & E & Hi' & Hlt & Hge & Hin).
        3:{ exists it'. split; [exact E|]. split; [exact Hi'|]. split; [exact Hlt|].
            simpl in Hge, Hin. split; [lia|].
            intros j Hj. destruct (decide (j < sidx + len)); [apply Hrow; lia|apply Hin; lia]. }
        -- unfold inv_inv, pos_idx; simpl. split; [done|]. split; [lia|]. split; [done|].
           split; [done|]. split; [lia|]. split; [lia|]. split; [lia|]. split; [lia|].
           intros x y z Hi Hlt. pose proof (Hbelow x y z Hi).
           unfold inside in Hi; simpl in Hi. lia.
        -- simpl. intros _. specialize (Hf eq_refl). lia.
    + edestruct IH as (it' & E & Hi' & Hlt & Hge & Hin).
      3:{ exists it'. split; [exact E|]. split; [exact Hi'|]. split; [exact Hlt|].
          simpl in Hge, Hin. split; [lia|].
          intros j Hj. destruct (decide (j < sidx + len)); [apply Hrow; lia|apply Hin; lia]. }
      * unfold inv_inv, pos_idx; simpl. split; [done|]. split; [lia|]. split; [done|].
        split; [done|]. split; [lia|]. split; [lia|]. split; [lia|]. split; [lia|].
        intros x y z Hi Hlt. pose proof (Hbelow x y z Hi).
        unfold inside in Hi; simpl in Hi. lia.
      * simpl. intros _. specialize (Hf eq_refl). lia.
Qed.

Definition outside_from (a : area) (i : Z) : list Z :=
  filter (fun j => ~ inside a (idx_pos j)) (zrange i 4095).

Lemma outside_from_skip a i i' : i <= i' <= 4096 ->
  (forall j, i <= j < i' -> inside a (idx_pos j)) -> outside_from a i = outside_from a i'.
Proof.
  intros Hi Hin. unfold outside_from.
  remember (Z.to_nat (i' - i)) as n eqn:Hn. revert i Hi Hin Hn.
  induction n as [|n IH]; intros i Hi Hin Hn.
  - by replace i with i' by lia.
  - rewrite zrange_cons by lia. rewrite filter_cons_False.
    + apply IH; [lia| |lia]. intros j Hj. apply Hin. lia.
    + intros Hn'. apply Hn'. apply Hin. lia.
Qed.

Lemma collect_inv a n it : cube_area a -> inv_inv a it ->
  4096 - ii_idx it <= Z.of_nat n ->
  collect inv_next n it = Some (outside_from a (ii_idx it)).
Proof.
  intros Hc. revert it. induction n as [|n IH]; intros it Hinv Hn.
  - cbn [collect]. unfold inv_next at 1.
    destruct (inv_skip_spec a 257 it) as (it' & E & Hinv' & Hlt & Hge & Hin); [done|done| |].
    { intros Hcan. destruct Hinv as (_ & _ & _ & H). rewrite Hcan in H.
      unfold cube_area, pos_idx in *. lia. }
    rewrite E. destruct Hinv as (_ & Hi & _).
    destruct (ii_idx it' <? 4096) eqn:E4; [lia|].
    unfold outside_from. by rewrite zrange_nil by lia.
  - cbn [collect]. unfold inv_next at 1.
    destruct (inv_skip_spec a 257 it) as (it' & E & Hinv' & Hlt & Hge & Hin); [done|done| |].
    { intros Hcan. destruct Hinv as (_ & _ & _ & H). rewrite Hcan in H.
      unfold cube_area, pos_idx in *. lia. }
    rewrite E. assert (Hinv2 := Hinv'). destruct Hinv' as (Ha' & Hi' & Hlen' & Hrest).
    destruct (ii_idx it' <? 4096) eqn:E4.
    + cbv beta iota. rewrite IH.
      * cbn [ii_idx]. cbv beta iota. f_equal. rewrite (outside_from_skip a (ii_idx it) (ii_idx it')) by (done || lia).
        unfold outside_from at 2. rewrite zrange_cons by lia.
        rewrite filter_cons_True; [done|].
        intros Hins. assert (Hpi := pos_idx_pos (ii_idx it') ltac:(lia)).
        unfold idx_pos in Hins. unfold pos_idx, idx_pos in Hpi; simpl in Hpi.
        destruct (ii_can it') eqn:Ecan.
        -- destruct Hrest as (_ & _ & _ & _ & _ & Hb).
           apply Hb in Hins; [lia|]. specialize (Hlt eq_refl). lia.
        -- apply Hrest in Hins. lia.
      * unfold inv_inv in *. simpl. destruct Hinv2 as (_ & _ & _ & Hrest2).
        split; [done|]. split; [lia|]. split; [done|].
        destruct (ii_can it') eqn:Ecan.
        -- destruct Hrest as (H1 & H2 & H3 & H4 & H5 & H6). specialize (Hlt eq_refl).
           split; [done|]. split; [done|]. split; [done|]. split; [done|]. split; [lia|].
           intros x y z Hi2 Hl2. pose proof (H6 x y z Hi2 Hl2). lia.
        -- intros x y z Hi2. pose proof (Hrest x y z Hi2). lia.
      * simpl. destruct Hinv as (_ & ? & _). lia.
    + rewrite (outside_from_skip a (ii_idx it) (ii_idx it')) by (done || lia).
      unfold outside_from. by rewrite zrange_nil by lia.
Qed.

Lemma inv_indices_spec a : cube_area a -> inv_indices a = Ret (outside_from a 0).
Proof.
  intros Hc. unfold inv_indices, inv_new.
  replace (_ && _ && _ && _ && _ && _) with true by (unfold cube_area in Hc; lia).
  unfold bindO. rewrite (collect_inv a); [done|done| |cbn [ii_idx]; lia].
  unfold inv_inv; simpl. split; [done|]. split; [lia|]. split; [done|].
  unfold cube_area, pos_idx in *. split; [done|]. split; [lia|]. split; [lia|].
  split; [lia|]. split; [lia|].
  intros x y z Hi Hl. unfold inside in Hi; simpl in Hi. lia.
Qed.

Lemma elem_of_outside a i : i ∈ outside_from a 0 <-> 0 <= i < 4096 /\ ~ inside a (idx_pos i).
Proof.
  unfold outside_from. rewrite elem_of_list_filter, elem_of_zrange.
  split; intros []; split; try done; lia.
Qed.
Lemma outside_sorted a : StronglySorted Z.lt (outside_from a 0).
Proof.
  unfold outside_from. pose proof (zrange_sorted 0 4095) as H.
  induction H as [|x l Hl IH Hx]; [constructor|].
  rewrite filter_cons. destruct (decide _); [|done]. constructor; [done|].
  apply Forall_forall. intros y Hy. apply elem_of_list_filter in Hy as [_ Hy].
  rewrite Forall_forall in Hx. by apply Hx.
Qed.

(** *** Statements used by PropsSpatial.v *)

Lemma key_roundtrip p : key_range p ->
  exists k, to_block_key p = Ret k /\ from_block_key k = p.
Proof.
  intros H. exists (key_of p). split; [by apply to_block_key_ok|by apply from_key_of].
Qed.

Lemma to_block_key_Ret p k : to_block_key p = Ret k -> key_range p /\ k = key_of p.
Proof.
  intros H. assert (Hr : key_range p).
  { unfold to_block_key in H. destruct (_ && _ && _ && _ && _ && _) eqn:E; [|done].
    unfold key_range. lia. }
  rewrite to_block_key_ok in H by done. by injection H.
Qed.

Lemma key_injective p q k : to_block_key p = Ret k -> to_block_key q = Ret k -> p = q.
Proof.
  intros [Hp ->]%to_block_key_Ret [Hq E]%to_block_key_Ret. by apply key_of_inj.
Qed.

Lemma key_surjective k :
  -2048 * (1 + 4096 + 16777216) <= k <= 2047 * (1 + 4096 + 16777216) ->
  key_range (from_block_key k) /\ to_block_key (from_block_key k) = Ret k.
Proof.
  intros H%key_valid_iff. apply key_valid_from in H as [Hr E].
  split; [done|]. by rewrite to_block_key_ok, E.
Qed.

Lemma key_formula x y z : key_range (V3 x y z) ->
  to_block_key (V3 x y z) = Ret (x + 4096 * y + 4096 * 4096 * z).
Proof. intros H. rewrite to_block_key_ok by done. done. Qed.

Lemma index_roundtrip i : 0 <= i < 4096 ->
  let p := from_u16_key i in
  (0 <= vx p < 16 /\ 0 <= vy p < 16 /\ 0 <= vz p < 16) /\
  vx p + 16 * vy p + 256 * vz p = i.
Proof.
  intros H. cbv zeta. rewrite from_u16_key_idx by done.
  split; [by apply idx_pos_cube|]. apply pos_idx_pos. lia.
Qed.

Lemma position_unique_index x y z :
  0 <= x < 16 -> 0 <= y < 16 -> 0 <= z < 16 ->
  forall i, 0 <= i < 4096 -> from_u16_key i = V3 x y z <-> i = x + 16 * y + 256 * z.
Proof.
  intros Hx Hy Hz i Hi. rewrite from_u16_key_idx by done. split.
  - intros E. rewrite <-(pos_idx_pos i), E by lia. done.
  - intros ->. apply (idx_pos_idx (V3 x y z)). unfold in_cube; simpl. lia.
Qed.

Lemma index_alias i : 0 <= i < 65536 -> from_u16_key i = from_u16_key (i mod 4096).
Proof.
  intros H. rewrite !from_u16_key_eq by lia. f_equal; lia.
Qed.

Lemma area_iteration a : nonempty a -> area_within 2147483646 a ->
  exists l, area_positions a = Some l /\
    (forall p, p ∈ l <-> inside a p) /\ NoDup l /\ StronglySorted zyx_lt l.
Proof.
  intros Hne Ha. exists (enum_area a). split; [by apply area_positions_enum|].
  split; [apply elem_of_enum_area|]. split; [apply enum_area_NoDup|apply enum_area_sorted].
Qed.

Lemma cube_area_iff a : nonempty a ->
  (forall p, inside a p -> 0 <= vx p < 16 /\ 0 <= vy p < 16 /\ 0 <= vz p < 16) <-> cube_area a.
Proof.
  intros Hne. split.
  - intros H. pose proof (H (amin a)) as H1. pose proof (H (amax a)) as H2.
    unfold nonempty, inside, cube_area in *. lia.
  - intros H p Hp. unfold cube_area, inside in *. lia.
Qed.

Lemma inverse_iteration a : nonempty a ->
  (forall p, inside a p -> 0 <= vx p < 16 /\ 0 <= vy p < 16 /\ 0 <= vz p < 16) ->
  exists l, inv_indices a = Ret l /\
    (forall i, i ∈ l <-> 0 <= i < 4096 /\ ~ inside a (idx_pos i)) /\
    NoDup l /\ StronglySorted Z.lt l.
Proof.
  intros Hne Hc. apply (cube_area_iff a Hne) in Hc.
  exists (outside_from a 0). split; [by apply inv_indices_spec|].
  split; [apply elem_of_outside|]. split; [|apply outside_sorted].
  eapply sorted_NoDup; [|apply outside_sorted]. lia.
Qed.

Lemma inverse_rejects a : nonempty a ->
  ~ (forall p, inside a p -> 0 <= vx p < 16 /\ 0 <= vy p < 16 /\ 0 <= vz p < 16) ->
  inv_indices a = Panic.
Proof.
  intros Hne Hc. rewrite (cube_area_iff a Hne) in Hc.
  unfold inv_indices, inv_new.
  destruct (_ && _ && _ && _ && _ && _) eqn:E; [|done].
  exfalso. apply Hc. unfold cube_area, nonempty in *. lia.
Qed.

Lemma contained_range a : area_within 1000000000 a ->
  match to_contained_block_area a with
  | Some b => nonempty b /\
      forall bp, inside b bp <-> forall q, node_in_block bp q -> inside a q
  | None => forall bp, exists q, node_in_block bp q /\ ~ inside a q
  end.
Proof.
  intros Ha. destruct (to_contained_block_area a) as [b|] eqn:E.
  - by apply to_contained_Some.
  - apply to_contained_None in E; [|done]. intros bp.
    destruct (decide (inside a (V3 (16 * vx bp) (16 * vy bp) (16 * vz bp)))) as [H1|H1].
    2:{ eexists. split; [|exact H1]. unfold node_in_block; simpl. lia. }
    destruct (decide (inside a (V3 (16 * vx bp + 15) (16 * vy bp + 15) (16 * vz bp + 15))))
      as [H2|H2].
    2:{ eexists. split; [|exact H2]. unfold node_in_block; simpl. lia. }
    exfalso. apply E. exists bp. intros q Hq.
    unfold node_in_block, inside in *; simpl in *. lia.
Qed.

Lemma touching_range a : nonempty a ->
  nonempty (to_touching_block_area a) /\
  forall bp, inside (to_touching_block_area a) bp <->
    exists q, node_in_block bp q /\ inside a q.
Proof.
  intros H. split; [by apply to_touching_nonempty|]. intros. by apply to_touching_iff.
Qed.

Lemma absolute_overlap a bp : within 100000000 bp ->
  match abs_block_overlap a bp with
  | Some c => nonempty c /\ forall p, inside c p <-> inside a p /\ node_in_block bp p
  | None => forall p, ~ (inside a p /\ node_in_block bp p)
  end.
Proof.
  intros H. destruct (abs_block_overlap a bp) as [c|] eqn:E.
  - by apply abs_overlap_Some.
  - apply abs_overlap_None in E; [|done]. intros p Hp. apply E. by exists p.
Qed.

Lemma in_cube_node bp p : in_cube p <-> node_in_block bp (plus (block_corner bp) p).
Proof. unfold in_cube, node_in_block, plus, block_corner; simpl. lia. Qed.

Lemma relative_overlap a bp : within 50000000 bp ->
  area_within 1000000000 a ->
  match rel_block_overlap a bp with
  | Some c => nonempty c /\
      (forall p, inside c p -> 0 <= vx p < 16 /\ 0 <= vy p < 16 /\ 0 <= vz p < 16) /\
      forall p, inside c p <->
        inside a (plus (block_corner bp) p) /\ node_in_block bp (plus (block_corner bp) p)
  | None => forall p, ~ (inside a p /\ node_in_block bp p)
  end.
Proof.
  intros H Ha. destruct (rel_block_overlap a bp) as [c|] eqn:E.
  - apply rel_overlap_Some in E as (H1 & H2 & H3); [|done..]. split; [done|].
    split; [done|]. intros p. rewrite <-in_cube_node. apply H3.
  - apply rel_overlap_None in E; [|done..]. intros p Hp. apply E. by exists p.
Qed.

Lemma intersection_exact a b :
  match intersection a b with
  | Some c => nonempty c /\ forall p, inside c p <-> inside a p /\ inside b p
  | None => forall p, ~ (inside a p /\ inside b p)
  end.
Proof.
  destruct (intersection a b) as [c|] eqn:E.
  - by apply intersection_Some.
  - rewrite intersection_None in E. intros p Hp. apply E. by exists p.
Qed.

Lemma corner_order a b :
  from_unsorted a b = from_unsorted b a /\
  (forall x1 y1 z1 x2 y2 z2,
     from_unsorted (V3 x1 y1 z1) (V3 x2 y2 z2) = from_unsorted (V3 x2 y1 z1) (V3 x1 y2 z2) /\
     from_unsorted (V3 x1 y1 z1) (V3 x2 y2 z2) = from_unsorted (V3 x1 y2 z1) (V3 x2 y1 z2) /\
     from_unsorted (V3 x1 y1 z1) (V3 x2 y2 z2) = from_unsorted (V3 x1 y1 z2) (V3 x2 y2 z1)).
Proof.
  unfold from_unsorted; simpl. repeat split; f_equal; f_equal; lia.
Qed.

Lemma corner_box a b :
  nonempty (from_unsorted a b) /\ area_valid (from_unsorted a b) = true /\
  forall p, contains (from_unsorted a b) p = true <->
    (vx a <= vx p <= vx b \/ vx b <= vx p <= vx a) /\
    (vy a <= vy p <= vy b \/ vy b <= vy p <= vy a) /\
    (vz a <= vz p <= vz b \/ vz b <= vz p <= vz a).
Proof.
  assert (nonempty (from_unsorted a b)) as Hn.
  { unfold nonempty, from_unsorted; simpl. lia. }
  split; [done|]. split; [by apply area_valid_iff|].
  intros p. rewrite contains_iff, from_unsorted_inside. lia.
Qed.
