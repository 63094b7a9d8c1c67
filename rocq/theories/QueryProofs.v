(** Which rows a query selects *)
From Verif Require Import SysProofs RunProofs SpecCmd SpatialProofs MapProofs CodecProofs CodecRound BlockProofs Spec.

Lemma block_at_key k bp : block_at k bp -> key_range bp /\ from_block_key k = bp.
Proof. intros [H ->]. split; [done|]. by apply (from_key_of bp). Qed.
Lemma block_at_fun k bp bp' : block_at k bp -> block_at k bp' -> bp = bp'.
Proof. intros [_ H]%block_at_key [_ H']%block_at_key. congruence. Qed.

Lemma area_ok_big a : area_within 100000 a -> area_within 1000000000 a.
Proof. unfold area_within, within. lia. Qed.

Lemma be16_w16 z : be16 (w16 z) = be16 z.
Proof.
  unfold be16. f_equal; [|f_equal].
  - apply b2z_inj. rewrite !b2z_z2b. unfold w16. lia.
  - apply b2z_inj. rewrite !b2z_z2b. unfold w16. lia.
Qed.

Lemma find_sub_is_Some pat s : is_Some (find_sub pat s) <-> occurs pat s.
Proof.
  split.
  - intros [i H]. apply find_sub_Some in H. destruct H as ((l & r & -> & _) & _). by exists l, r.
  - intros H. destruct (find_sub pat s) eqn:Ef; [by eexists|]. by apply find_sub_None in Ef.
Qed.

Lemma name_match (names : list bytes) (x : bytes) :
  (match x with
   | v :: _ => negb ((b2z v <=? 28) && negb (bool_decide (string16 <$> names = []))
       && negb (existsb (fun p => bool_decide (is_Some (find_sub p x))) (string16 <$> names)))
   | [] => true
   end) = true <-> mentions names x.
Proof.
  assert (bool_decide (string16 <$> names = []) = bool_decide (names = [])) as ->
    by (by destruct names).
  assert (existsb (fun p => bool_decide (is_Some (find_sub p x))) (string16 <$> names) = true <->
    exists n, n ∈ names /\ occurs (be16 (Z.of_nat (length n)) ++ n) x) as Hex.
  { rewrite existsb_exists. split.
    - intros (p & Hp%elem_of_list_In%elem_of_list_fmap & Hf). destruct Hp as (n & -> & Hn).
      exists n. split; [done|]. apply bool_decide_eq_true in Hf. unfold string16 in Hf.
      rewrite be16_w16 in Hf. by apply find_sub_is_Some.
    - intros (n & Hn & Ho). exists (string16 n). split.
      + apply elem_of_list_In, elem_of_list_fmap. by exists n.
      + apply bool_decide_eq_true. unfold string16. rewrite be16_w16.
        destruct (find_sub _ x) eqn:Ef; [by eexists|]. by apply find_sub_None in Ef. }
  unfold mentions. destruct x as [|v r].
  - split; [|done]. intros _. right; left. done.
  - rewrite <-Hex. destruct (b2z v <=? 28) eqn:Ev; simpl.
    + destruct (bool_decide_reflect (names = [])) as [->|Hne]; simpl; [by split; [left|]|].
      rewrite negb_involutive. split; [by do 2 right|].
      intros [?|[H|H]]; [done| |done]. specialize (H v r eq_refl). lia.
    + split; [|done]. intros _. right; left. intros v' r' [= <- <-]. lia.
Qed.

Lemma area_row a inv partial k bp : block_at k bp -> area_ok a ->
  (negb (query_empty a inv partial) || inv) &&
  (if query_empty a inv partial then true else
   match query_area a inv partial with
   | Some ba => negb (Bool.eqb (contains ba (from_block_key k)) inv)
   | None => true
   end) = true <-> visit a inv partial bp.
Proof.
  intros Hk Ha. apply block_at_key in Hk as [Hr ->]. unfold query_empty, query_area, visit, selected.
  assert (node_in_block bp (block_corner bp)) as Hc.
  { unfold node_in_block, block_corner; simpl. lia. }
  destruct a as [a|]; simpl.
  2: { split; [|done]. intros _. destruct partial; [|done]. by exists (block_corner bp). }
  destruct Ha as [Hne Ha%area_ok_big].
  pose proof (contained_range a Ha) as Hcont.
  destruct (touching_range a Hne) as [_ Htouch].
  destruct inv, partial; simpl.
  - destruct (to_contained_block_area a) as [ba|]; simpl.
    + destruct Hcont as [_ Hcont]. rewrite contains_bool.
      split.
      * intros Hb. destruct (bool_decide_reflect (inside ba bp)) as [|Hn]; [done|].
        (* a block not contained has a node outside: decide over corners *)
        destruct (decide (contains_block a bp = true)) as [Hb2|Hb2].
        { exfalso. apply Hn, Hcont. by apply contains_block_iff; [apply key_range_within|]. }
        assert (~ forall q, node_in_block bp q -> inside a q) as Hq.
        { intros Hq. apply Hb2. by apply contains_block_iff; [apply key_range_within|]. }
        clear -Hq Hne. unfold contains_block in *.
        destruct (decide (inside a (block_corner bp))) as [Hi|Hi].
        2: { exists (block_corner bp). split; [|done]. unfold node_in_block, block_corner; simpl. lia. }
        set (q := V3 (16 * vx bp + 15) (16 * vy bp + 15) (16 * vz bp + 15)).
        exists q. split; [unfold node_in_block, q; simpl; lia|]. intros Hi2. apply Hq.
        intros p Hp. unfold node_in_block, inside, block_corner, q in *; simpl in *. lia.
      * intros (q & Hq & Hni). apply negb_true_iff. 
        destruct (bool_decide_reflect (inside ba bp)) as [Hi|]; [|done].
        exfalso. apply Hni. by apply (proj1 (Hcont bp) Hi).
    + split; [|done]. intros _. destruct (Hcont bp) as (q & Hq & Hn). by exists q.
  - rewrite contains_bool. split.
    + intros Hb q Hq Hi. destruct (bool_decide_reflect (inside (to_touching_block_area a) bp)) as [|Hn]; [done|].
      apply Hn, Htouch. by exists q.
    + intros H. destruct (bool_decide_reflect (inside (to_touching_block_area a) bp)) as [Hi|]; [|done].
      apply Htouch in Hi as (q & Hq & Hi). by destruct (H q Hq).
  - rewrite contains_bool. destruct (bool_decide_reflect (inside (to_touching_block_area a) bp)) as [Hi|Hi]; simpl.
    + split; [|done]. intros _. by apply Htouch.
    + split; [done|]. intros H. by apply Htouch in H.
  - destruct (to_contained_block_area a) as [ba|]; simpl.
    + destruct Hcont as [_ Hcont]. rewrite contains_bool.
      destruct (bool_decide_reflect (inside ba bp)) as [Hi|Hi]; simpl.
      * split; [|done]. intros _. by apply Hcont.
      * split; [done|]. intros H. by apply Hcont in H.
    + split; [done|]. intros H. destruct (Hcont bp) as (q & Hq & Hn). by destruct Hn; apply H.
Qed.

Lemma row_sel_iff names a inv partial k bp x : block_at k bp -> area_ok a ->
  row_sel names a inv partial k x = true <-> visit a inv partial bp /\ mentions names x.
Proof.
  intros Hk Ha. unfold row_sel, row_match. rewrite <-(area_row a inv partial k bp Hk Ha), <-name_match.
  rewrite !andb_true_iff. tauto.
Qed.

(** ** Names in raw data *)

Lemma exact_split {A} (p : parser A) s x r : exact p -> p s = Ok (x, r) -> exists d, s = d ++ r.
Proof. intros Hp H. apply Hp in H as (c & -> & _). by exists c. Qed.

Lemma rep_elem {A} (p : parser A) n s l r a : consuming p -> exact p -> rep p n s = Ok (l, r) -> a ∈ l ->
  exists d s' r', s = d ++ s' /\ p s' = Ok (a, r').
Proof.
  intros Hc He. revert n s r. induction l as [|y l IH]; intros n s r H Ha; [by apply elem_of_nil in Ha|].
  rewrite rep_unfold in H by done. destruct (n <=? 0); [by inv H|].
  apply bindR_Ok in H as ([y' s1] & H1 & H). apply bindR_Ok in H as ([l' s2] & H2 & H). inv H.
  apply elem_of_cons in Ha as [->|Ha].
  - by exists [], s, s1.
  - destruct (IH _ _ _ H2 Ha) as (d & s' & r' & -> & Hp).
    destruct (exact_split _ _ _ _ He H1) as [d1 ->]. exists (d1 ++ d), s', r'. by rewrite <-app_assoc.
Qed.

Lemma read_string16_data s n r : read_string16 s = Ok (n, r) -> s = (be16 (Z.of_nat (length n)) ++ n) ++ r.
Proof.
  intros H. unfold read_string16 in H. apply bindR_Ok in H as ([z t] & H1 & H).
  pose proof (yields_u16 _ _ _ H1) as Hz. unfold u16_ok in Hz.
  pose proof (yields_try z ltac:(lia) _ _ _ H) as Hl.
  rewrite try_read_n_eq in H by lia. unfold rd_n in H. case_decide; [|done]. inv H.
  destruct s as [|a [|b t']]; [done..|]. inv H1.
  rewrite <-app_assoc. unfold be16. simpl. rewrite take_drop. unfold be16_dec in *.
  pose proof (b2z_range a). pose proof (b2z_range b). f_equal; [|f_equal].
  - apply b2z_inj. rewrite b2z_z2b. rewrite Hl. lia.
  - apply b2z_inj. rewrite b2z_z2b. rewrite Hl. lia.
Qed.

Lemma occurs_app_l pat d s : occurs pat s -> occurs pat (d ++ s).
Proof. intros (l & r & ->). exists (d ++ l), r. by rewrite <-app_assoc. Qed.
Lemma occurs_app_r pat d s : occurs pat d -> occurs pat (d ++ s).
Proof. intros (l & r & ->). exists l, (r ++ s). by rewrite <-!app_assoc. Qed.

Lemma rd_nimap_occurs s m r id n : rd_nimap s = Ok (m, r) -> m !! id = Some n ->
  occurs (be16 (Z.of_nat (length n)) ++ n) s.
Proof.
  intros H Hm. unfold rd_nimap in H. apply bindR_Ok in H as ([v s1] & H1 & H).
  destruct (negb _); [done|]. apply bindR_Ok in H as ([c s2] & H2 & H).
  apply bindR_Ok in H as ([l s3] & H3 & H). inv H.
  apply insert_all_elem in Hm.
  destruct (exact_split _ _ _ _ exact_rd_byte H1) as [d1 ->].
  destruct (exact_split _ _ _ _ exact_rd_u16 H2) as [d2 ->].
  destruct (rep_elem _ _ _ _ _ _ consuming_nimap_entry exact_nimap_entry H3 Hm) as (d & s' & r' & -> & Hp).
  do 3 apply occurs_app_l. unfold rd_nimap_entry in Hp.
  apply bindR_Ok in Hp as ([id' t1] & Hp1 & Hp). apply bindR_Ok in Hp as ([n' t2] & Hp2 & Hp). inv Hp.
  destruct (exact_split _ _ _ _ exact_rd_u16 Hp1) as [d3 ->]. apply occurs_app_l.
  apply read_string16_data in Hp2 as ->. apply occurs_app_r. exists [], []. by rewrite app_nil_r.
Qed.

Lemma lua_entity_occurs o n d : lua_entity o = Ok (n, d) -> occurs (be16 (Z.of_nat (length n)) ++ n) (odata o).
Proof.
  intros H. unfold lua_entity in H. destruct (negb _); [done|].
  apply bindR_Ok in H as ([v s1] & H1 & H). destruct (negb _); [done|].
  apply bindR_Ok in H as ([n' s2] & H2 & H). apply bindR_Ok in H as ([d' s3] & H3 & H). inv H.
  destruct (exact_split _ _ _ _ exact_rd_byte H1) as [d1 ->]. apply occurs_app_l.
  apply read_string16_data in H2 as ->. apply occurs_app_r. exists [], []. by rewrite app_nil_r.
Qed.

Lemma rd_objects_occurs s l r o n d : rd_objects s = Ok (l, r) -> o ∈ l -> lua_entity o = Ok (n, d) ->
  occurs (be16 (Z.of_nat (length n)) ++ n) s.
Proof.
  intros H Ho Hn. unfold rd_objects in H. apply bindR_Ok in H as ([v s1] & H1 & H).
  destruct (negb _); [done|]. apply bindR_Ok in H as ([c s2] & H2 & H).
  destruct (exact_split _ _ _ _ exact_rd_byte H1) as [d1 ->].
  destruct (exact_split _ _ _ _ exact_rd_u16 H2) as [d2 ->].
  destruct (rep_elem _ _ _ _ _ _ consuming_object exact_object H Ho) as (d0 & s' & r' & -> & Hp).
  do 3 apply occurs_app_l. unfold rd_object in Hp.
  apply bindR_Ok in Hp as ([? t1] & Hp1 & Hp). apply bindR_Ok in Hp as ([? t2] & Hp2 & Hp).
  apply bindR_Ok in Hp as ([? t3] & Hp3 & Hp). apply bindR_Ok in Hp as ([? t4] & Hp4 & Hp).
  apply bindR_Ok in Hp as ([dat t5] & Hp5 & Hp). inv Hp.
  destruct (exact_split _ _ _ _ exact_rd_byte Hp1) as [? ->].
  destruct (exact_split _ _ _ _ exact_rd_i32 Hp2) as [? ->].
  destruct (exact_split _ _ _ _ exact_rd_i32 Hp3) as [? ->].
  destruct (exact_split _ _ _ _ exact_rd_i32 Hp4) as [? ->].
  do 4 apply occurs_app_l. apply read_string16_data in Hp5 as ->.
  apply occurs_app_r, occurs_app_l. by apply lua_entity_occurs in Hn.
Qed.

(** Every name of the name table, and every entity name, occurs in the raw data. *)
Lemma deserialize_occurs E x b : deserialize E x = Ok b -> version b <= 28 ->
  (forall id n, nimap b !! id = Some n -> occurs (be16 (Z.of_nat (length n)) ++ n) x) /\
  (forall o n d, o ∈ objects b -> lua_entity o = Ok (n, d) -> occurs (be16 (Z.of_nat (length n)) ++ n) x).
Proof.
  intros H Hv. unfold deserialize, MIN_BLOCK_VER, MAX_BLOCK_VER in H.
  apply bindR_Ok in H as ([vb s] & H1 & H). cbv zeta in H. destruct (_ || _); [done|].
  destruct (exact_split _ _ _ _ exact_rd_byte H1) as [d1 ->].
  destruct (Z.leb_spec 29 (b2z vb)).
  { exfalso. destruct (zs_dec E s) as [d|]; [|done]. unfold deser_29 in H.
    do 6 (apply bindR_Ok in H as ([? ?] & _ & H)). destruct (_ || _); [done|].
    do 4 (apply bindR_Ok in H as ([? ?] & _ & H)). inv H. simpl in Hv. lia. }
  unfold deser_28 in H.
  apply bindR_Ok in H as ([fl s1] & H2 & H). apply bindR_Ok in H as ([lc s2] & H3 & H).
  apply bindR_Ok in H as ([cw s3] & H4 & H). apply bindR_Ok in H as ([pw s4] & H5 & H).
  destruct (_ || _); [done|].
  apply bindR_Ok in H as ([nd s5] & H6 & H). apply bindR_Ok in H as ([md s6] & H7 & H).
  apply bindR_Ok in H as ([os s7] & H8 & H). apply bindR_Ok in H as ([ts s8] & H9 & H).
  apply bindR_Ok in H as ([nm s9] & H10 & H). apply bindR_Ok in H as ([tm s10] & H11 & H). inv H.
  assert (exists d, s = d ++ s6) as [d ->].
  { destruct (exact_split _ _ _ _ exact_rd_byte H2) as [? ->].
    assert (exists d, s1 = d ++ s2) as [? ->].
    { destruct (27 <=? b2z vb); [by apply (exact_split _ _ _ _ exact_rd_u16 H3)|]. inv H3. by exists []. }
    destruct (exact_split _ _ _ _ exact_rd_byte H4) as [? ->].
    destruct (exact_split _ _ _ _ exact_rd_byte H5) as [? ->].
    assert (exists d, s4 = d ++ s5) as [? ->].
    { unfold rd_node_data_z in H6. destruct (zl_dec E s4) as [[d n]|]; [|done].
      apply bindR_Ok in H6 as ([? ?] & _ & H6). destruct (negb _); [done|]. inv H6.
      exists (take n s4). by rewrite take_drop. }
    assert (exists d, s5 = d ++ s6) as [? ->].
    { unfold rd_metadata_z in H7. destruct (zl_dec E s5) as [[d n]|]; [|done].
      apply bindR_Ok in H7 as ([? ?] & _ & H7). inv H7.
      exists (take n s5). by rewrite take_drop. }
    rewrite !app_assoc. by eexists. }
  split; cbn [nimap objects].
  - intros id n Hn. do 2 apply occurs_app_l.
    destruct (exact_split _ _ _ _ exact_objects H8) as [? ->].
    destruct (exact_split _ _ _ _ exact_rd_u32 H9) as [? ->].
    do 2 apply occurs_app_l. by eapply rd_nimap_occurs.
  - intros o n d' Ho Hn. do 2 apply occurs_app_l. by eapply rd_objects_occurs.
Qed.

Lemma deserialize_version E x b : deserialize E x = Ok b -> exists v r, x = v :: r /\ version b = b2z v.
Proof.
  intros H. unfold deserialize, MIN_BLOCK_VER, MAX_BLOCK_VER in H. destruct x as [|v r]; [done|].
  cbn [rd_byte bindR] in H. cbv zeta in H. destruct (_ || _); [done|]. exists v, r. split; [done|].
  destruct (29 <=? b2z v).
  - destruct (zs_dec E r) as [d|]; [|done]. unfold deser_29 in H.
    do 6 (apply bindR_Ok in H as ([? ?] & _ & H)). destruct (_ || _); [done|].
    do 4 (apply bindR_Ok in H as ([? ?] & _ & H)). by inv H.
  - unfold deser_28 in H.
    do 4 (apply bindR_Ok in H as ([? ?] & _ & H)). destruct (_ || _); [done|].
    do 6 (apply bindR_Ok in H as ([? ?] & _ & H)). by inv H.
Qed.

Lemma mentions_nimap E x b id n names : deserialize E x = Ok b -> nimap b !! id = Some n -> n ∈ names ->
  mentions names x.
Proof.
  intros H Hm Hn. destruct (deserialize_version _ _ _ H) as (v & r & -> & Hv).
  destruct (decide (28 < version b)) as [Hb|Hb].
  - right; left. intros v' r' [= <- <-]. lia.
  - do 2 right. exists n. split; [done|]. destruct (deserialize_occurs _ _ _ H ltac:(lia)) as [H1 _]. by eapply H1.
Qed.
Lemma mentions_object E x b o n d names : deserialize E x = Ok b -> o ∈ objects b ->
  lua_entity o = Ok (n, d) -> n ∈ names -> mentions names x.
Proof.
  intros H Ho Hl Hn. destruct (deserialize_version _ _ _ H) as (v & r & -> & Hv).
  destruct (decide (28 < version b)) as [Hb|Hb].
  - right; left. intros v' r' [= <- <-]. lia.
  - do 2 right. exists n. split; [done|]. destruct (deserialize_occurs _ _ _ H ltac:(lia)) as [_ H1]. by eapply H1.
Qed.
