(** What clone and overlay with offset do to one block, as a pure function *)
From Verif Require Import SysProofs RunProofs ArgProofs ThreadProofs SpatialProofs MapProofs CodecProofs
  BlockProofs QueryProofs UtilsProofs EditProofs BodyProofs MixProofs FragProofs SpecCopy Spec.

(** ** Source blocks *)
Definition src_at (E : ext) (m : mapdata) (sp : vec3) : option block :=
  if is_valid_block_pos sp then
    match load_res E (m !! key_of sp) with Some (Ok b) => Some b | _ => None end
  else None.

Lemma within_key sp : within 1937 sp -> key_range sp.
Proof. unfold within, key_range. lia. Qed.

Lemma load_res_ok E d b : ext_ok E ->
  load_res E d = Some (Ok b) <-> exists x, d = Some x /\ deserialize E x = Ok b /\ ~ not_generated b.
Proof.
  intros HE. unfold load_res, Commands.keep. destruct d as [x|]; [|naive_solver]. split.
  - destruct (is_valid_generated E x) eqn:Eg; [|done]. intros [= Ed]. exists x. split; [done|]. split; [done|].
    rewrite <-(claims_flags E x b HE Ed). by apply claims_iff.
  - intros (? & [= <-] & Ed & Hg). rewrite <-(claims_flags E x b HE Ed) in Hg. apply claims_iff in Hg.
    rewrite Hg. simpl. by rewrite Ed.
Qed.

Lemma found_iff E m p sb j : ext_ok E ->
  found E m p sb j <-> src_at E m (block_of p) = Some sb /\ j = idx_in p.
Proof.
  intros HE. unfold found, src_at, holds. split.
  - intros (bp & Hw & (k & x & [Hk ->] & Hx & Hd & Hg) & Hj & <-).
    destruct (abs_pos_block bp j Hj) as [-> ->]. split; [|done].
    rewrite (proj2 (valid_block_pos bp) Hw).
    assert (load_res E (m !! key_of bp) = Some (Ok sb)) as ->; [|done].
    apply load_res_ok; [done|]. by exists x.
  - intros [H ->]. destruct (is_valid_block_pos _) eqn:Ev; [|done]. apply valid_block_pos in Ev.
    destruct (load_res E (m !! key_of (block_of p))) as [[b|]|] eqn:El; [|done..]. inv H.
    apply load_res_ok in El as (x & Hx & Hd & Hg); [|done].
    exists (block_of p). split; [done|]. split; [|apply idx_in_ok].
    exists (key_of (block_of p)), x. split; [|done]. split; [by apply within_key|done].
Qed.

(** ** One destination block *)
Definition copy_src (E : ext) (m : mapdata) (part : area) (off dpos : vec3) (b : block) (sp : vec3) : out block :=
  match src_at E m sp with
  | Some src => copy_frag src b (area_sub part off) off sp dpos
  | None => Ret b
  end.
Definition copy_out (E : ext) (m : mapdata) (part : area) (off dpos : vec3) (dst : block) : out block :=
  let* ps := unwrap (area_positions (to_touching_block_area (area_sub part off))) in
  foldO (copy_src E m part off dpos) ps dst.

Lemma pieces_bound off : 1 <= pieces off <= 8.
Proof. unfold pieces. repeat destruct (_ =? 0); lia. Qed.
Lemma room_7280 off : room off 7280 7280.
Proof. unfold room. pose proof (pieces_bound off). lia. Qed.

Lemma roomy_7280 E g main src : blocks E main (sound 7280) -> blocks E src (sound 7280) -> roomy E g main src.
Proof. intros. exists 7280, 7280. split; [apply room_7280|done]. Qed.

Lemma one_or_two d p q o : 16 * d <= p -> p <= q -> q <= 16 * d + 15 ->
  0 <= Z.of_nat (Z.to_nat ((q - o) / 16 - (p - o) / 16 + 1)) <= (if o mod 16 =? 0 then 1 else 2).
Proof. intros ? ? ?. destruct (Z.eqb_spec (o mod 16) 0); lia. Qed.
Lemma few_blocks p q dpos off : node_in_block dpos p -> node_in_block dpos q -> nonempty (Area p q) ->
  Z.of_nat (length (enum_area (to_touching_block_area (Area (minus p off) (minus q off))))) <= pieces off.
Proof.
  intros (Hpx & Hpy & Hpz) (Hqx & Hqy & Hqz) (Hx & Hy & Hz). simpl in Hx, Hy, Hz.
  rewrite enum_area_length. unfold area_size, to_touching_block_area, vmap, minus; simpl.
  rewrite !Nat2Z.inj_mul. unfold pieces.
  generalize (one_or_two (vx dpos) (vx p) (vx q) (vx off) ltac:(lia) ltac:(lia) ltac:(lia)),
    (one_or_two (vy dpos) (vy p) (vy q) (vy off) ltac:(lia) ltac:(lia) ltac:(lia)),
    (one_or_two (vz dpos) (vz p) (vz q) (vz off) ltac:(lia) ltac:(lia) ltac:(lia)).
  match goal with |- 0 <= ?x <= _ -> 0 <= ?y <= _ -> 0 <= ?z <= _ -> _ => generalize x, y, z end.
  clear. intros x y z. repeat destruct (_ =? 0); intros ? ? ?; assert (0 <= z * y <= 4) by nia; nia.
Qed.

Lemma src_at_good E m sp b k : blocks E m (sound k) -> ext_ok E -> src_at E m sp = Some b -> good k b.
Proof.
  intros Hb HE. unfold src_at. destruct (is_valid_block_pos sp); [|done].
  destruct (load_res E _) as [[b'|]|] eqn:El; [|done..]. intros [= ->].
  apply load_res_ok in El as (x & Hx & Hd & _); [|done].
  apply sound_good; [by eapply deserialize_wf|by eapply Hb].
Qed.

Section one.
  Context (E : ext) (m : mapdata) (part : area) (off dpos : vec3) (dst : block).
  Context {nd ns : Z} (HE : ext_ok E) (Hm : blocks E m (sound ns)) (Hdst : good nd dst) (Hroom : room off nd ns).
  Context (Hne : nonempty part) (Hin : forall p, inside part p -> node_in_block dpos p).
  Context (Hd : within 6000 dpos) (Ho : within 62000 off).

  Definition origin (i : Z) : vec3 := minus (abs_pos dpos i) off.
  Definition copied (ps : list vec3) (b : block) : Prop :=
    forall i, 0 <= i < 4096 ->
      match (if decide (inside part (abs_pos dpos i) /\ block_of (origin i) ∈ ps)
             then src_at E m (block_of (origin i)) else None) with
      | Some sb => raw_same b i sb (idx_in (origin i))
      | None => raw_same b i dst i
      end.

  Lemma copy_out_ok : exists b, copy_out E m part off dpos dst = Ret b /\ good 65534 b /\ raw_rest dst b /\
    forall i, 0 <= i < 4096 ->
      match (if decide (inside part (abs_pos dpos i)) then src_at E m (block_of (origin i)) else None) with
      | Some sb => raw_same b i sb (idx_in (origin i))
      | None => raw_same b i dst i
      end.
  Proof.
    pose proof (sub_exact part off dpos Hne Hin Hd Ho) as Esub.
    pose proof (part_corners part dpos Hne Hin) as [Hc1 Hc2].
    assert (nonempty (area_sub part off)) as Hne'.
    { rewrite Esub. unfold nonempty, minus in *; simpl. lia. }
    assert (area_within 200000 (area_sub part off)) as Haw.
    { rewrite Esub. unfold area_within, within, node_in_block, minus in *; simpl. lia. }
    set (ps := enum_area (to_touching_block_area (area_sub part off))).
    assert (Z.of_nat (length ps) <= pieces off) as Hlen.
    { unfold ps. rewrite Esub. apply (few_blocks _ _ dpos); [done|done|]. by destruct part. }
    destruct Hroom as (Hnd0 & Hns0 & Hroom').
    assert (forall k, 0 <= k <= Z.of_nat (length ps) -> nd + (ns + 1) * k <= 65534) as Hfit by (intros; nia).
    unfold copy_out. rewrite area_positions_enum; cycle 1.
    { by apply to_touching_nonempty. }
    { revert Haw. clear. generalize (area_sub part off). intros a Ha.
      unfold area_within, within, to_touching_block_area, vmap in *; simpl. lia. }
    cbn [unwrap bindO]. fold ps.
    destruct (foldO_inv (copy_src E m part off dpos) (fun d b =>
      good (nd + (ns + 1) * Z.of_nat (length d)) b /\ raw_rest dst b /\ copied d b) ps dst) as (b & Eb & Hb & Hr & Hc).
    - split; [|split; [apply raw_rest_refl|]].
      + eapply good_upto; [|done]. simpl. lia.
      + intros i Hi. rewrite decide_False; [apply raw_refl|]. intros [_ H]. by apply elem_of_nil in H.
    - intros d sp r b Eps (Hb & Hr & Hc). unfold copy_src.
      assert (sp ∈ ps) as Hsp by (rewrite Eps; set_solver).
      assert (sp ∉ d) as Hspd.
      { pose proof (enum_area_NoDup (to_touching_block_area (area_sub part off))) as Hnd. fold ps in Hnd. rewrite Eps in Hnd.
        apply NoDup_app in Hnd as (_ & Hnd & _). intros H. apply (Hnd sp H). left. }
      assert (Z.of_nat (length d) < Z.of_nat (length ps)) as Hdl.
      { rewrite Eps, app_length. simpl. lia. }
      rewrite app_length. cbn [length].
      pose proof (Hfit (Z.of_nat (length d) + 1) ltac:(lia)) as Hfit1.
      assert (0 <= (ns + 1) * Z.of_nat (length d)) as Hfit0 by nia.
      destruct (src_at E m sp) as [src|] eqn:Esrc; cycle 1.
      { exists b. split; [done|]. split; [eapply good_upto; [|done]; lia|]. split; [done|].
        intros i Hi. specialize (Hc i Hi).
        destruct (decide (inside part (abs_pos dpos i) /\ block_of (origin i) ∈ d)) as [H|H].
        - rewrite decide_True; [done|]. destruct H. split; [done|]. set_solver.
        - destruct (decide (inside part (abs_pos dpos i) /\ block_of (origin i) ∈ d ++ [sp])) as [[H1 H2]|H2]; [|done].
          assert (block_of (origin i) = sp) as Eo.
          { apply elem_of_app in H2 as [H2|H2]; [tauto|]. by apply elem_of_list_singleton in H2. }
          by rewrite Eo, Esrc. }
      destruct (frag_boxes part off dpos sp Hne Hin Hd Ho) as (abs & dr & Ea & Er & Hbs & Hbd & Hsz & Hiff & Hmat).
      { unfold ps in Hsp. apply elem_of_enum_area in Hsp. apply to_touching_iff in Hsp as (q & H1 & H2); [|done].
        by exists q. }
      set (sr := area_sub abs (vmuls sp 16)) in *.
      destruct (mix_ok src b sr dr ns (nd + (ns + 1) * Z.of_nat (length d))) as (b' & Em & Hb' & Hr' & Hi');
        [by eapply src_at_good|done..|lia|lia|lia|].
      exists b'. split.
      { unfold copy_frag. rewrite Ea. cbn [unwrap bindO]. fold sr. rewrite Er. cbn [unwrap bindO]. exact Em. }
      split; [eapply good_upto; [|done]; lia|]. split; [by eapply raw_rest_trans|].
      intros i Hi. specialize (Hc i Hi). specialize (Hi' i Hi). specialize (Hiff i Hi). specialize (Hmat i Hi).
      fold (origin i) in Hiff, Hmat.
      destruct (decide (inside dr (idx_pos i))) as [Hdi|Hdi].
      + rewrite decide_True.
        * apply Hiff in Hdi as Hd2. destruct Hd2 as [_ ->]. rewrite Esrc. by rewrite <-Hmat.
        * apply Hiff in Hdi as [H1 ->]. split; [done|]. set_solver.
      + destruct (decide (inside part (abs_pos dpos i) /\ block_of (origin i) ∈ d)) as [[H1 H2]|H].
        * rewrite decide_True by (split; [done|]; set_solver).
          destruct (src_at E m (block_of (origin i))); by eapply raw_trans.
        * rewrite decide_False; [by eapply raw_trans|]. intros [H1 H2]. apply H. split; [done|].
          apply elem_of_app in H2 as [H2|H2]; [done|]. apply elem_of_list_singleton in H2.
          exfalso. apply Hdi, Hiff. done.
    - exists b. split; [done|]. split; [eapply good_upto; [|done]; apply Hfit; lia|]. split; [done|].
      intros i Hi. specialize (Hc i Hi).
      destruct (decide (inside part (abs_pos dpos i))) as [H|H].
      + rewrite decide_True in Hc; [done|]. split; [done|]. unfold ps. apply elem_of_enum_area, to_touching_iff; [done|].
        exists (origin i). split; [by apply block_of_iff|]. rewrite Esub. revert H. clear. unfold origin.
        generalize (abs_pos dpos i). intros p. unfold inside, minus; simpl. lia.
      + rewrite decide_False in Hc; [done|]. tauto.
  Qed.
End one.
