(** Argument checks *)
From Verif Require Import SpecRun SpatialProofs CodecProofs Spec.

Lemma is_lower_iff c : is_lower c = true <-> lower_char c.
Proof. unfold is_lower, lower_char. lia. Qed.
Lemma is_upper_iff c : is_upper c = true <-> upper_char c.
Proof. unfold is_upper, upper_char. lia. Qed.
Lemma is_digit_iff c : is_digit c = true <-> digit_char c.
Proof. unfold is_digit, digit_char. lia. Qed.

Lemma mod_char_iff c : is_lower c || is_digit c || bool_decide (c = x5f) = true <->
  lower_char c \/ digit_char c \/ c = x5f.
Proof. rewrite !orb_true_iff, is_lower_iff, is_digit_iff, bool_decide_eq_true. tauto. Qed.
Lemma item_char_iff c : is_lower c || is_upper c || is_digit c || bool_decide (c = x5f) = true <->
  lower_char c \/ upper_char c \/ digit_char c \/ c = x5f.
Proof. rewrite !orb_true_iff, is_lower_iff, is_upper_iff, is_digit_iff, bool_decide_eq_true. tauto. Qed.

Lemma forallb_iff {A} (f : A -> bool) (P : A -> Prop) l : (forall x, f x = true <-> P x) ->
  forallb f l = true <-> Forall P l.
Proof.
  intros H. rewrite forallb_forall, Forall_forall. split; intros HH x Hx.
  - apply H, HH. by apply elem_of_list_In.
  - apply H, HH. by apply elem_of_list_In.
Qed.

Lemma valid_name_iff n : is_valid_name n = true <-> name_ok n.
Proof.
  unfold is_valid_name, name_ok. destruct (bool_decide (n = bstr "air")) eqn:E1.
  { apply bool_decide_eq_true in E1. simpl. tauto. }
  destruct (bool_decide (n = bstr "ignore")) eqn:E2.
  { apply bool_decide_eq_true in E2. simpl. tauto. }
  apply bool_decide_eq_false in E1, E2. simpl.
  destruct (find_sub [x3a] n) as [d|] eqn:E.
  - apply find_sub_Some in E as ((l & r & -> & <-) & Hmin).
    rewrite take_app. replace (drop (S (length l)) (l ++ [x3a] ++ r)) with r.
    2:{ change (l ++ [x3a] ++ r) with (l ++ x3a :: r). rewrite cons_middle, app_assoc.
        rewrite drop_app_alt; [done|]. rewrite app_length. simpl. lia. }
    rewrite andb_true_iff, (forallb_iff _ _ _ mod_char_iff), (forallb_iff _ _ _ item_char_iff).
    split.
    + intros [H1 H2]. right. right. by exists l, r.
    + intros [?|[?|(m & i & Hn & Hm & Hi)]]; [done..|].
      assert (l = m) as ->.
      { assert (length l <= length m)%nat as Hle by (apply (Hmin m i); exact Hn).
        assert (length l = length m \/ length l < length m)%nat as [Hl|Hl] by lia.
        - apply app_inj_1 in Hn; [by destruct Hn|done].
        - exfalso. assert (m !! length l = Some x3a) as Hc.
          { assert ((m ++ [x3a] ++ i) !! length l = Some x3a) as Hx.
            { replace (m ++ [x3a] ++ i) with (l ++ [x3a] ++ r) by exact Hn. rewrite lookup_app_r by lia. by rewrite Nat.sub_diag. }
            by rewrite lookup_app_l in Hx by done. }
          apply elem_of_list_lookup_2 in Hc. rewrite Forall_forall in Hm. apply Hm in Hc.
          destruct Hc as [Hc|[Hc|Hc]]; [by unfold lower_char in Hc; vm_compute in Hc; destruct Hc|
            by unfold digit_char in Hc; vm_compute in Hc; destruct Hc|done]. }
      apply app_inv_head in Hn. simpl in Hn. inv Hn. done.
  - apply find_sub_None in E. split; [done|].
    intros [?|[?|(m & i & -> & _)]]; [done..|]. exfalso. apply E. by exists m, i.
Qed.

Lemma first_bad_None l : first_bad l = None <-> Forall name_ok l.
Proof.
  unfold first_bad. rewrite Forall_forall. split.
  - intros H n Hn. apply valid_name_iff. destruct (is_valid_name n) eqn:E; [done|].
    assert (n ∈ filter (fun n => is_valid_name n = false) l) as Hf by by apply elem_of_list_filter.
    destruct (filter _ l); [set_solver|done].
  - intros H. destruct (filter _ l) as [|n l'] eqn:E; [done|].
    assert (n ∈ filter (fun n => is_valid_name n = false) l) as Hf by (rewrite E; left).
    apply elem_of_list_filter in Hf as [Hf Hn]. apply H in Hn. apply valid_name_iff in Hn. congruence.
Qed.

Lemma chk_None a b : chk a b = None <-> a = None /\ b = None.
Proof. destruct a; simpl; split; [done|by intros []|by split|by intros []]. Qed.

Lemma fmap_None' {A B} (f : A -> B) (o : option A) : f <$> o = None <-> o = None.
Proof. by rewrite fmap_None. Qed.

Lemma valid_node_iff p : is_valid_node_pos p = true <-> within 31000 p.
Proof. unfold is_valid_node_pos, within, MAP_LIMIT. lia. Qed.

Lemma verify_args_iff g : verify_args g = None <->
  (invert g = true -> is_Some (aarea g)) /\
  (forall a, aarea g = Some a -> within 31000 (amin a) /\ within 31000 (amax a)) /\
  (forall o, offset g = Some o -> within 62000 o) /\
  Forall name_ok (all_names g).
Proof.
  unfold verify_args. rewrite !chk_None, !fmap_None', !first_bad_None. unfold all_names.
  rewrite !Forall_app.
  assert ((if is_none (aarea g) && invert g then Some InvertNoArea else None) = None <->
    (invert g = true -> is_Some (aarea g))) as ->.
  { destruct (aarea g), (invert g); simpl; split; try done; intros H; try by eexists.
    by destruct (H eq_refl). }
  assert ((match aarea g with
       | Some a => if negb (is_valid_node_pos (amin a)) then Some (CornerOutside (amin a))
                   else if negb (is_valid_node_pos (amax a)) then Some (CornerOutside (amax a))
                   else None
       | None => None
       end) = None <-> (forall a, aarea g = Some a -> within 31000 (amin a) /\ within 31000 (amax a))) as ->.
  { destruct (aarea g) as [a|]; [|by split].
    destruct (is_valid_node_pos (amin a)) eqn:E1, (is_valid_node_pos (amax a)) eqn:E2; simpl;
      split; try done; intros H; try (intros a' Ha; inv Ha; rewrite <-!valid_node_iff; done);
      destruct (H a eq_refl) as [H1 H2]; apply valid_node_iff in H1, H2; congruence. }
  assert ((match offset g with
       | Some o => if huge (vx o) || huge (vy o) || huge (vz o) then Some OffsetTooLarge else None
       | None => None
       end) = None <-> (forall o, offset g = Some o -> within 62000 o)) as ->.
  { destruct (offset g) as [o|]; [|by split].
    assert (huge (vx o) || huge (vy o) || huge (vz o) = false <-> within 62000 o) as Hh.
    { unfold huge, within, MAP_LIMIT. lia. }
    destruct (huge (vx o) || huge (vy o) || huge (vz o)); split; try done; intros H.
    - exfalso. assert (true = false) by (by apply Hh, H). done.
    - intros o' Ho. inv Ho. by apply Hh. }
  tauto.
Qed.

Lemma dest_in_map_iff a o : nonempty a -> area_within 31000 a -> within 62000 o ->
  is_none (intersection map_area (area_add a o)) = false <-> dest_in_map a o.
Proof.
  intros Hn Ha Ho.
  assert (area_add a o = Area (plus (amin a) o) (plus (amax a) o)) as E.
  { unfold area_add, vadd, plus. f_equal; f_equal; apply w32_id; unfold i32_ok, area_within, within in *; lia. }
  rewrite E. unfold intersection, filter_valid, area_valid, map_area, MAP_LIMIT, dest_in_map, inside, within, plus.
  unfold nonempty in Hn. simpl.
  match goal with |- context [if ?c then _ else _] => destruct c eqn:Ec end; simpl.
  - split; [intros _|done].
    exists (V3 (Z.max (vx (amin a)) (-31000 - vx o)) (Z.max (vy (amin a)) (-31000 - vy o))
              (Z.max (vz (amin a)) (-31000 - vz o))). simpl. lia.
  - split; [done|]. intros (p & Hp & Hw). lia.
Qed.

Lemma legal_iff g : supplied g ->
  legal g <-> verify_args g = None /\ exists v, cmd_verify g = Ret v /\ forall e, v <> AError e.
Proof.
  intros [Hne Hs]. rewrite verify_args_iff. unfold legal.
  assert (forall P Q1 Q2 R S T : Prop, (P -> Q1 -> R -> S -> (T <-> Q2)) ->
    (P /\ Q1 /\ R /\ S /\ T <-> (P /\ Q1 /\ R /\ S) /\ Q2)) as Hlog by tauto.
  apply Hlog. clear Hlog. intros Hi Ha Ho _.
  assert (forall c e1, (exists v, Ret (if c : bool then AError e1 else AOk) = Ret v /\ forall e, v <> AError e) <-> c = false) as Hif.
  { intros [] e1; split.
    - intros (v & Hv & H). inv Hv. by destruct (H e1).
    - done.
    - done.
    - intros _. by exists AOk. }
  unfold cmd_verify, supplied in *. destruct (acmd g).
  - (* clone *)
    destruct (aarea g) as [a|]; [|by destruct Hs as [[] _]]. destruct (offset g) as [o|]; [|by destruct Hs as [_ []]].
    simpl. rewrite Hif, dest_in_map_iff; [|by apply Hne|by apply Ha|by apply Ho].
    split; [intros H; by apply H|]. intros H a' o' E1 E2. by inv E1; inv E2.
  - split; [intros _; by exists AOk|done].
  - split; [|done]. intros _. destruct (is_none _ && is_none _); eexists; split; done.
  - rewrite Hif. destruct (aobject g), (aitems g); simpl; split; try done; try tauto; intros [?|?]; done.
  - split; [intros _; by exists AOk|done].
  - split; [intros _; by exists AOk|done].
  - rewrite Hif. by rewrite bool_decide_eq_false.
  - (* replaceininv *)
    destruct (new_item g) as [n|]; simpl.
    + destruct (adelete g); simpl.
      * split; [by intros []|]. intros (v & Hv & H). inv Hv. by destruct (H NewItemForbidden).
      * rewrite Hif. rewrite andb_false_iff, bool_decide_eq_false, negb_false_iff.
        destruct (decide (aitem g = Some n)); tauto.
    + destruct (adelete g), (delete_meta g); simpl; rewrite ?andb_true_r, ?andb_false_r.
      * split; [|tauto]. intros _. by exists AOk.
      * split; [|tauto]. intros _. destruct Hs as [it Hit]. rewrite Hit. simpl. by exists AOk.
      * split; [|tauto]. intros _. by exists AOk.
      * split; [by intros [?|?]|]. intros (v & Hv & H). inv Hv. by destruct (H NewItemRequired).
  - (* overlay *)
    assert (forall c1 c2, (exists v, Ret (if c1 : bool then AError InvertedOffset else
        if c2 : bool then AError DestOutside else AOk) = Ret v /\ forall e, v <> AError e) <->
        c1 = false /\ c2 = false) as Hif2.
    { intros [] c2; [|rewrite Hif; tauto]. split; [|by intros []].
      intros (v & Hv & H). inv Hv. by destruct (H InvertedOffset). }
    cbn zeta. rewrite Hif2. clear Hif Hif2.
    assert (invert g && negb (is_none (keep (fun o => negb (bool_decide (o = V3 0 0 0))) (offset g))) = false
      <-> (invert g = true -> forall o, offset g = Some o -> o = V3 0 0 0)) as ->.
    { destruct (invert g); simpl; [|by split].
      destruct (offset g) as [o|]; simpl; [|by split].
      destruct (decide (o = V3 0 0 0)) as [->|Hz].
      - rewrite bool_decide_true by done. simpl. split; [|done]. intros _ _ o' E. by inv E.
      - rewrite bool_decide_false by done. simpl. split; [done|]. intros H. by destruct Hz; apply H. }
    change (Area (V3 (-31000) (-31000) (-31000)) (V3 31000 31000 31000)) with map_area.
    rewrite dest_in_map_iff; [done| | |].
    + destruct (aarea g) as [a|]; simpl; [by apply Hne|]. unfold nonempty; simpl. unfold MAP_LIMIT. lia.
    + destruct (aarea g) as [a|]; simpl; [by apply Ha|]. unfold area_within, within; simpl. unfold MAP_LIMIT. lia.
    + destruct (offset g) as [o|]; simpl; [by apply Ho|]. unfold within; simpl. lia.
  - (* setmetavar *)
    destruct (avalue g) as [x|]; simpl.
    + destruct (adelete g); simpl.
      * split; [by intros []|]. intros (v & Hv & H). inv Hv. by destruct (H ValueForbidden).
      * rewrite Hif, bool_decide_eq_false. split; [intros [_ H] E; by inv E|]. intros H. split; [done|].
        intros ->. by apply H.
    + destruct (adelete g); simpl.
      * split; [|done]. intros _. by exists AOk.
      * split; [done|]. intros (v & Hv & H). inv Hv. by destruct (H ValueRequired).
  - rewrite Hif. destruct (aarea g), (anode g); simpl; split; try done; try (intros; by eauto).
    + by intros [[]|[]].
  - split; [intros _; by exists AOk|done].
Qed.

(** The warning of a legal command *)
Lemma verify_warning g v : cmd_verify g = Ret v -> (forall e, v <> AError e) ->
  warnings g = (if do_confirmation g then [(LWarning, MDanger)] else []) ++
    match v with AWarning w => [(LWarning, w)] | _ => [] end.
Proof.
  intros Hv He. unfold warnings. f_equal. unfold cmd_verify in Hv.
  assert (forall c e1, Ret (if c : bool then AError e1 else AOk) = Ret v -> v = AOk) as Hif.
  { intros [] e1 H; inv H; [by destruct (He e1)|done]. }
  destruct (acmd g); simpl in Hv.
  - destruct (aarea g); [|done]. destruct (offset g); [|done]. simpl in Hv. by rewrite (Hif _ _ Hv).
  - by inv Hv.
  - inv Hv. destruct (aarea g), (anode g); done.
  - by rewrite (Hif _ _ Hv).
  - by inv Hv.
  - by inv Hv.
  - by rewrite (Hif _ _ Hv).
  - inv Hv. repeat case_match; done.
  - inv Hv. repeat case_match; done.
  - inv Hv. repeat case_match; done.
  - by rewrite (Hif _ _ Hv).
  - by inv Hv.
Qed.

(** ** Rejected arguments, as seen from outside *)
Lemma rejected_iff E g W s : supplied g ->
  (legal g <-> forall e, (compute_thread E g W s).1 <> Done (Some (EArg e))) /\
  (~ legal g -> exists e, compute_thread E g W s = (Done (Some (EArg e)), s)).
Proof.
  intros Hs. rewrite legal_iff by done.
  assert (forall w p e1 e2 s r s', open_db w p e1 e2 W s = (Done r, s') -> r = None \/ r = Some e1 \/ r = Some e2) as Ho.
  { intros w p e1 e2 s1 r s'. unfold open_db, open_map, ask, mbind, M_bind, mret, M_ret.
    destruct (keep _ _); [|intros [= <- <-]; auto].
    destruct (db_new _ _ _ _) as [[[|]| |] ?]; intros [= <- <-]; auto. }
  assert (forall v, cmd_verify g = Ret v -> (forall e, v <> AError e) -> verify_args g = None ->
    forall e, (compute_thread E g W s).1 <> Done (Some (EArg e))) as Hok.
  { intros v Hv Hne Ha e. unfold compute_thread. rewrite Ha, Hv.
    assert (forall k : M (option inst_error),
      (match v with AError e => mret (Some (EArg e)) | AOk | AWarning _ => k end) = k) as Hk
      by (intros k; destruct v; [done|done|by edestruct Hne]).
    unfold lift. unfold mbind at 1, M_bind at 1, mret at 1, M_ret at 1. rewrite Hk.
    unfold mbind at 1, M_bind at 1. destruct (open_db Main _ _ _ W s) as [[r| |] s1] eqn:E1; [|done..].
    apply Ho in E1. destruct r as [e1|]; [intros [= ->]; by destruct E1 as [|[|]]|].
    unfold mbind at 1, M_bind at 1. destruct (open_input g W s1) as [[r| |] s2] eqn:E2; [|done..].
    assert (r <> Some (EArg e)) as Hr.
    { unfold open_input, mbind, M_bind in E2. destruct (input_map_path g); [|by inv E2].
      destruct (open_db Input _ _ _ W s1) as [[r'| |] s3] eqn:E3; [|done..]. apply Ho in E3.
      destruct r'; inv E2; [|done]. intros [= ->]. by destruct E3 as [|[|]]. }
    destruct r as [e1|]; [intros [= ->]; by destruct Hr|].
    unfold run_command. unfold mbind at 1, M_bind at 1. destruct (consent _ _ W s2) as [[[]| |] s3]; [|done..].
    unfold mbind at 1, M_bind at 1. destruct (cmd_func E g W s3) as [[?| |] s4]; [|done..].
    cbv [finish gets mbind M_bind is_in_transaction log send modify mret M_ret].
    destruct (0 <? _); (destruct (in_tr _); [|done]; destruct (commit_if_needed Main W _) as [[[|]| |] ?]; done). }
  destruct (verify_args g) as [e|] eqn:Ha.
  - assert (compute_thread E g W s = (Done (Some (EArg e)), s)) as H by (unfold compute_thread; by rewrite Ha).
    rewrite H. split; [|by eexists]. split; [by intros []|]. intros Hn. by destruct (Hn e).
  - destruct (cmd_verify g) as [v|] eqn:Hv.
    + assert ((exists e, v = AError e) \/ forall e, v <> AError e) as [[e ->]|Hne]
        by (destruct v; [right; done..|left; by eexists]).
      * assert (compute_thread E g W s = (Done (Some (EArg e)), s)) as H by (unfold compute_thread; by rewrite Ha, Hv).
        rewrite H. split; [|by eexists]. split; [intros (_ & v & [= <-] & Hn); by destruct (Hn e)|].
        intros Hn. by destruct (Hn e).
      * split; [|intros []; split; [done|]; by exists v]. split; [by intros _; apply (Hok v)|].
        intros _. split; [done|]. by exists v.
    + exfalso. destruct Hs as [_ Hs]. unfold cmd_verify in Hv. destruct (acmd g); try done.
      destruct Hs as [[a Ha'] [o Ho']]. by rewrite Ha', Ho' in Hv.
Qed.
