(** Reading the command line *)
From Verif Require Import SpecCli FaultProofs CodecProofs.
From Verif Require Import Spec.

(** ** Numbers *)
Lemma digit_iff b d : digit b = Some d <-> b2z b = 48 + d /\ 0 <= d < 10.
Proof.
  unfold digit, is_digit. destruct (_ && _) eqn:E; [|split; [done|lia]].
  split; [intros [= <-]; lia|]. intros [H _]. f_equal. lia.
Qed.
Lemma dec_nonneg s n : dec s n -> 0 <= n.
Proof. induction 1; lia. Qed.
Lemma dec_nonempty s n : dec s n -> s <> [].
Proof. destruct 1; [done|]. by destruct s. Qed.
Lemma dec_snoc s b n : dec (s ++ [b]) n -> exists d, digit b = Some d /\
  (s = [] /\ n = d \/ exists n', dec s n' /\ n = 10 * n' + d).
Proof.
  intros H. remember (s ++ [b]) as l eqn:El. destruct H as [b' d Hb Hd|s' n' b' d Hs Hb Hd].
  - change [b'] with ([] ++ [b']) in El. apply app_inj_2 in El as [<- [= ->]]; [|done].
    exists d. split; [by apply digit_iff|by left].
  - apply app_inj_2 in El as [<- [= ->]]; [|done]. exists d. split; [by apply digit_iff|]. right. by exists n'.
Qed.
Lemma dec_fun s n n' : dec s n -> dec s n' -> n = n'.
Proof.
  revert n n'. induction s as [|b s IH] using rev_ind; intros n n' H H'; [by apply dec_nonempty in H|].
  apply dec_snoc in H as (d & Hd & H), H' as (d' & Hd' & H'). rewrite Hd in Hd'. inv Hd'.
  destruct H as [[Hs ->]|(k & Hk & ->)], H' as [[Hs' ->]|(k' & Hk' & ->)]; [done|..].
  - by apply dec_nonempty in Hk'.
  - by apply dec_nonempty in Hk.
  - by rewrite (IH _ _ Hk Hk').
Qed.
Lemma accumulate_app lo hi g acc s s' : accumulate lo hi g acc (s ++ s') =
  match accumulate lo hi g acc s with Some a => accumulate lo hi g a s' | None => None end.
Proof.
  revert acc. induction s as [|b s IH]; intros acc; [done|]. simpl.
  destruct (digit b); [|done]. destruct (_ && _); [apply IH|done].
Qed.
(** Running totals only grow away from zero, so a total in range was always in range. *)
Lemma accumulate_iff lo hi g s z : lo <= 0 <= hi -> g = 1 \/ g = -1 -> s <> [] ->
  accumulate lo hi g 0 s = Some z <-> exists n, dec s n /\ z = g * n /\ lo <= z <= hi.
Proof.
  intros Hr Hg Hs. revert z. induction s as [|b s IH] using rev_ind; intros z; [done|]. clear Hs.
  rewrite accumulate_app. destruct s as [|b' s].
  - simpl. split.
    + destruct (digit b) as [d|] eqn:Ed; [|done]. destruct (_ && _) eqn:Ec; [|done]. intros [= <-].
      apply digit_iff in Ed as [Hb Hd]. exists d. split; [by apply dec_one|lia].
    + intros (n & Hn & -> & Hz). change [b] with ([] ++ [b]) in Hn. apply dec_snoc in Hn as (d & Hd & [[_ ->]|(k & Hk & _)]).
      * rewrite Hd. replace (_ && _) with true by lia. first [done|f_equal; lia].
      * by apply dec_nonempty in Hk.
  - set (t := b' :: s) in *. specialize (IH ltac:(done)). split.
    + destruct (accumulate lo hi g 0 t) as [a|] eqn:Ea; [|done].
      destruct (proj1 (IH a) eq_refl) as (n & Hn & -> & Ha). simpl. destruct (digit b) as [d|] eqn:Ed; [|done].
      destruct (_ && _) eqn:Ec; [|done]. intros [= <-]. exists (10 * n + d). apply digit_iff in Ed as [Hb Hd].
      split; [by apply (dec_more t)|]. destruct Hg as [-> | ->]; lia.
    + intros (n & Hn & -> & Hz). apply dec_snoc in Hn as (d & Hd & [[Ht _]|(k & Hk & ->)]); [done|].
      pose proof (dec_nonneg _ _ Hk). apply digit_iff in Hd as Hd'.
      assert (accumulate lo hi g 0 t = Some (g * k)) as ->.
      { apply IH. exists k. split; [done|]. split; [done|]. destruct Hg as [-> | ->]; lia. }
      simpl. rewrite Hd. replace (_ && _) with true by (destruct Hg as [-> | ->]; lia). f_equal. lia.
Qed.
Lemma dec_head b s n : dec (b :: s) n -> is_digit b = true.
Proof.
  revert n. induction s as [|c s IH] using rev_ind; intros n H.
  - change [b] with ([] ++ [b]) in H. apply dec_snoc in H as (d & Hd & _). unfold digit in Hd. by destruct (is_digit b).
  - change (b :: s ++ [c]) with ((b :: s) ++ [c]) in H. apply dec_snoc in H as (d & _ & [[? _]|(k & Hk & _)]); [done|eauto].
Qed.
Lemma parse_i32_iff s z : parse_i32 s = Some z <-> coord s z.
Proof.
  unfold parse_i32, parse_int, coord, denotes. set (lo := -2147483648). set (hi := 2147483647).
  assert (lo <= 0 <= hi) as Hr by (unfold lo, hi; lia).
  assert (forall s, s <> [] -> accumulate lo hi 1 0 s = Some z <-> dec s z /\ lo <= z <= hi) as Hp.
  { intros t Ht. rewrite (accumulate_iff lo hi 1 t z Hr) by auto. split.
    - intros (n & Hn & -> & Hz). by rewrite Z.mul_1_l in *.
    - intros [Hn Hz]. exists z. split; [done|]. lia. }
  assert (forall s, s <> [] -> accumulate lo hi (-1) 0 s = Some z <-> dec s (- z) /\ lo <= z <= hi) as Hm.
  { intros t Ht. rewrite (accumulate_iff lo hi (-1) t z Hr) by auto. split.
    - intros (n & Hn & -> & Hz). by replace (- (-1 * n)) with n by lia.
    - intros [Hn Hz]. exists (- z). split; [done|]. lia. }
  destruct s as [|b [|c r]].
  - split; [done|]. intros [[H|[(r & [=] & _)|(r & [=] & _)]] _]. by apply dec_nonempty in H.
  - case_bool_decide as H1; [|case_bool_decide as H2]; cbn [orb andb]; try change (lo <? 0) with true; cbv iota.
    1,2: split; [done|]; intros [[H|[(r & [= _ <-] & H)|(r & [= _ <-] & H)]] _];
      [apply dec_head in H; subst; by vm_compute in H|by apply dec_nonempty in H..].
    rewrite Hp by done. split; [tauto|]. intros [[H|[(r & [= ? ?] & _)|(r & [= ? ?] & _)]] Hz]; done.
  - case_bool_decide as H1; [|case_bool_decide as H2]; cbn [orb andb]; try change (lo <? 0) with true; cbv iota.
    + subst b. rewrite Hp by done. split.
      * intros [Hd Hz]. split; [|done]. right. left. eexists. by split.
      * intros [[H|[(r' & [= <-] & H)|(r' & [= ?] & H)]] Hz]; [apply dec_head in H; by vm_compute in H|done].
    + subst b. rewrite Hm by done. split.
      * intros [Hd Hz]. split; [|done]. right. right. eexists. by split.
      * intros [[H|[(r' & [= ?] & H)|(r' & [= <-] & H)]] Hz]; [apply dec_head in H; by vm_compute in H|done].
    + rewrite Hp by done. split; [tauto|]. intros [[H|[(r' & [= ? ?] & _)|(r' & [= ? ?] & _)]] Hz]; done.
Qed.
Lemma arg_to_pos_iff l p : arg_to_pos l = Some p <-> pos_text l p.
Proof.
  unfold arg_to_pos, pos_text. split.
  - destruct l as [|a [|b [|c [|]]]]; try done. intros H.
    destruct (parse_i32 a) eqn:Ea; [|done]. simpl in H. destruct (parse_i32 b) eqn:Eb; [|done]. simpl in H.
    destruct (parse_i32 c) eqn:Ec; [|done]. simpl in H. inv H. simpl. exists a, b, c. by rewrite <- !parse_i32_iff.
  - intros (a & b & c & -> & Ha & Hb & Hc). apply parse_i32_iff in Ha, Hb, Hc. rewrite Ha, Hb, Hc. by destruct p.
Qed.
Lemma transpose_pos m n : transpose arg_to_pos (values_of m n) = None ->
  exists vs, m n = Some vs /\ forall p, ~ pos_text vs p.
Proof.
  unfold transpose, values_of. destruct (m n) as [vs|]; [|done]. destruct (arg_to_pos vs) eqn:E; [done|].
  intros _. exists vs. split; [done|]. intros p Hp. apply arg_to_pos_iff in Hp. congruence.
Qed.
Lemma transpose_Some m n o : transpose arg_to_pos (values_of m n) = Some o ->
  match o with None => m n = None | Some p => exists vs, m n = Some vs /\ pos_text vs p end.
Proof.
  unfold transpose, values_of. destruct (m n) as [vs|]; [|by intros [= <-]]. destruct (arg_to_pos vs) eqn:E; [|done].
  intros [= <-]. exists vs. split; [done|]. by apply arg_to_pos_iff.
Qed.

(** ** Declarations *)
Definition kind (n : bytes) : nvals :=
  if bool_decide (n ∈ [bstr "p1"; bstr "p2"; bstr "offset"]) then NExactly 3
  else if bool_decide (n ∈ [bstr "invert"; bstr "delete"; bstr "delete_meta"; bstr "yes"]) then NFlag
  else if bool_decide (n = bstr "nodes") then NAtLeast 1
  else if bool_decide (n = bstr "items") then NAtLeast 0 else NOne.
Definition kinds_ok (l : list carg) : Prop :=
  Forall (fun a => avals a = kind (aname a) /\
    (aname a = bstr "p1" -> bstr "p2" ∈ aneeds a) /\ (aname a = bstr "p2" -> bstr "p1" ∈ aneeds a)) l.
Global Instance nvals_dec : EqDecision nvals.
Proof. solve_decision. Defined.
Global Instance kinds_ok_dec l : Decision (kinds_ok l).
Proof. unfold kinds_ok. apply _. Defined.
Lemma kinds c : kinds_ok (declared c).
Proof. apply (bool_decide_eq_true_1 _). destruct c; by vm_compute. Qed.
Lemma kinds_top : kinds_ok top_declared.
Proof. apply (bool_decide_eq_true_1 _). by vm_compute. Qed.
Lemma clap_vals l m n vs : kinds_ok l -> clap_ok l m -> m n = Some vs -> vals_ok (kind n) vs.
Proof.
  intros Hk [Hm _] H. destruct (Hm _ _ H) as (a & Ha & <- & Hv & _).
  unfold kinds_ok in Hk. rewrite Forall_forall in Hk. by destruct (Hk a Ha) as [<- _].
Qed.
Lemma single_ok l m n : kinds_ok l -> clap_ok l m -> kind n = NOne -> single m n (value_of m n).
Proof.
  intros Hk Hm Hn. unfold single, value_of. destruct (m n) as [vs|] eqn:E; [|done]. simpl.
  apply (clap_vals _ _ _ _ Hk Hm) in E. rewrite Hn in E. simpl in E. by destruct vs as [|v [|]].
Qed.
Lemma flag_ok l m n : kinds_ok l -> clap_ok l m -> kind n = NFlag -> flag m n (is_present m n).
Proof.
  intros Hk Hm Hn. unfold flag, is_present. destruct (m n) as [vs|] eqn:E; [|done]. simpl.
  apply (clap_vals _ _ _ _ Hk Hm) in E. rewrite Hn in E. simpl in E. by subst.
Qed.
Lemma pair_ok l m : kinds_ok l -> clap_ok l m -> is_Some (m (bstr "p1")) <-> is_Some (m (bstr "p2")).
Proof.
  intros Hk [Hm _]. unfold kinds_ok in Hk. rewrite Forall_forall in Hk.
  split; intros [vs H]; destruct (Hm _ _ H) as (a & Ha & Hn & _ & Hr); apply Hr, (Hk a Ha), Hn.
Qed.
(** Names with a required argument are supplied. *)
Lemma required c m n : clap_ok (declared c) m -> existsb (fun a => bool_decide (aname a = n) && areq a) (declared c) = true ->
  is_Some (m n).
Proof.
  intros [_ Hm] H. apply existsb_exists in H as (a & Ha & H). apply elem_of_list_In in Ha.
  apply andb_prop in H as [Hn Hr]. apply bool_decide_eq_true in Hn as <-. by apply Hm.
Qed.
Lemma value_some l m n : kinds_ok l -> clap_ok l m -> kind n = NOne -> is_Some (m n) -> is_Some (value_of m n).
Proof. intros Hk Hm Hn Hs. pose proof (single_ok _ _ _ Hk Hm Hn) as H. unfold single in H. destruct (value_of m n); [by eexists|]. rewrite H in Hs. by destruct Hs. Qed.

Lemma unsorted_between p q x : inside (from_unsorted p q) x <-> between p q x.
Proof. unfold inside, from_unsorted, between, mid. simpl. lia. Qed.

Lemma parse_given top c m : clap_ok top_declared top -> clap_ok (declared c) m ->
  match parse_cmd_line_args top c m with
  | PPanic => False
  | PErr _ => exists n vs, n ∈ [bstr "p1"; bstr "p2"; bstr "offset"] /\ m n = Some vs /\ forall p, ~ pos_text vs p
  | PArgs g => supplied g /\ given top c m g
  end.
Proof.
  intros Ht Hm. pose proof (kinds c) as Hk. pose proof kinds_top as Hkt. unfold parse_cmd_line_args.
  assert (is_Some (value_of top (bstr "map"))) as [path Hpath].
  { apply (value_some _ _ _ Hkt Ht); [by vm_compute|]. destruct Ht as [_ Ht].
    refine (Ht (Carg (bstr "map") NOne true []) _ _); [|done]. apply elem_of_list_further, elem_of_list_here. }
  rewrite Hpath.
  destruct (transpose arg_to_pos (values_of m (bstr "p1"))) as [p1|] eqn:E1.
  2: { apply transpose_pos in E1 as (vs & ? & ?). exists (bstr "p1"), vs. split; [|done]. apply elem_of_list_here. }
  destruct (transpose arg_to_pos (values_of m (bstr "p2"))) as [p2|] eqn:E2.
  2: { apply transpose_pos in E2 as (vs & ? & ?). exists (bstr "p2"), vs. split; [|done].
       apply elem_of_list_further, elem_of_list_here. }
  destruct (transpose arg_to_pos (values_of m (bstr "offset"))) as [o|] eqn:E3.
  2: { apply transpose_pos in E3 as (vs & ? & ?). exists (bstr "offset"), vs. split; [|done].
       apply elem_of_list_further, elem_of_list_further, elem_of_list_here. }
  apply transpose_Some in E1, E2, E3.
  assert (m (bstr "param2_val") = None) as Hp.
  { destruct (m (bstr "param2_val")) as [vs|] eqn:E; [|done]. destruct Hm as [Hm _].
    destruct (Hm _ _ E) as (a & Ha & Hn & _). exfalso. clear -Ha Hn. revert Hn.
    apply elem_of_list_In in Ha. destruct c; vm_compute in Ha; (repeat destruct Ha as [<-|Ha]; [by vm_compute..|]); done. }
  assert (value_of m (bstr "param2_val") = None) as -> by (unfold value_of; by rewrite Hp). simpl transpose. cbv iota.
  pose proof (pair_ok _ _ Hk Hm) as Hpair. split.
  - split; cbn [aarea acmd input_map_path offset new_node anode aitem akey].
    + intros a. destruct p1 as [p1|], p2 as [p2|]; try done. intros [= <-]. unfold nonempty, from_unsorted. simpl. lia.
    + assert (forall n, existsb (fun a => bool_decide (aname a = n) && areq a) (declared c) = true -> is_Some (m n)) as Hreq
        by (intros n; by apply required).
      assert (is_Some (m (bstr "p1")) -> is_Some (match p1, p2 with Some p1, Some p2 => Some (from_unsorted p1 p2) | _, _ => None end)) as Harea.
      { intros H1. assert (is_Some (m (bstr "p2"))) as H2 by by apply Hpair.
        destruct p1; [|by rewrite E1 in H1; destruct H1]. destruct p2; [|by rewrite E2 in H2; destruct H2]. by eexists. }
      assert (forall n, kind n = NOne -> is_Some (m n) -> is_Some (value_of m n)) as Hval
        by (intros n; by apply (value_some _ _ _ Hk Hm)).
      assert (is_Some (m (bstr "offset")) -> is_Some o) as Hoff.
      { intros H. destruct o; [by eexists|]. rewrite E3 in H. by destruct H. }
      destruct c; try done; repeat split; first [apply Harea|apply Hoff|apply Hval; [by vm_compute|]]; apply Hreq; by vm_compute.
  - unfold given. cbn [acmd do_confirmation map_path input_map_path aarea invert offset anode anodes new_node aobject aitem aitems
      new_item adelete delete_meta akey avalue].
    split; [done|].
    split; [rewrite negb_involutive; by apply (flag_ok _ _ _ Hkt Ht)|].
    split; [rewrite <- Hpath; by apply (single_ok _ _ _ Hkt Ht)|].
    split; [by apply (single_ok _ _ _ Hk Hm)|].
    split.
    { destruct p1 as [p1|].
      - destruct E1 as (v1 & E1 & Hv1). destruct p2 as [p2|].
        + destruct E2 as (v2 & E2 & Hv2). exists v1, v2, p1, p2. do 4 (split; [done|]). apply unsorted_between.
        + rewrite E1, E2 in Hpair. by destruct (proj1 Hpair ltac:(by eexists)).
      - destruct p2 as [p2|]; [|done]. destruct E2 as (v2 & E2 & Hv2).
        rewrite E1, E2 in Hpair. by destruct (proj2 Hpair ltac:(by eexists)). }
    split; [by apply (flag_ok _ _ _ Hk Hm)|].
    split; [by destruct o|].
    split; [by apply (single_ok _ _ _ Hk Hm)|].
    split; [unfold values_of; by destruct (m (bstr "nodes"))|].
    do 3 (split; [by apply (single_ok _ _ _ Hk Hm)|]).
    split; [done|].
    split; [by apply (single_ok _ _ _ Hk Hm)|].
    do 2 (split; [by apply (flag_ok _ _ _ Hk Hm)|]).
    split; by apply (single_ok _ _ _ Hk Hm).
Qed.

(** ** setparam2 *)
Lemma param2_never top c m g : clap_ok (declared c) m -> parse_cmd_line_args top c m = PArgs g -> aparam2 g = None.
Proof.
  intros [Hm _]. unfold parse_cmd_line_args. destruct (value_of top _); [|done].
  destruct (transpose _ (values_of m (bstr "p1"))) as [p1|]; [|done].
  destruct (transpose _ (values_of m (bstr "p2"))) as [p2|]; [|done].
  destruct (transpose _ (values_of m (bstr "offset"))) as [o|]; [|done].
  assert (m (bstr "param2_val") = None) as Hp.
  { destruct (m (bstr "param2_val")) as [vs|] eqn:E; [|done].
    destruct (Hm _ _ E) as (a & Ha & Hn & _). exfalso. clear -Ha Hn. revert Hn.
    apply elem_of_list_In in Ha. destruct c; vm_compute in Ha; (repeat destruct Ha as [<-|Ha]; [by vm_compute..|]); done. }
  assert (value_of m (bstr "param2_val") = None) as -> by (unfold value_of; by rewrite Hp). simpl. by intros [= <-].
Qed.
Lemma no_param2_intact E g W main input : acmd g = CSetParam2 -> aparam2 g = None ->
  final Main (thread_main E g W (start main input)).2 = main.
Proof.
  intros Hc Hp. apply (keeps_final (cI (untouched_conn main)) (thread_main E g) W (start main input)).
  - apply k_thread; [apply untouched_rb|apply untouched_begin|apply untouched_commit|].
    unfold cmd_func. rewrite Hc. unfold set_param2. rewrite Hp. by intros W' s Hs.
  - split; [|done]. split; [done|by left].
Qed.

(** ** Prompt *)
Lemma trim_start_split s : exists pre, s = pre ++ trim_start s /\ Forall (fun x => is_white x = true) pre /\
  forall c r, trim_start s = c :: r -> is_white c = false.
Proof.
  induction s as [|c s (pre & Hs & Hp & Hn)]; [by exists []|]. simpl. destruct (is_white c) eqn:E.
  - exists (c :: pre). split; [simpl; congruence|]. split; [by constructor|done].
  - exists []. split; [done|]. split; [constructor|]. by intros ? ? [= <- _].
Qed.
Lemma trim_start_app pre s : Forall (fun x => is_white x = true) pre -> trim_start (pre ++ s) = trim_start s.
Proof. induction 1 as [|c pre Hc _ IH]; [done|]. simpl. by rewrite Hc. Qed.
Lemma lower_y c : to_ascii_lowercase c = 121 <-> c = 121 \/ c = 89.
Proof. unfold to_ascii_lowercase. destruct (_ && _) eqn:E; lia. Qed.
Lemma confirms_iff line : confirms line = true <-> yes line.
Proof.
  unfold confirms, yes. rewrite bool_decide_eq_true. split.
  - intros H. unfold trim in H. destruct (trim_start_split line) as (pre & Hl & Hpre & _).
    destruct (trim_start_split (reverse (trim_start line))) as (post & Hr & Hpost & _).
    set (t := trim_start (reverse (trim_start line))) in *.
    rewrite fmap_reverse in H. apply (f_equal reverse) in H. rewrite reverse_involutive in H. simpl in H.
    destruct t as [|c [|]]; try done. assert (to_ascii_lowercase c = 121) as H1 by (rewrite reverse_singleton in H; cbn in H; congruence). apply lower_y in H1.
    apply (f_equal reverse) in Hr. rewrite reverse_involutive, reverse_app, reverse_singleton in Hr.
    exists pre, c, (reverse post). split; [rewrite <- Hr; exact Hl|]. split; [done|]. split; [done|].
    by apply Forall_reverse.
  - intros (pre & c & post & -> & Hc & Hpre & Hpost). unfold trim. rewrite trim_start_app by done.
    assert (is_white c = false) as Hw by (destruct Hc as [-> | ->]; by vm_compute).
    simpl. rewrite Hw. change (c :: post) with ([c] ++ post). rewrite reverse_app, trim_start_app by by apply Forall_reverse.
    simpl. rewrite Hw. simpl. f_equal. by apply lower_y.
Qed.

(** ** Matches given by a list *)
Definition from_list (l : list (bytes * list bytes)) : matches := fun n =>
  snd <$> List.find (fun e => bool_decide (e.1 = n)) l.
Definition vals_okb (v : nvals) (l : list bytes) : bool :=
  match v with
  | NFlag => bool_decide (l = [])
  | NOne => (length l =? 1)%nat
  | NExactly n => (length l =? n)%nat
  | NAtLeast n => (n <=? length l)%nat
  end.
Definition clap_okb (decl : list carg) (l : list (bytes * list bytes)) : bool :=
  forallb (fun e => existsb (fun a => bool_decide (aname a = e.1) && vals_okb (avals a) e.2 &&
    forallb (fun r => negb (is_none (from_list l r))) (aneeds a)) decl) l &&
  forallb (fun a => implb (areq a) (negb (is_none (from_list l (aname a))))) decl.
Lemma is_none_Some {A} (o : option A) : negb (is_none o) = true -> is_Some o.
Proof. destruct o; [by eexists|done]. Qed.
Lemma clap_list decl l : clap_okb decl l = true -> clap_ok decl (from_list l).
Proof.
  unfold clap_okb. intros H. apply andb_prop in H as [H1 H2]. rewrite forallb_forall in H1, H2. split.
  - intros n vs Hn. unfold from_list in Hn. destruct (List.find _ l) as [[n' vs']|] eqn:Ef; [|done]. inv Hn.
    apply List.find_some in Ef as [Hin Hn]. apply bool_decide_eq_true in Hn. simpl in *. subst n'.
    apply H1, existsb_exists in Hin as (a & Ha & H). apply andb_prop in H as [H Hr]. apply andb_prop in H as [Hn Hv].
    apply bool_decide_eq_true in Hn. simpl in *. exists a. split; [by apply elem_of_list_In|]. split; [done|]. split.
    + clear -Hv. destruct (avals a); simpl in *; [by apply bool_decide_eq_true in Hv|lia..].
    + intros r Hin. rewrite forallb_forall in Hr. apply is_none_Some, Hr. by apply elem_of_list_In.
  - intros a Ha Hreq. apply elem_of_list_In, H2 in Ha. rewrite Hreq in Ha. by apply is_none_Some.
Qed.

(** A fill command line with its corners swapped. *)
Definition ex_top : matches := from_list [(bstr "map", [bstr "world"])].
Definition ex_fill : matches := from_list
  [(bstr "p1", [bstr "10"; bstr "-3"; bstr "+7"]); (bstr "p2", [bstr "-10"; bstr "4"; bstr "-0"]);
   (bstr "new_node", [bstr "air"])].
Definition ex_sp2 : matches := from_list [(bstr "node", [bstr "a:b"]); (bstr "param2", [bstr "5"])].
Lemma ex_top_ok : clap_ok top_declared ex_top.
Proof. apply clap_list. by vm_compute. Qed.
Lemma ex_fill_ok : clap_ok (declared CFill) ex_fill.
Proof. apply clap_list. by vm_compute. Qed.
Lemma ex_sp2_ok : clap_ok (declared CSetParam2) ex_sp2.
Proof. apply clap_list. by vm_compute. Qed.
Lemma param2_lost : exists top m g val, clap_ok top_declared top /\ clap_ok (declared CSetParam2) m /\
  single m (bstr "param2") (Some val) /\ dec val 5 /\
  parse_cmd_line_args top CSetParam2 m = PArgs g /\ aparam2 g <> Some x05.
Proof.
  destruct (parse_cmd_line_args ex_top CSetParam2 ex_sp2) as [g| |] eqn:E; [|by vm_compute in E..].
  exists ex_top, ex_sp2, g, (bstr "5"). split; [apply ex_top_ok|]. split; [apply ex_sp2_ok|]. split; [by vm_compute|].
  split; [by apply dec_one|]. split; [done|].
  by rewrite (param2_never _ _ _ _ ex_sp2_ok E).
Qed.
Lemma param2_unusable top m g : clap_ok (declared CSetParam2) m ->
  parse_cmd_line_args top CSetParam2 m = PArgs g ->
  aparam2 g = None /\ forall E W main input, final Main (thread_main E g W (start main input)).2 = main.
Proof.
  intros Hm Hp. pose proof (param2_never _ _ _ _ Hm Hp) as Hn. split; [done|]. intros.
  apply no_param2_intact; [|done]. revert Hp. unfold parse_cmd_line_args.
  repeat match goal with |- match ?x with _ => _ end = _ -> _ => destruct x; [|done] end.
  by intros [= <-].
Qed.
