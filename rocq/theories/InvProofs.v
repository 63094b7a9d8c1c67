(** The replaceininv command *)
From Verif Require Import SpecPick SpatialProofs MapProofs CodecProofs CodecRound BlockProofs
  QueryProofs UtilsProofs RunProofs EditProofs BodyProofs NodeProofs MetaProofs Spec.

(** ** Lines *)

Definition joined (ls : list bytes) : bytes := concat ((fun l => l ++ [x0a]) <$> ls).
Lemma joined_cons l ls : joined (l :: ls) = l ++ x0a :: joined ls.
Proof. unfold joined. csimpl. by rewrite <-app_assoc. Qed.
Lemma joined_app l1 l2 : joined (l1 ++ l2) = joined l1 ++ joined l2.
Proof. unfold joined. by rewrite fmap_app, concat_app. Qed.

Lemma split_lines s acc : exists x r, split_on x0a (s ++ [x0a]) = x :: r /\
  lines_from acc (s ++ [x0a]) ++ [[]] = (acc ++ x) :: r.
Proof.
  revert acc. induction s as [|c s IH]; intros acc; simpl.
  - exists [], [[]]. by rewrite app_nil_r.
  - destruct (bool_decide_reflect (c = x0a)) as [->|Hc].
    + rewrite decide_True by done. destruct (IH []) as (x & r & -> & Hr). exists [], (x :: r).
      split; [done|]. simpl. rewrite Hr, app_nil_r. done.
    + rewrite decide_False by done. destruct (IH (acc ++ [c])) as (x & r & -> & Hr). exists (c :: x), r.
      split; [done|]. rewrite Hr. by rewrite <-app_assoc.
Qed.
Lemma split_on_lines s : split_on x0a (s ++ [x0a]) = lines (s ++ [x0a]) ++ [[]].
Proof. destruct (split_lines s []) as (x & r & -> & Hr). unfold lines. by rewrite Hr. Qed.

Lemma lines_joined s acc : joined (lines_from acc (s ++ [x0a])) = acc ++ s ++ [x0a].
Proof.
  revert acc. induction s as [|c s IH]; intros acc; simpl.
  - by rewrite joined_cons.
  - case_decide as Hc.
    + rewrite joined_cons, IH. subst. done.
    + rewrite IH. by rewrite <-app_assoc.
Qed.
Lemma lines_no_nl s acc : x0a ∉ acc -> Forall (fun l => x0a ∉ l) (lines_from acc s).
Proof.
  revert acc. induction s as [|c s IH]; intros acc Ha; simpl; [done|].
  case_decide as Hc.
  - constructor; [done|]. apply IH, not_elem_of_nil.
  - apply IH. rewrite elem_of_app, elem_of_list_singleton. intros [?|?]; [done|by subst].
Qed.

Lemma no_nl_split (a b s t : bytes) : x0a ∉ a -> x0a ∉ b -> a ++ x0a :: s = b ++ x0a :: t -> a = b /\ s = t.
Proof.
  revert b. induction a as [|c a IH]; intros b Ha Hb E; destruct b as [|d b]; simpl in E.
  - by injection E.
  - injection E as <- _. destruct Hb. left.
  - injection E as -> _. destruct Ha. left.
  - injection E as -> E. apply IH in E as [-> ->]; [done|..]; intros H.
    + apply Ha. by right.
    + apply Hb. by right.
Qed.
Lemma split_at_nl (l : bytes) : x0a ∈ l -> exists l1 l2, l = l1 ++ x0a :: l2 /\ x0a ∉ l1.
Proof.
  induction l as [|c l IH]; intros Hl; [by apply elem_of_nil in Hl|].
  destruct (decide (c = x0a)) as [->|Hc].
  - exists [], l. split; [done|apply not_elem_of_nil].
  - apply elem_of_cons in Hl as [?|Hl]; [done|]. destruct (IH Hl) as (l1 & l2 & -> & H1).
    exists (c :: l1), l2. split; [done|]. rewrite elem_of_cons. intros [?|?]; done.
Qed.

Lemma end_no_nl : x0a ∉ bstr "EndInventory".
Proof. vm_compute. intros H. repeat (apply elem_of_cons in H as [?|H]; [done|]). by apply elem_of_nil in H. Qed.

Definition ends (l : bytes) : Prop := exists p, l = p ++ bstr "EndInventory".

Lemma joined_end ls l r : Forall (fun l => x0a ∉ l) ls -> joined ls = l ++ END_STR ++ r ->
  exists ls1 line ls2, ls = ls1 ++ line :: ls2 /\ ends line /\ r = joined ls2.
Proof.
  revert l. induction ls as [|x ls IH]; intros l Hls E.
  - exfalso. destruct l; done.
  - inversion Hls as [|? ? Hx Hls']; subst. rewrite joined_cons in E.
    unfold END_STR in E. rewrite <-!app_assoc in E. cbn [app] in E.
    destruct (decide (x0a ∈ l)) as [Hl|Hl].
    + apply split_at_nl in Hl as (l1 & l2 & -> & Hl1). rewrite <-app_assoc in E. cbn [app] in E.
      apply no_nl_split in E as [-> E]; [|done..].
      destruct (IH l2 Hls') as (ls1 & line & ls2 & -> & He & ->).
      { rewrite E. unfold END_STR. by rewrite <-!app_assoc. }
      exists (l1 :: ls1), line, ls2. done.
    + rewrite app_assoc in E. apply no_nl_split in E as [-> <-]; [|done|].
      * exists [], (l ++ bstr "EndInventory"), ls. split; [done|]. split; [by exists l|done].
      * rewrite elem_of_app. intros [?|?]; [done|]. by apply end_no_nl.
Qed.
Lemma ends_joined ls1 line ls2 : ends line -> exists p, joined (ls1 ++ line :: ls2) = p ++ END_STR ++ joined ls2.
Proof.
  intros [q ->]. exists (joined ls1 ++ q). rewrite joined_app, joined_cons. unfold END_STR.
  by rewrite <-!app_assoc.
Qed.

Lemma joined_nil ls : joined ls = [] -> ls = [].
Proof. destruct ls as [|l ls]; [done|]. rewrite joined_cons. by destruct l. Qed.

(** Text whose last line, and no other, ends with the end marker *)
Lemma terminated_lines ls : Forall (fun l => x0a ∉ l) ls ->
  terminated (joined ls) <-> exists ls1 line, ls = ls1 ++ [line] /\ ends line /\ Forall (fun l => ~ ends l) ls1.
Proof.
  intros Hls. split.
  - intros [[b Hb] Hu].
    destruct (joined_end ls b [] Hls) as (ls1 & line & ls2 & -> & He & Hnil); [by rewrite app_nil_r|].
    symmetry in Hnil. apply joined_nil in Hnil as ->. exists ls1, line. split; [done|]. split; [done|].
    apply Forall_forall. intros l Hl Hel. apply elem_of_list_split in Hl as (l1 & l2 & ->).
    destruct (ends_joined l1 l (l2 ++ [line]) Hel) as [p Hp].
    assert (joined (l2 ++ [line]) = []) as Hn%joined_nil.
    { apply (Hu p). rewrite <-app_assoc. exact Hp. }
    by destruct l2.
  - intros (ls1 & line & -> & He & Hno). split.
    + destruct (ends_joined ls1 line [] He) as [p Hp]. exists p. rewrite Hp. change (joined []) with (@nil byte).
      by rewrite app_nil_r.
    + intros l r E. destruct (joined_end _ l r Hls E) as (m1 & x & m2 & Eq & Hx & ->).
      destruct m2 as [|y m2 _] using rev_ind; [done|]. exfalso.
      rewrite app_comm_cons, app_assoc in Eq. apply app_inj_tail in Eq as [-> _].
      apply Forall_app in Hno as [_ Hno]. inversion Hno; subst. done.
Qed.

(** ** Words *)

Lemma word_after s : s = word s ++ match after_word s with Some t => x20 :: t | None => [] end.
Proof.
  induction s as [|c s IH]; simpl; [done|]. case_decide as Hc; simpl; [by subst|]. by f_equal.
Qed.
Lemma word_no_space s : x20 ∉ word s.
Proof.
  induction s as [|c s IH]; simpl; [apply not_elem_of_nil|]. case_decide; [apply not_elem_of_nil|].
  rewrite elem_of_cons. intros [?|?]; done.
Qed.
Lemma word_app a t : x20 ∉ a -> word (a ++ x20 :: t) = a /\ after_word (a ++ x20 :: t) = Some t.
Proof.
  induction a as [|c a IH]; intros Ha; simpl.
  - done.
  - rewrite elem_of_cons in Ha. rewrite !decide_False by (intros ->; tauto).
    destruct IH as [-> ->]; [tauto|]. done.
Qed.
Lemma word_all a : x20 ∉ a -> word a = a /\ after_word a = None.
Proof.
  induction a as [|c a IH]; intros Ha; simpl; [done|].
  rewrite elem_of_cons in Ha. rewrite !decide_False by (intros ->; tauto).
  destruct IH as [-> ->]; [tauto|]. done.
Qed.
Lemma find_space s : find_sub [x20] s = match after_word s with Some _ => Some (length (word s)) | None => None end.
Proof.
  induction s as [|c s IH]; [done|]. rewrite find_sub_unfold. simpl. rewrite take_0.
  destruct (decide (c = x20)) as [->|Hc].
  - by rewrite decide_True.
  - rewrite decide_False by congruence. rewrite IH. by destruct (after_word s).
Qed.
Lemma splitn_word n s : splitn (S (S n)) x20 s =
  match after_word s with Some t => word s :: splitn (S n) x20 t | None => [s] end.
Proof.
  cbn [splitn]. rewrite find_space. destruct (after_word s) as [t|] eqn:E; [|done].
  pose proof (word_after s) as Hs. rewrite E in Hs.
  assert (take (length (word s)) s = word s) as -> by (rewrite Hs at 2; apply take_app).
  assert (drop (S (length (word s))) s = t) as ->; [|done].
  rewrite Hs at 2. rewrite cons_middle, app_assoc. apply drop_app_alt. rewrite app_length. simpl. lia.
Qed.
Lemma splitn_concat n s : concat ((fun p => [x20] ++ p) <$> splitn (S n) x20 s) = x20 :: s.
Proof.
  revert s. induction n as [|n IH]; intros s.
  - simpl. by rewrite app_nil_r.
  - rewrite splitn_word. pose proof (word_after s) as Hs. destruct (after_word s) as [t|].
    + rewrite fmap_cons. cbn [concat]. rewrite IH. rewrite Hs at 2. done.
    + csimpl. by rewrite app_nil_r.
Qed.

Lemma stack_tail_meta t : stack_tail true (splitn 3 x20 t) = without_meta (x20 :: t).
Proof.
  rewrite splitn_word. unfold stack_tail, without_meta. cbn [stack_count stack_wear].
  assert (forall count wear : bytes,
    (if negb (bool_decide (count = bstr "1")) || negb (bool_decide (wear = bstr "0")) then [x20] ++ count else []) ++
    (if negb (bool_decide (wear = bstr "0")) then [x20] ++ wear else []) =
    if decide (wear = bstr "0") then if decide (count = bstr "1") then [] else [x20] ++ count
    else [x20] ++ count ++ [x20] ++ wear) as Hgen.
  { intros count wear. repeat case_bool_decide; repeat case_decide; try done; simpl; by rewrite ?app_nil_r. }
  rewrite Hgen. destruct (after_word t) as [t1|] eqn:E1.
  - rewrite splitn_word. cbn [from_option]. destruct (after_word t1) as [t2|] eqn:E2; [done|].
    pose proof (word_after t1) as H1. rewrite E2, app_nil_r in H1. cbn. by rewrite <-H1.
  - pose proof (word_after t) as H1. rewrite E1, app_nil_r in H1. cbn. by rewrite <-H1.
Qed.

Lemma stack_rest_Some item line rest : stack_rest item line = Some rest <->
  line = bstr "Item " ++ item ++ rest /\ (rest = [] \/ exists t, rest = x20 :: t).
Proof.
  unfold stack_rest. split.
  - case_decide as Ht; [|done]. intros H.
    assert (line = (bstr "Item " ++ item) ++ drop (length (bstr "Item " ++ item)) line) as Hl.
    { rewrite <-Ht at 1. by rewrite take_drop. }
    destruct (drop _ line) as [|c t]; [injection H as <-|case_decide as Hc; [injection H as <-|done]].
    + split; [by rewrite app_assoc|by left].
    + subst c. split; [by rewrite app_assoc|right; by eexists].
  - intros [-> Hr]. rewrite app_assoc. rewrite take_app, drop_app, decide_True by done.
    destruct Hr as [->|[t ->]]; [done|]. by rewrite decide_True.
Qed.

Lemma replace_line_spec item new dm line : x20 ∉ item ->
  replace_line item new dm line =
  match stack_rest item line with
  | None => None
  | Some rest => Some (if bool_decide (new = []) then bstr "Empty"
      else bstr "Item " ++ new ++ if dm then without_meta rest else rest)
  end.
Proof.
  intros Hi. unfold replace_line.
  destruct (stack_rest item line) as [rest|] eqn:E.
  - apply stack_rest_Some in E as [-> Hr].
    change (bstr "Item " ++ item ++ rest) with (bstr "Item" ++ x20 :: (item ++ rest)).
    rewrite splitn_word. destruct (word_app (bstr "Item") (item ++ rest)) as [-> ->].
    { intros H. repeat (apply elem_of_cons in H as [?|H]; [done|]). by apply elem_of_nil in H. }
    rewrite splitn_word. destruct Hr as [->|[t ->]].
    + rewrite app_nil_r. destruct (word_all item Hi) as [_ ->]. rewrite !bool_decide_true by done. cbn [andb].
      case_bool_decide; [done|]. by destruct dm.
    + destruct (word_app item t Hi) as [-> ->]. rewrite !bool_decide_true by done. cbn [andb].
      case_bool_decide; [done|]. do 4 f_equal. destruct dm; [by rewrite stack_tail_meta|].
      apply (splitn_concat 2).
  - rewrite splitn_word. pose proof (word_after line) as Hl. destruct (after_word line) as [t|]; [|done].
    rewrite splitn_word. pose proof (word_after t) as Ht. destruct (after_word t) as [t1|] eqn:E1.
    + case_bool_decide as H1; [|done]. case_bool_decide as H2; [|done]. exfalso.
      rewrite H1 in Hl. rewrite H2 in Ht. rewrite Ht in Hl.
      assert (stack_rest item line = Some (x20 :: t1)); [|congruence].
      apply stack_rest_Some. split; [by rewrite Hl|right; by eexists].
    + case_bool_decide as H1; [|done]. case_bool_decide as H2; [|done]. exfalso.
      rewrite H1 in Hl. rewrite H2 in Hl.
      assert (stack_rest item line = Some []); [|congruence].
      apply stack_rest_Some. split; [by rewrite Hl, app_nil_r|by left].
Qed.

(** ** Inventories *)

Definition some_name (new : bytes) : option bytes := if decide (new = []) then None else Some new.

Lemma replace_inv_lines item new dm ls : x20 ∉ item ->
  foldl (fun st line =>
      if bool_decide (line = []) then st else
      match replace_line item new dm line with
      | Some l => (st.1 ++ l ++ [x0a], st.2 + 1)
      | None => (st.1 ++ line ++ [x0a], st.2)
      end) ([], 0) ls =
  (joined (rewrite_line item (some_name new) dm <$> filter (fun l => l <> []) ls), count_of (is_stack item) ls).
Proof.
  intros Hi. induction ls as [|l ls IH] using rev_ind; [done|].
  rewrite foldl_app, IH. cbn [foldl fst snd].
  unfold count_of. rewrite !filter_app, app_length, !filter_cons, !filter_nil.
  destruct (bool_decide_reflect (l = [])) as [->|Hl].
  - rewrite (decide_False (P := [] <> [])) by tauto.
    rewrite (decide_False (P := is_stack item [])).
    + rewrite app_nil_r. f_equal. simpl. lia.
    + intros [r Hr]. apply stack_rest_Some in Hr as [Hr _]. done.
  - rewrite (decide_True (P := l <> [])) by done. rewrite fmap_app, joined_app. csimpl.
    rewrite joined_cons. change (joined []) with (@nil byte).
    rewrite replace_line_spec by done. set (rw := rewrite_line item (some_name new) dm).
    assert (rw l = match stack_rest item l with
      | None => l
      | Some rest => if bool_decide (new = []) then bstr "Empty"
          else bstr "Item " ++ new ++ if dm then without_meta rest else rest end) as ->.
    { unfold rw, rewrite_line, some_name. destruct (stack_rest item l); [|done].
      case_bool_decide; case_decide; done. }
    case_decide as Hs.
    + destruct Hs as [rest Hs]. rewrite Hs. f_equal. simpl. lia.
    + destruct (stack_rest item l) as [rest|] eqn:Er; [destruct Hs; by eexists|]. f_equal. simpl. lia.
Qed.

Lemma do_replace_spec item new dm iv : x20 ∉ item -> terminated iv ->
  do_replace_inv item new dm iv = (rewrite_inv item (some_name new) dm iv, stacks item iv).
Proof.
  intros Hi [[b Hb] _]. unfold do_replace_inv, replace_inv, rewrite_inv, stacks.
  assert (iv = (b ++ bstr "EndInventory") ++ [x0a]) as -> by (rewrite Hb; unfold END_STR; by rewrite app_assoc).
  rewrite split_on_lines, replace_inv_lines by done. set (ls := lines _).
  unfold count_of. rewrite !filter_app, (filter_cons _ [] []), app_length. rewrite (filter_cons _ [] []), !filter_nil.
  rewrite (decide_False (P := [] <> [])) by tauto.
  rewrite (decide_False (P := is_stack item [])).
  2:{ intros [r Hr]. apply stack_rest_Some in Hr as [Hr _]. done. }
  rewrite app_nil_r. cbn [length]. rewrite Nat.add_0_r.
  set (n := Z.of_nat _). destruct (Z.ltb_spec 0 n); case_decide; try lia; [|done]. unfold joined.
  by rewrite <-list_fmap_compose.
Qed.

Lemma terminated_joined iv : terminated iv -> exists b, iv = b ++ [x0a] /\ joined (lines iv) = iv /\
  Forall (fun l => x0a ∉ l) (lines iv).
Proof.
  intros [[b ->] _]. exists (b ++ bstr "EndInventory"). unfold END_STR. rewrite app_assoc. split; [done|].
  split; [apply (lines_joined _ [])|]. apply lines_no_nl, not_elem_of_nil.
Qed.

Lemma joined_inj ls ls' : Forall (fun l => x0a ∉ l) ls -> Forall (fun l => x0a ∉ l) ls' ->
  joined ls = joined ls' -> ls = ls'.
Proof.
  revert ls'. induction ls as [|l ls IH]; intros ls' H1 H2 E.
  - symmetry in E. apply joined_nil in E as ->. done.
  - destruct ls' as [|l' ls']; [by apply joined_nil in E|]. rewrite !joined_cons in E.
    inversion H1; inversion H2; subst. apply no_nl_split in E as [-> E]; [|done..]. f_equal. by apply IH.
Qed.

Lemma end_no_space : x20 ∉ bstr "EndInventory".
Proof. vm_compute. intros H. repeat (apply elem_of_cons in H as [?|H]; [done|]). by apply elem_of_nil in H. Qed.

Lemma ends_after a t : ends (a ++ x20 :: t) -> ends t.
Proof.
  intros [p E]. symmetry in E. apply app_eq_app in E as (q & [[-> E]|[-> E]]).
  - symmetry in E. destruct q as [|c q]; [by rewrite app_nil_l in E|].
    simpl in E. injection E as -> E. exists q. done.
  - exfalso. apply end_no_space. rewrite E. apply elem_of_app. right. left.
Qed.
Lemma ends_app a t : ends t -> ends (a ++ t).
Proof. intros [p ->]. exists (a ++ p). by rewrite app_assoc. Qed.

Lemma elem_of_word c t : c ∈ word t -> c ∈ t.
Proof. intros H. rewrite (word_after t). apply elem_of_app. by left. Qed.
Lemma elem_of_after c t t1 : after_word t = Some t1 -> c ∈ t1 -> c ∈ t.
Proof. intros E H. rewrite (word_after t), E. apply elem_of_app. right. by right. Qed.

Lemma without_meta_elem c rest : c <> x20 -> c ∈ without_meta rest -> (rest = [] \/ exists t, rest = x20 :: t) ->
  c ∈ rest.
Proof.
  intros Hc Hin [->|[t ->]]; [by apply elem_of_nil in Hin|]. right. revert Hin.
  unfold without_meta. cbn [stack_count stack_wear].
  assert (forall x, x ∈ word t -> x ∈ t) as Hw by (intros; by apply elem_of_word).
  destruct (after_word t) as [t1|] eqn:E; cbn [from_option].
  - repeat case_decide; rewrite ?elem_of_app, ?elem_of_list_singleton.
    + by intros ?%elem_of_nil.
    + intros [?|?]; [done|auto].
    + intros [?|[?|[?|?]]]; [done|auto|done|]. eapply elem_of_after; [done|]. by apply elem_of_word.
  - rewrite decide_True by done. case_decide; rewrite ?elem_of_app, ?elem_of_list_singleton.
    + by intros ?%elem_of_nil.
    + intros [?|?]; [done|auto].
Qed.

Lemma word_ends t : ends (word t) -> ~ ends t -> occurs (bstr "EndInventory ") t.
Proof.
  intros [p Hp] Hn. pose proof (word_after t) as Ht. destruct (after_word t) as [t1|].
  - exists p, t1. rewrite Ht, Hp. by rewrite <-app_assoc.
  - destruct Hn. rewrite app_nil_r in Ht. rewrite Ht. by exists p.
Qed.

Lemma occurs_after pat t t1 : after_word t = Some t1 -> occurs pat t1 -> occurs pat t.
Proof. intros E H. rewrite (word_after t), E. apply occurs_app_l. by apply (occurs_app_l _ [x20]). Qed.

Lemma without_meta_ends a rest : (rest = [] \/ exists t, rest = x20 :: t) ->
  ~ ends a -> ~ ends rest -> ~ occurs (bstr "EndInventory ") rest -> ~ ends (a ++ without_meta rest).
Proof.
  intros [->|[t ->]] Ha Hr Ho.
  { cbn. by rewrite app_nil_r. }
  assert (~ ends t) as Ht by (intros H; by apply Hr, (ends_app [x20])).
  assert (~ ends (word t)) as Hw.
  { intros H. apply Ho. apply (occurs_app_l _ [x20]). by apply word_ends. }
  unfold without_meta. cbn [stack_count stack_wear].
  destruct (after_word t) as [t1|] eqn:E; cbn [from_option].
  - assert (~ ends (word t1)) as Hw1.
    { intros H. apply Ho, (occurs_app_l _ [x20]). eapply occurs_after; [done|]. apply word_ends; [done|].
      intros H1. apply Ht. rewrite (word_after t), E. apply ends_app. by apply (ends_app [x20]). }
    repeat case_decide.
    + by rewrite app_nil_r.
    + intros He. by apply ends_after in He.
    + intros He. rewrite !app_assoc in He. rewrite <-app_assoc in He. by apply ends_after in He.
  - rewrite decide_True by done. case_decide.
    + by rewrite app_nil_r.
    + intros He. by apply ends_after in He.
Qed.

Lemma rewrite_line_nl item new dm l : x0a ∉ l -> (forall n, new = Some n -> x0a ∉ n) ->
  x0a ∉ rewrite_line item new dm l.
Proof.
  intros Hl Hn. unfold rewrite_line. destruct (stack_rest item l) as [rest|] eqn:E; [|done].
  apply stack_rest_Some in E as [-> Hr].
  assert (x0a ∉ rest) as Hrest by (intros H; apply Hl; rewrite !elem_of_app; auto).
  destruct new as [n|].
  - rewrite !elem_of_app. intros [H|[H|H]].
    + repeat (apply elem_of_cons in H as [?|H]; [done|]). by apply elem_of_nil in H.
    + by apply (Hn n).
    + destruct dm; [|done]. by apply without_meta_elem in H.
  - intros H. repeat (apply elem_of_cons in H as [?|H]; [done|]). by apply elem_of_nil in H.
Qed.

Lemma rewrite_line_ends item new dm l : ~ ends l -> ~ occurs (bstr "EndInventory ") l ->
  (forall n, new = Some n -> plain_name n) -> ~ ends (rewrite_line item new dm l).
Proof.
  intros Hl Ho Hn. unfold rewrite_line. destruct (stack_rest item l) as [rest|] eqn:E; [|done].
  apply stack_rest_Some in E as [-> Hr].
  assert (~ ends rest) as Hrest.
  { intros H. apply Hl. by do 2 apply ends_app. }
  assert (~ occurs (bstr "EndInventory ") rest) as Horest.
  { intros H. apply Ho. by do 2 apply occurs_app_l. }
  destruct new as [n|].
  - assert (~ ends (bstr "Item " ++ n)) as Hnew.
    { change (bstr "Item " ++ n) with (bstr "Item" ++ x20 :: n). intros H%ends_after. by apply (Hn n). }
    rewrite app_assoc. destruct dm; [by apply without_meta_ends|].
    destruct Hr as [->|[t ->]]; [by rewrite app_nil_r|]. intros H%ends_after.
    apply Hrest. by apply (ends_app [x20]).
  - intros [p Hp]. apply (f_equal length) in Hp. rewrite app_length in Hp. change (length (bstr "EndInventory")) with 12%nat in Hp.
    change (length (bstr "Empty")) with 5%nat in Hp. lia.
Qed.

Lemma occurs_line pat l ls : l ∈ ls -> occurs pat l -> occurs pat (joined ls).
Proof.
  intros (l1 & l2 & ->)%elem_of_list_split Ho. rewrite joined_app, joined_cons. by apply occurs_app_l, occurs_app_r.
Qed.

Lemma rewrite_terminated item new dm iv : terminated iv -> plain_inv iv ->
  (forall n, new = Some n -> plain_name n /\ x0a ∉ n) -> terminated (rewrite_inv item new dm iv).
Proof.
  intros Ht [Hlast Hocc] Hn. unfold rewrite_inv. case_decide as Hs; [done|].
  destruct (terminated_joined iv Ht) as (b & Hb & Hj & Hnl).
  set (ls := lines iv) in *. pose proof Ht as Ht'. rewrite <-Hj in Ht'. apply terminated_lines in Ht' as (ls1 & line & Els & Hline & Hls1); [|done].
  assert (line = bstr "EndInventory") as ->.
  { assert (exists m, joined m ++ END_STR = iv /\ Forall (fun l => x0a ∉ l) m) as (m & Hm & Hmn).
    { destruct Hlast as [->|[l ->]].
      - exists []. done.
      - exists (lines (l ++ [x0a])). split; [|apply lines_no_nl, not_elem_of_nil].
        unfold lines. rewrite lines_joined, app_nil_l. by rewrite <-app_assoc. }
    assert (ls = m ++ [bstr "EndInventory"]) as Hlm.
    { apply joined_inj; [done| |].
      - apply Forall_app. split; [done|]. constructor; [apply end_no_nl|done].
      - rewrite Hj, <-Hm, joined_app. done. }
    rewrite Els in Hlm. by apply app_inj_tail in Hlm as [_ ->]. }
  assert ((fun l => rewrite_line item new dm l ++ [x0a]) <$> filter (fun l => l <> []) ls =
    (fun l => l ++ [x0a]) <$> (rewrite_line item new dm <$> filter (fun l => l <> []) ls)) as ->.
  { by rewrite <-list_fmap_compose. }
  fold (joined (rewrite_line item new dm <$> filter (fun l => l <> []) ls)).
  apply terminated_lines.
  - apply Forall_forall. intros l' (l & -> & [_ Hl]%elem_of_list_filter)%elem_of_list_fmap.
    apply rewrite_line_nl; [by eapply Forall_forall in Hnl|]. intros n Hn'. by apply Hn.
  - rewrite Els, filter_app, fmap_app.
    exists (rewrite_line item new dm <$> filter (fun l => l <> []) ls1), (bstr "EndInventory").
    split; [apply f_equal|split; [by exists []|]].
    + rewrite filter_cons, decide_True, filter_nil by done. csimpl. unfold rewrite_line.
      destruct (stack_rest item (bstr "EndInventory")) as [r|] eqn:Er; [|done].
      by apply stack_rest_Some in Er as [Er _].
    + apply Forall_forall. intros l' (l & -> & [_ Hl]%elem_of_list_filter)%elem_of_list_fmap.
      apply rewrite_line_ends.
      * by eapply Forall_forall in Hls1.
      * intros Ho. apply Hocc. rewrite <-Hj. eapply occurs_line; [|done]. rewrite Els. apply elem_of_app. by left.
      * intros n Hn'. by apply Hn.
Qed.

Lemma name_ok_chars n : name_ok n -> n <> [] /\ x20 ∉ n /\ x0a ∉ n.
Proof.
  intros [->|[->|(m & i & -> & Hm & Hi)]].
  - split; [done|]. split; intros H; repeat (apply elem_of_cons in H as [?|H]; [done|]); by apply elem_of_nil in H.
  - split; [done|]. split; intros H; repeat (apply elem_of_cons in H as [?|H]; [done|]); by apply elem_of_nil in H.
  - split; [by destruct m|].
    assert (forall c, (c = x20 \/ c = x0a) -> c ∉ m ++ bstr ":" ++ i) as H.
    { intros c Hc. rewrite !elem_of_app. intros [H|[H|H]].
      - rewrite Forall_forall in Hm. destruct (Hm c H) as [H'|[H'|H']];
          unfold lower_char, digit_char in *; destruct Hc as [->| ->]; vm_compute in H'; naive_solver.
      - apply elem_of_list_singleton in H. destruct Hc; by subst.
      - rewrite Forall_forall in Hi. destruct (Hi c H) as [H'|[H'|[H'|H']]];
          unfold lower_char, upper_char, digit_char in *; destruct Hc as [->| ->]; vm_compute in H'; naive_solver. }
    split; apply H; auto.
Qed.

Lemma zsum_nonneg {A} (f : A -> Z) l : (forall x, x ∈ l -> 0 <= f x) -> 0 <= zsum f l.
Proof. induction l as [|x l IH]; intros H; simpl; [done|]. pose proof (H x ltac:(set_solver)). pose proof (IH ltac:(set_solver)). lia. Qed.

(** ** One block *)

Lemma inv_loop (f : node_meta -> bytes * Z) (g : Z -> out bool) (P : Z -> Prop) `{forall i, Decision (P i)} (m0 : metadata_t) :
  (forall i m, m0 !! i = Some m -> g i = Ret (bool_decide (P i))) ->
  exists md, foldO (fun (st : metadata_t * counts) (e : Z * node_meta) =>
      let* sel := g e.1 in
      Ret (if sel : bool then
             let (i, mods) := f e.2 in
             (<[e.1 := NM (vars e.2) i]> st.1,
              (st.2.1 + mods, if 0 <? mods then st.2.2 + 1 else st.2.2))
           else st)) (sorted_list m0) (m0, (0, 0))
    = Ret (md, (zsum (fun e => if decide (P e.1) then (f e.2).2 else 0) (map_to_list m0),
                entries (fun i m => P i /\ 0 < (f m).2) m0)) /\
    forall i, md !! i = m0 !! i ≫= fun m => Some (if decide (P i) then NM (vars m) (f m).1 else m).
Proof.
  intros Hg.
  assert (forall e, e ∈ sorted_list m0 -> m0 !! e.1 = Some e.2) as Hel.
  { intros [i m] Hi. by apply elem_of_sorted_list in Hi. }
  rewrite entries_sorted. rewrite <-(zsum_perm _ _ _ (sorted_list_perm m0)).
  pose proof (sorted_list_NoDup m0) as Hnd.
  edestruct (foldO_inv (fun (st : metadata_t * counts) (e : Z * node_meta) =>
      let* sel := g e.1 in
      Ret (if sel : bool then
             let (i, mods) := f e.2 in
             (<[e.1 := NM (vars e.2) i]> st.1,
              (st.2.1 + mods, if 0 <? mods then st.2.2 + 1 else st.2.2))
           else st))
    (fun d st => st.2 = (zsum (fun e => if decide (P e.1) then (f e.2).2 else 0) d,
                         count_of (fun e => P e.1 /\ 0 < (f e.2).2) d) /\
      forall i, st.1 !! i = m0 !! i ≫= fun m => Some (if decide (i ∈ d.*1 /\ P i) then NM (vars m) (f m).1 else m))
    (sorted_list m0) (m0, (0, 0))) as ([md n] & -> & Hn & Hmd); cbn [fst snd] in *.
  - split; [done|]. intros i. by destruct (m0 !! i).
  - intros d [i m] r [md n] Ed [Hn Hmd]. cbn [fst snd] in *. subst n. cbn [fst snd].
    assert (m0 !! i = Some m) as Hi by (apply (Hel (i, m)); rewrite Ed; set_solver).
    rewrite (Hg i m) by done. cbn [bindO]. eexists. split; [done|].
    assert (i ∉ d.*1) as Hid.
    { rewrite Ed, fmap_app in Hnd. apply NoDup_app in Hnd as (_ & Hnd & _). intros Hx. apply (Hnd i Hx). csimpl. left. }
    rewrite zsum_app.
    assert (count_of (fun e : Z * node_meta => P e.1 /\ 0 < (f e.2).2) (d ++ [(i, m)]) =
      count_of (fun e : Z * node_meta => P e.1 /\ 0 < (f e.2).2) d + if decide (P i /\ 0 < (f m).2) then 1 else 0) as ->.
    { unfold count_of. rewrite filter_app, app_length, filter_cons, filter_nil. cbn [fst snd]. case_decide; simpl; lia. }
    cbn [zsum foldr fst snd].
    assert (forall j, j <> i -> (j ∈ (d ++ [(i, m)]).*1 /\ P j) <-> (j ∈ d.*1 /\ P j)) as Hother.
    { intros j Hj. rewrite fmap_app, elem_of_app. csimpl. rewrite elem_of_list_singleton. naive_solver. }
    assert (i ∈ (d ++ [(i, m)]).*1) as Hin by (rewrite fmap_app; csimpl; set_solver).
    destruct (bool_decide_reflect (P i)) as [HP|HP].
    + destruct (f m) as [iv mods] eqn:Ef. cbn [fst snd]. rewrite (decide_True (P := P i)) by done. split.
      * f_equal; [lia|]. destruct (Z.ltb_spec 0 mods); case_decide; try lia; tauto.
      * intros j. destruct (decide (j = i)) as [->|Hj].
        -- rewrite lookup_insert, Hi. cbn. rewrite decide_True by done. by rewrite Ef.
        -- rewrite lookup_insert_ne by done. rewrite Hmd. destruct (m0 !! j) as [m'|]; [|done]. cbn. f_equal.
           apply decide_ext. by rewrite Hother.
    + cbn [fst snd]. rewrite (decide_False (P := P i)) by done. rewrite decide_False by tauto. split.
      * f_equal; lia.
      * intros j. rewrite Hmd. destruct (m0 !! j) as [m'|] eqn:Ej; [|done]. cbn. f_equal.
        destruct (decide (j = i)) as [->|Hj].
        -- rewrite !decide_False by tauto. done.
        -- apply decide_ext. by rewrite Hother.
  - exists md. subst n. split; [done|]. intros i. rewrite Hmd. destruct (m0 !! i) as [m|] eqn:Ei; [|done]. cbn. f_equal.
    apply decide_ext. split; [by intros [_ ?]|]. intros HP. split; [|done]. apply elem_of_list_fmap.
    exists (i, m). split; [done|]. by apply elem_of_sorted_list.
Qed.

Lemma foldO_ext {A B} (f g : A -> B -> out A) l a : (forall x a, x ∈ l -> f a x = g a x) -> foldO f l a = foldO g l a.
Proof.
  revert a. induction l as [|x l IH]; intros a H; [done|]. simpl. rewrite H by left. 
  destruct (g a x); simpl; [|done]. apply IH. intros y a' Hy. apply H. by right.
Qed.

Lemma stacks_nonneg item iv : 0 <= stacks item iv.
Proof. unfold stacks. pose proof (count_of_bound (is_stack item) (lines iv)). lia. Qed.
Lemma rewrite_inv_none item new dm iv : stacks item iv = 0 -> rewrite_inv item new dm iv = iv.
Proof. intros H. unfold rewrite_inv. by rewrite decide_True. Qed.

Lemma replinv_body_ok E a inv_ names item new dm k bp x b : ext_ok E -> full_writes E -> block_at k bp ->
  deserialize E x = Ok b -> meta_in b -> name_ok item ->
  (new = [] \/ name_ok new /\ plain_name new) ->
  let P := picked a inv_ names bp b in
  (forall i m, metadata b !! i = Some m -> P i -> plain_inv (inv m)) ->
  let n := entries (fun i m => P i /\ 0 < stacks item (inv m)) (metadata b) in
  let s := zsum (fun e => if decide (P e.1) then stacks item (inv e.2) else 0) (map_to_list (metadata b)) in
  exists e b', e <> EFail /\
    replinv_body E item new dm names a inv_ k x = Ret (e, (s, n)) /\ (n = 0 -> e = ESkip) /\
    deserialize E (new_data e x) = Ok b' /\ (n = 0 \/ norm b' = b') /\
    metadata_changed (change_chosen (fun m => NM (vars m) (rewrite_inv item (some_name new) dm (inv m))) P) b b'.
Proof.
  intros HE Hf Hk Hd Hin Hitem Hnew P Hplain n s. pose proof (deserialize_wf E x b Hd) as Hb.
  destruct (block_at_key k bp Hk) as [Hr Hfk].
  destruct (name_ok_chars item Hitem) as (_ & Hsp & _).
  unfold replinv_body. rewrite Hd, Hfk.
  pose proof (any_filter_spec bp b a inv_ names) as Hfs.
  set (upd := change_chosen _ P).
  assert (forall i m, upd i (strip (version b) m) = strip (version b) <$> upd i m) as Hstrip.
  { intros i m. unfold upd, change_chosen. case_decide; simpl; [|done]. unfold strip, strip_private. by destruct (28 <=? version b). }
  assert (forall i m, metadata b !! i = Some m -> ~ (P i /\ 0 < stacks item (inv m)) -> upd i m = Some m) as Hsame.
  { intros i m Hi Hn. unfold upd, change_chosen. case_decide as HP; [|done]. f_equal.
    rewrite rewrite_inv_none; [by destruct m|]. pose proof (stacks_nonneg item (inv m)).
    destruct (decide (0 < stacks item (inv m))); [tauto|lia]. }
  assert (n = 0 -> s = 0) as Hns.
  { intros Hz. unfold s. assert (forall e, e ∈ map_to_list (metadata b) ->
      (if decide (P e.1) then stacks item (inv e.2) else 0) = 0) as He.
    { intros [i m] Hi%elem_of_map_to_list. simpl. case_decide as HP; [|done].
      pose proof (stacks_nonneg item (inv m)). pose proof (proj1 (entries_zero _ _) Hz i m Hi) as Hn.
      destruct (decide (0 < stacks item (inv m))); [by destruct Hn|lia]. }
    rewrite (zsum_ext _ (fun _ => 0)) by done. clear. induction (map_to_list (metadata b)); simpl; lia. }
  assert (n = 0 -> metadata_changed upd b b) as Hrefl.
  { intros Hz. eapply metadata_changed_refl; [done|]. intros i m Hi. rewrite Hstrip.
    rewrite (Hsame i m Hi); [done|]. exact (proj1 (entries_zero _ _) Hz i m Hi). }
  destruct (nodes_filter (nimap b) names) as [ids|] eqn:Enf.
  - assert (forall i m, metadata b !! i = Some m -> terminated (inv m)) as Hterm.
    { intros i m Hi. apply (proj2 (wf_md b Hb)) in Hi as [_ (_ & _ & ?)]. done. }
    rewrite (foldO_ext _ (fun (st : metadata_t * counts) (e : Z * node_meta) =>
      let* sel := idx_selected_any (nodes (ndata b)) (vmuls bp 16) a inv_ ids e.1 in
      Ret (if sel : bool then
             let (i, mods) := (rewrite_inv item (some_name new) dm (inv e.2), stacks item (inv e.2)) in
             (<[e.1 := NM (vars e.2) i]> st.1,
              (st.2.1 + mods, if 0 <? mods then st.2.2 + 1 else st.2.2))
           else st))).
    2:{ intros [i m] st Hi%elem_of_sorted_list. cbn [fst snd]. by rewrite do_replace_spec by eauto. }
    destruct (inv_loop (fun m => (rewrite_inv item (some_name new) dm (inv m), stacks item (inv m)))
      (idx_selected_any (nodes (ndata b)) (vmuls bp 16) a inv_ ids) P (metadata b)) as (md & Eloop & Hmd).
    { intros i m Hi. apply idx_selected_any_ok; try done. by eapply Hin. }
    rewrite Eloop. clear Eloop. cbn [bindO fst snd].
    fold s. fold n. destruct (n =? 0) eqn:Ez.
    + apply Z.eqb_eq in Ez. exists ESkip, b. split; [done|]. split; [done|]. split; [done|]. split; [done|]. split; [by left|]. by apply Hrefl.
    + assert (forall i, md !! i = metadata b !! i ≫= upd i) as Hmd' by done.
      assert (wf_block (set_metadata b md)) as Hb1.
      { apply wf_set_metadata; [done|]. eapply wf_metadata_upd; [apply (wf_md b Hb)|done|].
        intros i e e' Hi. unfold upd, change_chosen. intros [= <-].
        pose proof (proj2 (wf_md b Hb) i e Hi) as [_ (H1 & H2 & H3)]. case_decide; [|done].
        split; [done|]. split; [done|]. cbn [inv]. apply rewrite_terminated; [done|by eapply Hplain|].
        unfold some_name. intros nn. case_decide; [done|]. intros [= <-].
        destruct Hnew as [?|[Hok ?]]; [done|]. split; [done|]. by apply name_ok_chars in Hok as (_ & _ & ?). }
      destruct (write_ok E _ (s, n) HE Hf Hb1) as (d & -> & Hd').
      eexists (EWrite d), _. split; [done|]. split; [done|]. split; [lia|].
      split; [exact Hd'|]. split; [right; by rewrite norm_idem|]. apply metadata_changed_norm; [done|done|].
      intros i m Hi Hbl m'. unfold upd, change_chosen. intros [= <-]. case_decide; [|done].
      destruct Hbl as [Hv Hend]. split; [done|]. cbn [inv]. rewrite Hend. apply rewrite_inv_none.
      unfold stacks. apply count_of_zero. change (lines END_STR) with [bstr "EndInventory"].
      intros l ->%elem_of_list_singleton [r Hr']. by apply stack_rest_Some in Hr' as [? _].
  - exists ESkip, b. assert (n = 0) as Hz.
    { apply entries_zero. intros i m _ [HP _]. by eapply lacks_not_picked. }
    rewrite Hz, (Hns Hz). split; [done|]. split; [done|]. split; [done|]. split; [done|]. split; [by left|]. by apply Hrefl.
Qed.

Lemma replinv_picks E W g main input pos item : setting E W g main pos ->
  acmd g = CReplaceInInv -> aitem g = Some item ->
  let new := if adelete g then None else Some (default item (new_item g)) in
  (forall n, new = Some n -> plain_name n) ->
  blocks E main meta_in ->
  let P := picked (aarea g) (invert g) (anodes g) in
  let s := fun bp b => zsum (fun e => if decide (P bp b e.1) then stacks item (inv e.2) else 0)
                         (map_to_list (metadata b)) in
  (forall k bp x b i m, block_at k bp -> main !! k = Some x -> deserialize E x = Ok b ->
     metadata b !! i = Some m -> P bp b i -> plain_inv (inv m)) ->
  edits E W g main input (anodes g)
    (MStacks (total E main pos s mod 18446744073709551616)
       (total E main pos (fun bp b => entries (fun i m => P bp b i /\ 0 < stacks item (inv m)) (metadata b))))
    (fun bp b => forall i m, metadata b !! i = Some m -> P bp b i -> stacks item (inv m) = 0)
    (fun bp b => metadata_changed (change_chosen (fun m => NM (vars m)
       (rewrite_inv item new (delete_meta g) (inv m))) (P bp b)) b).
Proof.
  intros HS Hc Hitem new Hpn Hin P s Hplain.
  destruct HS as [HE Hfull HW HO Hsup Hleg Hrdy Hkeys] eqn:EHS. clear EHS.
  set (names := anodes g) in *.
  pose proof (entries_total E W g main pos (fun bp b i m => P bp b i /\ 0 < stacks item (inv m)) HS) as Ht.
  assert (Forall name_ok (all_names g)) as Hnames by apply Hleg.
  assert (name_ok item) as Hio.
  { eapply Forall_forall; [exact Hnames|]. unfold all_names. rewrite Hitem. simpl. set_solver. }
  assert (some_name (default (if adelete g then [] else item) (new_item g)) = new /\
    (default (if adelete g then [] else item) (new_item g) = [] \/
     name_ok (default (if adelete g then [] else item) (new_item g)) /\
     plain_name (default (if adelete g then [] else item) (new_item g)))) as [Hnew Hnok].
  { destruct Hleg as (_ & _ & _ & _ & Hleg). rewrite Hc in Hleg. unfold new, some_name in *.
    destruct (new_item g) as [n|] eqn:En; cbn [default] in *.
    - destruct Hleg as [Hdel _]. rewrite Hdel in *.
      assert (name_ok n) as Hok.
      { eapply Forall_forall; [exact Hnames|]. unfold all_names. rewrite En. simpl. set_solver. }
      destruct (name_ok_chars n Hok) as (Hne & _). rewrite decide_False by done. split; [done|]. right.
      split; [done|]. by apply Hpn.
    - destruct (adelete g); cbn.
      + rewrite decide_True by done. split; [done|]. by left.
      + destruct (name_ok_chars item Hio) as (Hne & _). rewrite decide_False by done. split; [done|]. right.
        split; [done|]. by apply Hpn. }
  clearbody new. rewrite <-(u64_id (total E main pos (fun bp b => entries _ (metadata b)))) by done.
  change (total E main pos s mod 18446744073709551616) with (u64 (total E main pos s)).
  apply (run_edit_mod E W g main input pos HS false names
    (replinv_body E item (default (if adelete g then [] else item) (new_item g)) (delete_meta g) names (aarea g) (invert g))
    (fun bp b => (s bp b, entries (fun i m => P bp b i /\ 0 < stacks item (inv m)) (metadata b))) _ _
    (fun c => MStacks c.1 c.2)).
  - unfold cmd_func. rewrite Hc. unfold replace_in_inv. rewrite Hitem. done.
  - intros k bp x Hk Hm Hv _. destruct (deserialize E x) as [b|] eqn:Ed.
    + destruct (replinv_body_ok E (aarea g) (invert g) names item
        (default (if adelete g then [] else item) (new_item g)) (delete_meta g) k bp x b HE Hfull Hk Ed
        ltac:(by apply (Hin k x b)) Hio Hnok)
        as (e & b' & He & Hbody & Hz & Hd & Hcan & HR).
      { intros i m Hi HP. by apply (Hplain k bp x b i m). }
      rewrite Hnew in HR. exists e. split; [done|]. split; [done|]. split.
      * intros Hun. apply Hz, entries_zero. intros i m Hi [HP Hst]. rewrite (Hun i m Hi HP) in Hst. lia.
      * exists b'. split; [done|]. split; [|done]. destruct Hcan as [Hcan|?]; [left|by right].
        intros i m Hi HP. pose proof (stacks_nonneg item (inv m)) as Hb.
        pose proof (fun Hs => proj1 (entries_zero _ _) Hcan i m Hi (conj HP Hs)) as Hst.
        destruct (decide (0 < stacks item (inv m))); [by destruct Hst|lia].
    + unfold replinv_body. by rewrite Ed.
  - intros k bp x b Hk Hm Ed Hn.
    assert (forall i m, metadata b !! i = Some m -> ~ P bp b i) as Hns.
    { intros i m Hi. eapply passed_not_picked; [done|done|]. by eapply (Hin k x b). }
    split; [|split].
    + f_equal.
      * unfold s. rewrite (zsum_ext _ (fun _ => 0)).
        -- clear. induction (map_to_list (metadata b)); simpl; lia.
        -- intros [i m] Hi%elem_of_map_to_list. simpl. rewrite decide_False; [done|]. by eapply Hns.
      * apply entries_zero. intros i m Hi [? _]. by eapply Hns.
    + intros i m Hi HP. by destruct (Hns i m Hi).
    + eapply metadata_changed_refl; [done|]. intros i m Hi. unfold change_chosen. rewrite decide_False; [done|].
      by eapply Hns.
Qed.

Lemma replinv_run E W g main input pos item : setting E W g main pos ->
  acmd g = CReplaceInInv -> aitem g = Some item ->
  let new := if adelete g then None else Some (default item (new_item g)) in
  (forall n, new = Some n -> plain_name n) ->
  blocks E main meta_in -> (anodes g <> [] -> blocks E main unique_names) ->
  let P := chosen (aarea g) (invert g) (anodes g) in
  let s := fun bp b => zsum (fun e => if decide (P bp b e.1) then stacks item (inv e.2) else 0)
                         (map_to_list (metadata b)) in
  (forall k bp x b i m, block_at k bp -> main !! k = Some x -> deserialize E x = Ok b ->
     metadata b !! i = Some m -> P bp b i -> plain_inv (inv m)) ->
  edits E W g main input (anodes g)
    (MStacks (total E main pos s mod 18446744073709551616)
       (total E main pos (fun bp b => entries (fun i m => P bp b i /\ 0 < stacks item (inv m)) (metadata b))))
    (fun bp b => forall i m, metadata b !! i = Some m -> P bp b i -> stacks item (inv m) = 0)
    (fun bp b => metadata_changed (change_chosen (fun m => NM (vars m)
       (rewrite_inv item new (delete_meta g) (inv m))) (P bp b)) b).
Proof.
  intros HS Hc Hitem new Hpn Hin Hub P s Hplain.
  assert (forall k x b bp i, main !! k = Some x -> deserialize E x = Ok b ->
    picked (aarea g) (invert g) (anodes g) bp b i <-> P bp b i) as Heq.
  { intros k x b bp i Hx Ed. apply picked_unique. destruct (decide (anodes g = [])) as [?|Hn]; [by right|left].
    by apply (Hub Hn k x b). }
  eapply edits_mono; [| |apply (replinv_picks E W g main input pos item HS Hc Hitem Hpn Hin)].
  - f_equal.
    + f_equal. apply total_eq. intros k x b Hx Ed. apply zsum_ext. intros [i m] _. cbn [fst snd].
      apply decide_ext. by apply (Heq k x b).
    + apply total_eq. intros k x b Hx Ed. apply count_of_ext. intros [i m] _. simpl.
      by rewrite (Heq k x b (pos k) i Hx Ed).
  - intros k bp x b _ Hx Ed. split.
    + split; intros H i m Hi HP; (eapply H; [exact Hi|]); by apply (Heq k x b).
    + intros b'. apply metadata_changed_eq. intros i m. apply change_chosen_eq. by apply (Heq k x b).
  - intros k bp x b i m Hk Hx Ed Hi HP. eapply (Hplain k); try done. by apply (Heq k x b).
Qed.

(** ** Inventories stay plain *)
Lemma occurs_mid c pat a t : pat <> [] -> occurs pat (a ++ c :: t) ->
  occurs pat a \/ occurs pat t \/ exists q u, pat = q ++ c :: u /\ exists l, a = l ++ q.
Proof.
  intros Hne (l & r & E). apply app_eq_app in E as (q & [[-> E]|[-> E]]).
  - apply app_eq_app in E as (u & [[-> E]|[-> E]]).
    + destruct u as [|x u].
      * left. exists l, []. by rewrite !app_nil_r.
      * simpl in E. injection E as <- ->. right. right. exists q, u. eauto.
    + left. exists l, u. done.
  - destruct q as [|d q].
    + destruct pat as [|x pat]; [done|]. simpl in E. injection E as -> ->. right. right. exists [], pat.
      split; [done|]. exists a. by rewrite app_nil_r.
    + simpl in E. injection E as -> ->. right. left. by exists q, r.
Qed.
Lemma occurs_sep c pat a t : pat <> [] -> c ∉ pat -> occurs pat (a ++ c :: t) -> occurs pat a \/ occurs pat t.
Proof.
  intros Hne Hc [?|[?|(q & u & -> & _)]]%occurs_mid; [by left|by right| |done].
  destruct Hc. apply elem_of_app. right. left.
Qed.
Lemma occurs_end a t : occurs (bstr "EndInventory ") (a ++ x20 :: t) ->
  occurs (bstr "EndInventory ") a \/ ends a \/ occurs (bstr "EndInventory ") t.
Proof.
  intros [?|[?|(q & u & E & l & ->)]]%occurs_mid; [by left|by right; right| |done]. right. left.
  exists l. f_equal. change (bstr "EndInventory ") with (bstr "EndInventory" ++ [x20]) in E.
  destruct (app_eq_app _ _ _ _ E) as (v & [[E1 E2]|[E1 E2]]).
  - destruct v as [|x v]; [by rewrite app_nil_r in E1|]. exfalso. simpl in E2. injection E2 as <- _.
    apply end_no_space. rewrite E1. apply elem_of_app. right. left.
  - destruct v as [|x v]; [by rewrite app_nil_r in E1|]. exfalso. apply (f_equal length) in E2.
    rewrite app_length in E2. simpl in E2. lia.
Qed.
Lemma occurs_joined pat ls : pat <> [] -> x0a ∉ pat -> occurs pat (joined ls) -> exists l, l ∈ ls /\ occurs pat l.
Proof.
  intros Hne Hc. induction ls as [|l ls IH]; intros Ho.
  - destruct Ho as (a & r & E). change (joined []) with (@nil byte) in E. destruct a; [|done]. by destruct pat.
  - rewrite joined_cons in Ho. simpl in Ho. rewrite <-?app_assoc in Ho. simpl in Ho.
    apply occurs_sep in Ho as [Ho|Ho]; [| |done..].
    + exists l. split; [left|done].
    + destruct (IH Ho) as (l' & Hl & ?). exists l'. split; [by right|done].
Qed.
Lemma occurs_elem c pat s : c ∈ pat -> occurs pat s -> c ∈ s.
Proof. intros Hc (l & r & ->). rewrite !elem_of_app. auto. Qed.
Lemma ei_space : x20 ∈ bstr "EndInventory ".
Proof. change (bstr "EndInventory ") with (bstr "EndInventory" ++ [x20]). apply elem_of_app. right. left. Qed.
Lemma no_space_no_ei s : x20 ∉ s -> ~ occurs (bstr "EndInventory ") s.
Proof. intros H Ho. apply H. eapply occurs_elem; [apply ei_space|done]. Qed.

Lemma rewrite_line_plain item new dm l : ~ ends l -> ~ occurs (bstr "EndInventory ") l ->
  (forall n, new = Some n -> plain_name n /\ x20 ∉ n) -> ~ occurs (bstr "EndInventory ") (rewrite_line item new dm l).
Proof.
  intros Hl Ho Hn. unfold rewrite_line. destruct (stack_rest item l) as [rest|] eqn:E; [|done].
  apply stack_rest_Some in E as [-> Hr].
  assert (~ ends rest) as Hrest.
  { intros H. apply Hl. by do 2 apply ends_app. }
  assert (~ occurs (bstr "EndInventory ") rest) as Horest.
  { intros H. apply Ho. by do 2 apply occurs_app_l. }
  destruct new as [n|].
  - destruct (Hn n eq_refl) as [Hpn Hsp].
    change (bstr "Item " ++ n ++ ?r) with (bstr "Item" ++ x20 :: (n ++ r)).
    intros [H|[H|H]]%occurs_end.
    { revert H. apply no_space_no_ei. intros H. repeat (apply elem_of_cons in H as [?|H]; [done|]). by apply elem_of_nil in H. }
    { destruct H as [p Hp]. apply (f_equal length) in Hp. rewrite app_length in Hp. simpl in Hp. lia. }
    revert H. destruct dm.
    + destruct Hr as [->|[t ->]].
      { cbn. rewrite app_nil_r. by apply no_space_no_ei. }
      assert (~ ends t) as Ht by (intros H; by apply Hrest, (ends_app [x20])).
      assert (~ ends (word t)) as Hw.
      { intros H. apply Horest. apply (occurs_app_l _ [x20]). by apply word_ends. }
      assert (~ occurs (bstr "EndInventory ") (n ++ x20 :: word t)) as Hc.
      { intros [H|[H|H]]%occurs_end; [|done|]; revert H; apply no_space_no_ei; [done|apply word_no_space]. }
      unfold without_meta. cbn [stack_count stack_wear].
      case_decide as H1; [case_decide as H2|].
      * rewrite app_nil_r. by apply no_space_no_ei.
      * done.
      * change (n ++ [x20] ++ word t ++ [x20] ++ ?u) with (n ++ x20 :: (word t ++ x20 :: u)).
        intros [H|[H|H]]%occurs_end; [by revert H; apply no_space_no_ei|done|].
        apply occurs_end in H as [H|[H|H]]; [by revert H; apply no_space_no_ei, word_no_space|done|].
        revert H. apply no_space_no_ei. destruct (after_word t); simpl; [apply word_no_space|].
        intros H. repeat (apply elem_of_cons in H as [?|H]; [done|]). by apply elem_of_nil in H.
    + destruct Hr as [->|[t ->]].
      { rewrite app_nil_r. by apply no_space_no_ei. }
      intros [H|[H|H]]%occurs_end; [by revert H; apply no_space_no_ei|done|].
      apply Horest. by apply (occurs_app_l _ [x20]).
  - apply no_space_no_ei. intros H. repeat (apply elem_of_cons in H as [?|H]; [done|]). by apply elem_of_nil in H.
Qed.

Lemma plain_lines iv : terminated iv -> plain_inv iv -> exists ls, lines iv = ls ++ [bstr "EndInventory"] /\
  joined (lines iv) = iv /\ Forall (fun l => ~ ends l) ls /\ Forall (fun l => x0a ∉ l) (lines iv).
Proof.
  intros Ht [Hlast Hocc].
  destruct (terminated_joined iv Ht) as (b & Hb & Hj & Hnl).
  set (ls := lines iv) in *. pose proof Ht as Ht'. rewrite <-Hj in Ht'. apply terminated_lines in Ht' as (ls1 & line & Els & Hline & Hls1); [|done].
  exists ls1. split; [|done]. rewrite Els. do 2 f_equal.
  assert (exists m, joined m ++ END_STR = iv /\ Forall (fun l => x0a ∉ l) m) as (m & Hm & Hmn).
  { destruct Hlast as [->|[l ->]].
    - exists []. done.
    - exists (lines (l ++ [x0a])). split; [|apply lines_no_nl, not_elem_of_nil].
      unfold lines. rewrite lines_joined, app_nil_l. by rewrite <-app_assoc. }
  assert (ls = m ++ [bstr "EndInventory"]) as Hlm.
  { apply joined_inj; [done| |].
    - apply Forall_app. split; [done|]. constructor; [apply end_no_nl|done].
    - rewrite Hj, <-Hm, joined_app. done. }
  rewrite Els in Hlm. by apply app_inj_tail in Hlm as [_ ->].
Qed.

Lemma rewrite_plain item new dm iv : terminated iv -> plain_inv iv ->
  (forall n, new = Some n -> plain_name n /\ x0a ∉ n /\ x20 ∉ n) -> plain_inv (rewrite_inv item new dm iv).
Proof.
  intros Ht Hp Hn. destruct (plain_lines iv Ht Hp) as (ls & Els & Hj & Hends & Hnl).
  unfold rewrite_inv. case_decide as Hs; [done|].
  assert ((fun l => rewrite_line item new dm l ++ [x0a]) <$> filter (fun l => l <> []) (lines iv) =
    (fun l => l ++ [x0a]) <$> (rewrite_line item new dm <$> filter (fun l => l <> []) (lines iv))) as ->.
  { by rewrite <-list_fmap_compose. }
  fold (joined (rewrite_line item new dm <$> filter (fun l => l <> []) (lines iv))).
  assert (rewrite_line item new dm (bstr "EndInventory") = bstr "EndInventory") as Hlast.
  { unfold rewrite_line. destruct (stack_rest item (bstr "EndInventory")) as [r|] eqn:Er; [|done].
    by apply stack_rest_Some in Er as [Er _]. }
  assert (filter (fun l => l <> []) [bstr "EndInventory"] = [bstr "EndInventory"]) as Hf by done.
  split.
  - rewrite Els, filter_app, fmap_app, joined_app, Hf. csimpl. rewrite Hlast. change (joined [bstr "EndInventory"]) with END_STR.
    set (pre := rewrite_line item new dm <$> _). destruct (decide (pre = [])) as [->|Hne]; [by left|]. right.
    destruct (exists_last Hne) as (u & last & ->). rewrite joined_app, joined_cons. change (joined []) with (@nil byte).
    exists (joined u ++ last). rewrite ?app_nil_r, <-?app_assoc. simpl. by rewrite <-?app_assoc.
  - intros Ho. apply occurs_joined in Ho as (l' & (l & -> & [_ Hl]%elem_of_list_filter)%elem_of_list_fmap & Ho); [|done|].
    2:{ intros H. repeat (apply elem_of_cons in H as [?|H]; [done|]). by apply elem_of_nil in H. }
    destruct Hp as [_ Hocc]. revert Ho. rewrite Els in Hl. apply elem_of_app in Hl as [Hl|Hl%elem_of_list_singleton].
    + apply rewrite_line_plain.
      * by eapply Forall_forall in Hends.
      * intros Ho. apply Hocc. rewrite <-Hj. eapply occurs_line; [|done]. rewrite Els. apply elem_of_app. by left.
      * intros n Hn'. destruct (Hn n Hn') as (? & ? & ?). done.
    + subst l. rewrite Hlast. intros Ho. apply no_space_no_ei in Ho; [done|apply end_no_space].
Qed.
