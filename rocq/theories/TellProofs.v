(** What can be learnt from the wording of a message *)
From Verif Require Import SpecTell CodecProofs CliProofs FmtProofs.
From Verif Require Import Spec.

(** ** Numbers *)
Lemma dec_digits s n : dec s n -> Forall (fun b => is_digit b = true) s.
Proof.
  induction 1 as [b d H1 H2|s n b d Hs IH H1 H2]; [constructor; [|done]|apply Forall_app; split; [done|constructor; [|done]]];
    pose proof (proj2 (digit_iff b d) (conj H1 H2)) as Hd; unfold digit in Hd; by destruct (is_digit b).
Qed.
Lemma sep_eq {A} (c : A) a s a' s' : c ∉ a -> c ∉ a' -> a ++ c :: s = a' ++ c :: s' -> a = a' /\ s = s'.
Proof.
  intros H H' E. apply app_eq_app in E as (q & [[-> E]|[-> E]]); destruct q as [|x q].
  - simpl in E. inv E. by rewrite app_nil_r.
  - simpl in E. injection E as -> _. destruct H. set_solver.
  - simpl in E. inv E. by rewrite app_nil_r.
  - simpl in E. injection E as -> _. destruct H'. set_solver.
Qed.
Lemma not_digit c (l : bytes) : is_digit c = false -> Forall (fun b => is_digit b = true) l -> c ∉ l.
Proof. intros Hc Hl Hin. eapply Forall_forall in Hl; [|exact Hin]. congruence. Qed.

Lemma scale_one suffix u : (suffix, u) ∈ scales -> exists c, suffix = [c] /\ is_digit c = false.
Proof. unfold scales. rewrite !elem_of_cons, elem_of_nil. intros [H|[H|[H|[H|[]]]]]; inv H; by eexists. Qed.
Lemma scale_fun suffix u u' : (suffix, u) ∈ scales -> (suffix, u') ∈ scales -> u = u'.
Proof.
  unfold scales. rewrite !elem_of_cons, !elem_of_nil. intros [H|[H|[H|[H|[]]]]] [H'|[H'|[H'|[H'|[]]]]]; by inv H; inv H'.
Qed.
Lemma abbreviated_fun t i f v u i' f' v' u' : abbreviated t i f v u -> abbreviated t i' f' v' u' ->
  f = f' /\ v = v' /\ u = u'.
Proof.
  intros (s & Hs & Hd & Hi & Ht) (s' & Hs' & Hd' & Hi' & Ht').
  destruct (scale_one s u Hs) as (c & -> & Hc), (scale_one s' u' Hs') as (c' & -> & Hc').
  rewrite Ht, !app_assoc in Ht'. apply app_inj_2 in Ht' as [E [= ->]]; [|done].
  pose proof (dec_digits _ _ Hd) as D. pose proof (dec_digits _ _ Hd') as D'.
  apply Forall_app in D as [Di Df], D' as [Di' Df'].
  enough (i = i' /\ f = f') as [-> ->].
  { split; [done|]. split; [by eapply dec_fun|by eapply scale_fun]. }
  pose proof (not_digit x2e _ eq_refl Di) as Ni. pose proof (not_digit x2e _ eq_refl Di') as Ni'.
  destruct f as [|b f], f' as [|b' f'].
  - rewrite !app_nil_r in E. done.
  - rewrite app_nil_r in E. destruct Ni. rewrite E. apply elem_of_app. right. left.
  - rewrite app_nil_r in E. destruct Ni'. rewrite <-E. apply elem_of_app. right. left.
  - change (bstr "." ++ b :: f) with (x2e :: b :: f) in E. change (bstr "." ++ b' :: f') with (x2e :: b' :: f') in E.
    by apply sep_eq in E.
Qed.

Lemma num_alike tie n n' : 0 <= n < 2 ^ 64 -> 0 <= n' < 2 ^ 64 ->
  fmt_big_num tie n = fmt_big_num tie n' -> look_alike n n'.
Proof.
  intros Hn Hn' E. destruct (fmt_big_num_ok tie n Hn) as [S L], (fmt_big_num_ok tie n' Hn') as [S' L'].
  rewrite E in S, L.
  assert (forall m v i f v' u, dec (fmt_big_num tie n') m -> abbreviated (fmt_big_num tie n') i f v' u -> v = v' -> False) as Hno.
  { intros m v i f v' u Hm (s & Hs & _ & _ & Ht) _. destruct (scale_one s u Hs) as (c & -> & Hc).
    apply dec_digits in Hm. rewrite Ht in Hm. apply Forall_app in Hm as [_ Hm]. apply Forall_app in Hm as [_ Hm].
    apply Forall_inv in Hm. congruence. }
  destruct (decide (n < 1000)) as [H|H], (decide (n' < 1000)) as [H'|H'].
  - left. eapply dec_fun; [by apply S|by apply S'].
  - destruct L' as (i & f & v & u & Ha & _); [lia|]. destruct (Hno n v i f v u); auto.
  - destruct L as (i & f & v & u & Ha & _); [lia|]. destruct (Hno n' v i f v u); auto.
  - destruct L as (i & f & v & u & Ha & _ & Hc & _); [lia|]. destruct L' as (i' & f' & v' & u' & Ha' & _ & Hc' & _); [lia|].
    destruct (abbreviated_fun _ _ _ _ _ _ _ _ _ Ha Ha') as (-> & -> & ->). right. split; [lia|]. split; [lia|].
    unfold close_to in Hc, Hc'. set (p := 10 ^ Z.of_nat (length f')) in *.
    assert (0 < p) as Hp by (apply Z.pow_pos_nonneg; lia). nia.
Qed.

(** The first character is a digit, and there is no blank. *)
Lemma num_shape tie n : 0 <= n < 2 ^ 64 -> exists d r, fmt_big_num tie n = d :: r /\ is_digit d = true.
Proof.
  intros Hn. destruct (fmt_big_num_ok tie n Hn) as [S L]. destruct (decide (n < 1000)) as [H|H].
  - specialize (S H). apply dec_digits in S as D. apply dec_nonempty in S.
    destruct (fmt_big_num tie n) as [|d r]; [done|]. exists d, r. split; [done|]. by apply Forall_inv in D.
  - destruct L as (i & f & v & u & (s & _ & Hd & Hi & ->) & _); [lia|]. apply dec_digits in Hd.
    destruct i as [|d i]; [done|]. eexists d, _. split; [done|]. by apply Forall_inv in Hd.
Qed.
Lemma num_blank tie n : 0 <= n < 2 ^ 64 -> x20 ∉ fmt_big_num tie n.
Proof.
  intros Hn. destruct (fmt_big_num_ok tie n Hn) as [S L]. destruct (decide (n < 1000)) as [H|H].
  - apply not_digit; [done|]. eapply dec_digits. by apply S.
  - destruct L as (i & f & v & u & (s & Hs & Hd & Hi & ->) & _); [lia|]. apply dec_digits in Hd.
    apply Forall_app in Hd as [Di Df]. destruct (scale_one s u Hs) as (c & -> & Hc).
    pose proof (not_digit x20 _ eq_refl Di). pose proof (not_digit x20 _ eq_refl Df).
    assert (x20 <> c). { intros <-. unfold scales in Hs. rewrite !elem_of_cons, elem_of_nil in Hs. by destruct Hs as [?|[?|[?|[?|[]]]]]. }
    rewrite !not_elem_of_app, not_elem_of_cons. split; [done|]. split; [|split; [done|apply not_elem_of_nil]].
    destruct f; [apply not_elem_of_nil|]. change (bstr ".") with [x2e]. by apply not_elem_of_cons.
Qed.

(** ** Positions *)
Lemma show_int_ok z : i32_ok z -> denotes (show_int z) z.
Proof.
  unfold i32_ok. intros Hz. unfold show_int, denotes. destruct (z <? 0) eqn:E.
  - right. right. exists (show (- z)). split; [done|]. apply show_dec_ok. lia.
  - left. apply show_dec_ok. lia.
Qed.
Lemma denotes_fun s z z' : denotes s z -> denotes s z' -> z = z'.
Proof.
  intros [H|[(r & -> & H)|(r & -> & H)]] [H'|[(r' & E & H')|(r' & E & H')]];
    try (simpl in *; match goal with H : dec (_ :: _) _ |- _ => by apply dec_head in H end);
    try (subst; simpl in *; match goal with H : dec (_ :: _) _ |- _ => by apply dec_head in H end).
  - by eapply dec_fun.
  - simpl in E. injection E as <-. by eapply dec_fun.
  - done.
  - done.
  - simpl in E. injection E as <-. assert (- z = - z') by (by eapply dec_fun). lia.
Qed.
Lemma denotes_comma s z : denotes s z -> x2c ∉ s /\ x29 ∉ s.
Proof.
  intros [H|[(r & -> & H)|(r & -> & H)]]; apply dec_digits in H;
    pose proof (not_digit x2c _ eq_refl H); pose proof (not_digit x29 _ eq_refl H); simpl;
    rewrite ?not_elem_of_cons; auto.
Qed.
Lemma corner_shown p : i32_ok (vx p) -> i32_ok (vy p) -> i32_ok (vz p) -> exists sx sy sz,
  denotes sx (vx p) /\ denotes sy (vy p) /\ denotes sz (vz p) /\
  arg_error_text (CornerOutside p) =
    bstr "Area corner is outside map bounds: (" ++ sx ++ bstr ", " ++ sy ++ bstr ", " ++ sz ++ bstr ").".
Proof.
  intros Hx Hy Hz. exists (show_int (vx p)), (show_int (vy p)), (show_int (vz p)).
  do 3 (split; [by apply show_int_ok|]). cbn [arg_error_text]. unfold show_vec. rewrite <-!app_assoc. done.
Qed.
Lemma corner_fun p p' : i32_ok (vx p) -> i32_ok (vy p) -> i32_ok (vz p) ->
  i32_ok (vx p') -> i32_ok (vy p') -> i32_ok (vz p') ->
  arg_error_text (CornerOutside p) = arg_error_text (CornerOutside p') -> p = p'.
Proof.
  intros Hx Hy Hz Hx' Hy' Hz' E.
  destruct (corner_shown p) as (sx & sy & sz & Dx & Dy & Dz & E1); [done..|].
  destruct (corner_shown p') as (sx' & sy' & sz' & Dx' & Dy' & Dz' & E2); [done..|].
  rewrite E1, E2 in E. apply app_inv_head in E.
  destruct (denotes_comma _ _ Dx) as [Cx _], (denotes_comma _ _ Dx') as [Cx' _], (denotes_comma _ _ Dy) as [Cy _],
    (denotes_comma _ _ Dy') as [Cy' _].
  change (bstr ", ") with [x2c; x20] in E. cbn [app] in E. apply sep_eq in E as [<- E]; [|done..]. injection E as E.
  apply sep_eq in E as [<- E]; [|done..]. injection E as E. apply app_inv_tail in E as <-.
  destruct p, p'. simpl in *. f_equal; by eapply denotes_fun.
Qed.

(** ** Kinds of messages *)
Fixpoint starts (p t : bytes) : bool :=
  match p, t with
  | [], _ => true
  | a :: p, b :: t => Byte.eqb a b && starts p t
  | _ :: _, [] => false
  end.
(** Beginnings of messages, and for those that are not told apart by their beginnings, ends *)
Definition beginnings : list bytes := [
  bstr "Set param2 of "; bstr "Deleted metadata from "; bstr "Set metadata variable of "; bstr "Replaced ";
  bstr "Starting vacuum."; bstr "Completed vacuum."; bstr "Vacuum failed: "; bstr "Skipped ";
  bstr "Committing..."; bstr "Done."; bstr "This tool "; bstr "No area or ";
  bstr "Cannot invert "; bstr "Area corner is outside map bounds: ("; bstr "Offset cannot ";
  bstr "Invalid node name: "; bstr "Invalid object name: "; bstr "Invalid item name: "; bstr "node and ";
  bstr "An area "; bstr "Cannot use "; bstr "value is "; bstr "value cannot "; bstr "Metadata value ";
  bstr "new_item is "; bstr "Cannot delete "; bstr "item and "; bstr "Inverted selections "; bstr "Destination area ";
  bstr "Failed to open main "; bstr "Main world "; bstr "Failed to open input "; bstr "Input world "].
Definition ends : list bytes :=
  [bstr " nodes filled."; bstr " nodes replaced."; bstr " node timers."; bstr " objects."].
Fixpoint find_index {A} (f : A -> bool) (l : list A) (n : Z) : option Z :=
  match l with [] => None | x :: l => if f x then Some n else find_index f l (n + 1) end.
Definition code_of (t : bytes) : option Z :=
  match find_index (fun p => starts p t) beginnings 0 with
  | Some n => Some n
  | None => find_index (fun s => starts (rev s) (rev t)) ends 100
  end.
Definition code (m : msg) : Z :=
  match m with
  | MFilled _ => 100 | MReplaced _ => 101 | MTimers _ => 102 | MObjects _ => 103
  | MParam2 _ => 0 | MMeta _ => 1 | MVars _ => 2 | MStacks _ _ => 3
  | MVacStart => 4 | MVacDone => 5 | MVacFailed => 6 | MSkipped _ => 7 | MCommitting => 8 | MDone => 9
  | MDanger => 10 | MAllMeta => 11
  | MErr (EArg e) =>
    match e with
    | InvertNoArea => 12 | CornerOutside _ => 13 | OffsetTooLarge => 14
    | BadNodeName _ => 15 | BadObjectName _ => 16 | BadItemName _ => 17 | SameNode => 18
    | NeedAreaOrNode => 19 | ObjAndItems => 20 | ValueRequired => 21 | ValueForbidden => 22 | ValueEmpty => 23
    | NewItemRequired => 24 | NewItemForbidden => 25 | SameItem => 26 | InvertedOffset => 27 | DestOutside => 28
    end
  | MErr EOpenMain => 29 | MErr EBadMain => 30 | MErr EOpenInput => 31 | MErr EBadInput => 32
  | MErr ECommit => 200
  end.
Lemma digit_cases d : is_digit d = true ->
  d ∈ [x30; x31; x32; x33; x34; x35; x36; x37; x38; x39].
Proof. destruct d; intros H; try discriminate H; set_solver. Qed.

Ltac listed := first [apply elem_of_list_here|apply elem_of_list_further, elem_of_list_here].
Lemma text_code w m : worded m -> code_of (text w m) = Some (code m).
Proof.
  intros [Hn Hm].
  assert (forall n, n ∈ numbers m -> exists d r, fmt_big_num (w_tie w) n = d :: r /\
    d ∈ [x30; x31; x32; x33; x34; x35; x36; x37; x38; x39]) as Hnum.
  { intros n Hin. eapply Forall_forall in Hn; [|exact Hin]. destruct (num_shape (w_tie w) n Hn) as (d & r & ? & ?%digit_cases).
    eauto. }
  destruct m as [n|n|n|n|n|n|n|i n| | | |n| | | | |e]; cbn [text].
  all: try (destruct (Hnum n ltac:(listed)) as (d & r & -> & Hd);
    rewrite !elem_of_cons, elem_of_nil in Hd; unfold code_of; rewrite ?rev_app_distr).
  1, 2, 5, 6: repeat (destruct Hd as [->|Hd]; [vm_compute; reflexivity|]); done.
  all: try (lazymatch type of Hd with _ \/ _ => vm_compute end; reflexivity).
  8: { destruct e as [[]| | | | |]; [..|done]; vm_compute; reflexivity. }
  all: vm_compute; reflexivity.
Qed.

Lemma told_apart w m m' : worded m -> worded m' -> text w m = text w m' ->
  matter m = matter m' /\ Forall2 look_alike (numbers m) (numbers m').
Proof.
  intros Hm Hm' E. pose proof (text_code w m Hm) as C. rewrite E, (text_code w m' Hm') in C. injection C as C.
  destruct Hm as [Hn Hc], Hm' as [Hn' Hc'].
  assert (forall n n', n ∈ numbers m -> n' ∈ numbers m' -> fmt_big_num (w_tie w) n = fmt_big_num (w_tie w) n' ->
    look_alike n n') as Hnum.
  { intros n n' Hi Hi'. eapply Forall_forall in Hn; [|exact Hi]. eapply Forall_forall in Hn'; [|exact Hi'].
    by apply num_alike. }
  revert E Hn Hc Hn' Hc' Hnum C.
  destruct m as [n|n|n|n|n|n|n|i n| | | |n| | | | |e]; destruct m' as [n'|n'|n'|n'|n'|n'|n'|i' n'| | | |n'| | | | |e'];
    cbn [matter numbers text code]; intros E Hn Hc Hn' Hc' Hnum C;
    try discriminate C; try (exfalso; clear - C; destruct e as [[]| | | | |]; discriminate C);
    try (exfalso; clear - C; destruct e' as [[]| | | | |]; discriminate C); try (clear; by split; [|constructor]).
  all: try (split; [reflexivity|constructor; [|constructor]]; apply Hnum; [listed..|];
    repeat (apply app_inv_head in E); repeat (apply app_inv_tail in E); exact E).
  - (* two numbers *)
    split; [done|]. apply Forall_cons in Hn as [Hi [Hn _]%Forall_cons], Hn' as [Hi' [Hn' _]%Forall_cons].
    apply app_inv_head in E. change (bstr " itemstacks in ") with (x20 :: bstr "itemstacks in ") in E. cbn [app] in E.
    apply sep_eq in E as [E1 E2]; [|by apply num_blank..]. apply app_inv_head in E2. apply app_inv_tail in E2.
    constructor; [apply Hnum; [listed..|done]|]. constructor; [apply Hnum; [listed..|done]|done].
  - (* errors *)
    split; [|constructor]. f_equal. revert E Hc Hc' C. clear.
    destruct e as [e| | | | |], e' as [e'| | | | |]; intros E Hc Hc' C; try reflexivity; try discriminate C;
      try (exfalso; clear - C; destruct e; discriminate C); try (exfalso; clear - C; destruct e'; discriminate C).
    f_equal. cbn [error_text] in E. revert E Hc Hc' C.
    destruct e, e'; intros E Hc Hc' C; try discriminate C; try reflexivity; cbn [arg_error_text] in E;
      try (apply app_inv_head in E; by rewrite E).
    f_equal. destruct Hc as (? & ? & ?), Hc' as (? & ? & ?). by apply corner_fun.
Qed.

Lemma num_shown tie n : 0 <= n < 2 ^ 64 -> shown (fmt_big_num tie n) n.
Proof.
  intros Hn. destruct (fmt_big_num_ok tie n Hn) as [S L]. split; [done|]. intros H.
  destruct (L H) as (i & f & v & u & ? & ? & ? & _). by exists i, f, v, u.
Qed.
Lemma counts_shown w m : numbers m <> [] -> Forall (fun n => 0 <= n < 2 ^ 64) (numbers m) ->
  exists ts, Forall2 shown ts (numbers m) /\ text w m = weave (words m) ts.
Proof.
  intros Hne Hn. exists (fmt_big_num (w_tie w) <$> numbers m). split.
  - clear Hne. induction Hn; constructor; [by apply num_shown|done].
  - destruct m; try done; cbn [numbers fmap list_fmap words weave text]; by rewrite ?app_nil_r.
Qed.
