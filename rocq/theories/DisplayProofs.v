(** Displays and messages *)
From Verif Require Import SpecText CodecProofs FmtProofs RoundProofs TextProofs EtaProofs.
From Coq Require Import Lqa.

(** ** Length of numbers *)
Lemma show_fuel_len_mono f n m : 0 <= n <= m -> (length (show_fuel f n) <= length (show_fuel f m))%nat.
Proof.
  revert n m. induction f as [|f IH]; intros n m H; [done|]. simpl.
  destruct (Z.ltb_spec n 10), (Z.ltb_spec m 10); rewrite ?app_length; simpl; try lia.
  specialize (IH (n / 10) (m / 10)). assert (n / 10 <= m / 10) by (apply Z.div_le_mono; lia).
  assert (0 <= n / 10) by (apply Z.div_pos; lia). lia.
Qed.
Lemma show_len_mono n m : 0 <= n <= m -> (length (show n) <= length (show m))%nat.
Proof. apply show_fuel_len_mono. Qed.
Lemma show_len n : (length (show n) <= 20)%nat.
Proof.
  unfold show. generalize 20%nat. intros f. revert n. induction f as [|f IH]; intros n; [done|]. simpl.
  destruct (n <? 10); [simpl; lia|]. rewrite app_length. simpl. specialize (IH (n / 10)). lia.
Qed.
Lemma show_len_pos n : (1 <= length (show n))%nat.
Proof.
  unfold show. generalize 19%nat. intros f. rewrite show_S. generalize (show_fuel f (n / 10)). intros l.
  destruct (n <? 10); rewrite ?app_length; simpl; lia.
Qed.
Lemma show2_len n : 0 <= n < 60 -> length (show2 n) = 2%nat.
Proof. intros H. by destruct (show2_ok n H) as (_ & ? & _). Qed.
Lemma fmt_duration_len s : 0 <= s ->
  length (fmt_duration s) = if s <? 3600 then 5%nat else (6 + length (show (s / 3600)))%nat.
Proof.
  intros H. unfold fmt_duration. pose proof (Z.mod_pos_bound (s / 60) 60 ltac:(lia)). pose proof (Z.mod_pos_bound s 60 ltac:(lia)).
  destruct (s <? 3600); rewrite !app_length, !show2_len by lia; simpl; lia.
Qed.
Lemma fmt_duration_mono s s' : 0 <= s <= s' -> (length (fmt_duration s) <= length (fmt_duration s'))%nat.
Proof.
  intros H. rewrite !fmt_duration_len by lia.
  assert (s / 3600 <= s' / 3600) by (apply Z.div_le_mono; lia). assert (0 <= s / 3600) by (apply Z.div_pos; lia).
  pose proof (show_len_mono (s / 3600) (s' / 3600) ltac:(lia)).
  destruct (Z.ltb_spec s 3600), (Z.ltb_spec s' 3600); lia.
Qed.
Lemma show_dec1_mono n m : 0 <= n <= m -> (length (show_dec 1 n) <= length (show_dec 1 m))%nat.
Proof.
  intros H. unfold show_dec. rewrite !app_length. cbn [Nat.eqb]. rewrite !app_length, !pad_length.
  change (10 ^ Z.of_nat 1) with 10. assert (n / 10 <= m / 10) by (apply Z.div_le_mono; lia).
  assert (0 <= n / 10) by (apply Z.div_pos; lia). pose proof (show_len_mono (n / 10) (m / 10) ltac:(lia)). lia.
Qed.

(** ** The progress display *)
Definition tenths (tie : Z -> bool) (n N : Z) : Z := round_dec tie 1 (rnd (progress n N * 100)).
Definition line (tie : Z -> bool) (n N elapsed : Z) (r : option Z) : bytes :=
  bstr "[" ++ bar (num_bars (progress n N)) ++ bstr "] " ++ percent tie (progress n N) ++ bstr "% | " ++
  fmt_duration elapsed ++ bstr " elapsed | " ++
  match r with Some s => fmt_duration s | None => bstr "--:--" end ++ bstr " remaining".

Lemma eta_small s n N secs nanos : 0 <= n <= N -> 0 < N -> 0 <= secs < 2 ^ 60 -> 0 <= nanos < 10 ^ 9 ->
  shows_eta (Some s) (10 ^ 9 * secs + nanos) n N -> 0 <= s < 2 ^ 64.
Proof.
  intros Hn HN Hs Hm (H1 & H2 & H3). split; [done|]. unfold eta_ok in H3.
  change (10 ^ 9) with 1000000000 in *. change (2 ^ 60) with 1152921504606846976 in *. change (2 ^ 64) with 18446744073709551616.
  assert (0 < n) by lia. set (e := 1000000000 * secs + nanos) in *.
  assert (0 <= e < 1152921504606846976000000000) as He by lia. clearbody e.
  assert (100000 * (1000000000 * s * n - e * (N - n)) <= 100000 * 1000000000 * n + e * n) as H4 by lia.
  assert (e * (N - n) <= e * (10 * n)) as H5 by (apply Z.mul_le_mono_nonneg_l; lia).
  assert (n * (100000 * 1000000000 * s) <= n * (100000 * 1000000000 + 1000001 * e)) as H6 by lia.
  apply Z.mul_le_mono_pos_l in H6; lia.
Qed.

Lemma line_display tie n N elapsed r : 0 <= n <= N -> 0 < N < 2 ^ 64 -> 0 <= elapsed < 2 ^ 64 ->
  (forall s, r = Some s -> 0 <= s < 2 ^ 64) ->
  display (line tie n N elapsed r) (num_bars (progress n N)) (tenths tie n N) elapsed r.
Proof.
  intros Hn HN He Hr. pose proof (num_bars_ok n N Hn HN) as ((B0 & B1) & _).
  pose proof (percent_value tie n N Hn HN) as ((V0 & V1) & _). fold (tenths tie n N) in V0, V1.
  destruct (show_dec_shape 1 (tenths tie n N)) as (i & f & Hd & Hi & Hf & Es); [lia|].
  destruct f as [|c [|]]; [done| |done].
  exists i, c, (fmt_duration elapsed), (match r with Some s => fmt_duration s | None => bstr "--:--" end).
  split; [done|]. split; [done|]. split; [by apply fmt_duration_ok|].
  split; [destruct r; [apply fmt_duration_ok; by apply Hr|done]|].
  unfold line, percent. fold (tenths tie n N). rewrite Es. unfold bar. rewrite <- !app_assoc.
  by replace (25 - Z.to_nat (num_bars (progress n N)))%nat with (Z.to_nat (25 - num_bars (progress n N))) by lia.
Qed.

Lemma editing_status_eq tie n N elapsed secs nanos : 0 <= n <= N -> 0 < N < 2 ^ 64 ->
  0 <= secs -> 0 <= nanos < 10 ^ 9 ->
  exists r, editing_status tie n N elapsed secs nanos true = Ret (line tie n N elapsed r) /\
    shows_eta r (10 ^ 9 * secs + nanos) n N.
Proof.
  intros Hn HN Hs Hm. destruct (remaining_ok n N secs nanos Hn HN Hs Hm) as (r & E & H).
  exists r. split; [|done]. unfold editing_status. rewrite E. done.
Qed.

Lemma progress_shown tie n N elapsed secs nanos : 0 <= n <= N -> 0 < N < 2 ^ 64 ->
  0 <= elapsed < 2 ^ 60 -> 0 <= secs < 2 ^ 60 -> 0 <= nanos < 10 ^ 9 ->
  exists t bars v r, editing_status tie n N elapsed secs nanos true = Ret t /\
    display t bars v elapsed r /\ bars_ok bars n N /\ percent_ok v n N /\
    shows_eta r (10 ^ 9 * secs + nanos) n N.
Proof.
  intros Hn HN He Hs Hm. destruct (editing_status_eq tie n N elapsed secs nanos) as (r & E & Hr); [done|done|lia|done|].
  exists (line tie n N elapsed r), (num_bars (progress n N)), (tenths tie n N), r.
  split; [done|]. split; [apply line_display; [done|done|lia|]; intros s ->; eapply (eta_small s n N secs nanos); [done|lia|done|done|exact Hr]|].
  split; [by apply num_bars_ok|]. split; [by apply percent_value|done].
Qed.

(** Without blocks, nothing is done and no time is estimated. *)
Lemma nothing_shown tie n elapsed secs nanos : 0 <= elapsed < 2 ^ 64 ->
  exists t, editing_status tie n 0 elapsed secs nanos true = Ret t /\ display t 0 0 elapsed None.
Proof.
  intros He. eexists. split; [reflexivity|]. exists (bstr "0"), x30, (fmt_duration elapsed), (bstr "--:--").
  split; [apply (dec_more [x30] 0 x30 0); [by apply dec_one|done..]|]. split; [done|].
  split; [by apply fmt_duration_ok|]. split; [done|]. unfold percent, round_dec, progress. by destruct (tie 0).
Qed.
(** Without a progress bar *)
Lemma plain_shown tie n N elapsed secs nanos : 0 <= elapsed < 2 ^ 64 ->
  exists el, clock el elapsed /\
    editing_status tie n N elapsed secs nanos false = Ret (bstr "Processing... " ++ el ++ bstr " elapsed").
Proof. intros He. exists (fmt_duration elapsed). split; [by apply fmt_duration_ok|done]. Qed.

Lemma progress_mono n n' N : 0 <= n <= n' -> n' <= N -> 0 < N < 2 ^ 64 -> (progress n N <= progress n' N)%Q.
Proof.
  intros H H' HN. unfold progress. replace (N =? 0) with false by lia.
  pose proof (f32_of_ge1 N ltac:(lia)) as H1. pose proof (f32_of_mono n n' ltac:(lia)) as H2.
  pose proof (f32_of_range n ltac:(lia)) as H3. apply rnd_mono.
  - apply Qle_shift_div_l; lra.
  - unfold Qdiv. apply Qmult_le_compat_r; [done|]. apply Qinv_le_0_compat. lra.
Qed.
Lemma num_bars_mono n n' N : 0 <= n <= n' -> n' <= N -> 0 < N < 2 ^ 64 ->
  num_bars (progress n N) <= num_bars (progress n' N).
Proof.
  intros H H' HN. pose proof (progress_mono n n' N H H' HN). pose proof (p_range n N ltac:(lia) HN) as [? _].
  apply Qfloor_resp_le. apply rnd_mono; lra.
Qed.
Lemma tenths_mono tie n n' N : 0 <= n <= n' -> n' <= N -> 0 < N < 2 ^ 64 ->
  tenths tie n N <= tenths tie n' N.
Proof.
  intros H H' HN. pose proof (progress_mono n n' N H H' HN). pose proof (p_range n N ltac:(lia) HN) as [? _].
  apply round_dec_mono. apply rnd_mono; lra.
Qed.

Lemma never_back tie n n' N e s m e' s' m' : 0 <= n <= n' -> n' <= N -> 0 < N < 2 ^ 64 ->
  0 <= e < 2 ^ 60 -> 0 <= s < 2 ^ 60 -> 0 <= m < 10 ^ 9 ->
  0 <= e' < 2 ^ 60 -> 0 <= s' < 2 ^ 60 -> 0 <= m' < 10 ^ 9 ->
  exists t bars v r t' bars' v' r',
    editing_status tie n N e s m true = Ret t /\ display t bars v e r /\
    editing_status tie n' N e' s' m' true = Ret t' /\ display t' bars' v' e' r' /\
    bars <= bars' /\ v <= v'.
Proof.
  intros Hn Hn' HN He Hs Hm He' Hs' Hm'.
  destruct (editing_status_eq tie n N e s m) as (r & E & Hr); [lia|done|lia|done|].
  destruct (editing_status_eq tie n' N e' s' m') as (r' & E' & Hr'); [lia|done|lia|done|].
  exists (line tie n N e r), (num_bars (progress n N)), (tenths tie n N), r.
  exists (line tie n' N e' r'), (num_bars (progress n' N)), (tenths tie n' N), r'.
  split; [done|]. split; [apply line_display; [lia|done|lia|]; intros x ->; eapply (eta_small x n N s m); [lia|lia|done|done|assumption]|].
  split; [done|]. split; [apply line_display; [lia|done|lia|]; intros x ->; eapply (eta_small x n' N s' m'); [lia|lia|done|done|assumption]|].
  split; [by apply num_bars_mono|by apply tenths_mono].
Qed.

(** ** Overwriting *)
Lemma over_all old new : (length old <= length new)%nat -> over old new = new.
Proof. intros H. unfold over. rewrite drop_ge by done. apply app_nil_r. Qed.

Lemma line_len tie n N e r : 0 <= n <= N -> 0 < N < 2 ^ 64 ->
  length (line tie n N e r) = (53 + length (show_dec 1 (tenths tie n N)) + length (fmt_duration e) +
    length (match r with Some s => fmt_duration s | None => bstr "--:--" end))%nat.
Proof.
  intros Hn HN. pose proof (num_bars_ok n N Hn HN) as ((B0 & B1) & _).
  unfold line, bar, percent. fold (tenths tie n N). rewrite !app_length, !replicate_length. simpl. lia.
Qed.
Lemma rest_len (r : option Z) : (forall s, r = Some s -> 0 <= s) ->
  (5 <= length (match r with Some s => fmt_duration s | None => bstr "--:--" end))%nat.
Proof.
  intros H. destruct r as [s|]; [|simpl; lia]. rewrite fmt_duration_len by by apply H. pose proof (show_len_pos (s / 3600)). destruct (s <? 3600); lia.
Qed.

Lemma overwrites tie n n' N e s m e' s' m' t t' : 0 <= n <= n' -> n' <= N -> 0 < N < 2 ^ 64 ->
  0 <= e <= e' -> e' < 2 ^ 60 -> 0 <= s < 2 ^ 60 -> 0 <= m < 10 ^ 9 -> 0 <= s' < 2 ^ 60 -> 0 <= m' < 10 ^ 9 ->
  editing_status tie n N e s m true = Ret t -> editing_status tie n' N e' s' m' true = Ret t' ->
  over t t' = t' \/ exists bars v x, display t bars v e (Some x) /\ 3600 <= x.
Proof.
  intros Hn Hn' HN He He' Hs Hm Hs' Hm' E E'.
  destruct (editing_status_eq tie n N e s m) as (r & Eq & Hr); [lia|done|lia|done|].
  destruct (editing_status_eq tie n' N e' s' m') as (r' & Eq' & Hr'); [lia|done|lia|done|].
  rewrite Eq in E. rewrite Eq' in E'. inv E. inv E'. clear Eq Eq'.
  assert (forall x, r = Some x -> 0 <= x < 2 ^ 64) as R1.
  { intros x ->. eapply (eta_small x n N s m); [lia|lia|done|done|assumption]. }
  assert (forall x, r' = Some x -> 0 <= x) as R2 by (intros x ->; by destruct Hr' as (_ & ? & _)).
  assert ((exists x, r = Some x /\ 3600 <= x) \/ (length (match r with Some s => fmt_duration s | None => bstr "--:--" end) = 5)%nat) as [(x & -> & Hx)|H5].
  { destruct r as [x|]; [|by right]. destruct (Z.ltb_spec x 3600) as [Hlt|Hge]; [|left; exists x; split; [reflexivity|assumption]].
    right. specialize (R1 x eq_refl). rewrite fmt_duration_len by lia. replace (x <? 3600) with true by lia. reflexivity. }
  - right. exists (num_bars (progress n N)), (tenths tie n N), x. split; [|assumption].
    apply line_display; [lia|assumption|lia|assumption].
  - left. apply over_all. rewrite !line_len by lia. rewrite H5. pose proof (rest_len r' R2).
    pose proof (fmt_duration_mono e e' He).
    pose proof (percent_value tie n N ltac:(lia) HN) as ((V0 & V1) & _). fold (tenths tie n N) in V0.
    pose proof (show_dec1_mono (tenths tie n N) (tenths tie n' N)) as Hm1.
    pose proof (tenths_mono tie n n' N Hn Hn' HN). lia.
Qed.

Lemma query_overwritten tie total n N e s m t : 0 <= n <= N -> 0 < N < 2 ^ 64 ->
  0 <= e < 2 ^ 60 -> 0 <= s < 2 ^ 60 -> 0 <= m < 10 ^ 9 ->
  editing_status tie n N e s m true = Ret t -> over (querying_status total) t = t.
Proof.
  intros Hn HN He Hs Hm E. destruct (editing_status_eq tie n N e s m) as (r & Eq & Hr); [lia|done|lia|done|].
  rewrite Eq in E. inv E. clear Eq. apply over_all. rewrite line_len by lia. unfold querying_status.
  rewrite !app_length. pose proof (show_len total). simpl. lia.
Qed.
Lemma query_grows n n' : 0 <= n <= n' -> over (querying_status n) (querying_status n') = querying_status n'.
Proof.
  intros H. apply over_all. unfold querying_status. rewrite !app_length. pose proof (show_len_mono n n' H). lia.
Qed.
Lemma plain_grows tie n N s m n' N' s' m' e e' t t' : 0 <= e <= e' ->
  editing_status tie n N e s m false = Ret t -> editing_status tie n' N' e' s' m' false = Ret t' -> over t t' = t'.
Proof.
  intros H E E'. unfold editing_status in E, E'.
  assert (t = bstr "Processing... " ++ fmt_duration e ++ bstr " elapsed") as -> by congruence.
  assert (t' = bstr "Processing... " ++ fmt_duration e' ++ bstr " elapsed") as -> by congruence.
  apply over_all. rewrite !app_length.
  pose proof (fmt_duration_mono e e' H). lia.
Qed.

(** ** Messages *)
Lemma split_nl_ok s : exists l ls, split_nl s = l :: ls /\ Forall no_newline (l :: ls) /\ s = join_lines [x0a] (l :: ls).
Proof.
  induction s as [|c s (l & ls & E & Hf & Es)].
  { exists [], []. split; [done|]. split; [|done]. constructor; [unfold no_newline; set_solver|done]. }
  simpl. rewrite E. case_bool_decide as Hc.
  - subst c. exists [], (l :: ls). split; [done|]. split; [constructor; [unfold no_newline; set_solver|done]|].
    rewrite Es at 1. by destruct ls.
  - exists (c :: l), ls. split; [done|]. inversion Hf as [|? ? H1 H2]; subst. split.
    + constructor; [|done]. unfold no_newline in *. rewrite elem_of_cons. intros [?|?]; [congruence|done].
    + destruct ls; [done|]. done.
Qed.
Lemma strip_cr_cases l : (last l <> Some x0d /\ strip_cr l = l) \/ (exists k, l = k ++ [x0d] /\ strip_cr l = k).
Proof.
  destruct l as [|c k _] using rev_ind; [by left|]. unfold strip_cr. rewrite last_snoc. case_bool_decide as Hc.
  - right. exists k. subst. split; [done|]. rewrite app_length. simpl.
    replace (length k + 1 - 1)%nat with (length k) by lia. apply take_app.
  - left. split; [congruence|done].
Qed.
Lemma no_newline_app k l : no_newline (k ++ l) -> no_newline k.
Proof. unfold no_newline. set_solver. Qed.
Lemma tidy_lines_ok cr ls : Forall no_newline ls -> ls <> [] ->
  lines_of cr (join_lines [x0a] ls) (tidy_lines cr ls) /\ Forall no_newline (tidy_lines cr ls).
Proof.
  induction ls as [|l ls IH]; intros Hf Hne; [done|]. inversion Hf as [|? ? H1 H2]; subst.
  destruct ls as [|l' ls].
  - simpl. destruct l as [|c l]; [split; constructor|]. destruct cr.
    + destruct (strip_cr_cases (c :: l)) as [[Hl ->]|(k & E & ->)].
      * split; [constructor; done|by constructor].
      * rewrite E in *. apply no_newline_app in H1. split; [by constructor|by constructor].
    + split; [by constructor|by constructor].
  - destruct IH as [IH1 IH2]; [done|done|]. change (join_lines [x0a] (l :: l' :: ls)) with (l ++ [x0a] ++ join_lines [x0a] (l' :: ls)).
    change (tidy_lines cr (l :: l' :: ls)) with (strip_cr l :: tidy_lines cr (l' :: ls)).
    destruct (strip_cr_cases l) as [[Hl ->]|(k & -> & ->)].
    + split; [by apply L_lf|by constructor].
    + apply no_newline_app in H1. split; [|by constructor]. rewrite <- app_assoc.
      change ([x0d] ++ [x0a] ++ join_lines [x0a] (l' :: ls)) with ([x0d; x0a] ++ join_lines [x0a] (l' :: ls)). by apply L_crlf.
Qed.
Lemma join_laid sep l ls : join_lines sep (l :: ls) = l ++ concat ((fun x => sep ++ x) <$> ls).
Proof.
  revert l. induction ls as [|l' ls IH]; intros l; [simpl; by rewrite app_nil_r|].
  change (join_lines sep (l :: l' :: ls)) with (l ++ sep ++ join_lines sep (l' :: ls)). rewrite IH. simpl. by rewrite <- !app_assoc.
Qed.
Lemma concat_shift (pre : bytes) (ls : list bytes) : concat ((fun x => ([x0a] ++ pre) ++ x) <$> ls) ++ [x0a] =
  [x0a] ++ concat ((fun x => pre ++ x ++ [x0a]) <$> ls).
Proof.
  induction ls as [|l ls IH]; [done|]. rewrite !fmap_cons. simpl concat. simpl.
  rewrite <- !app_assoc. f_equal. f_equal. f_equal. etrans; [exact IH|]. done.
Qed.
Lemma print_log_ok cr lt s : exists ls, lines_of cr s ls /\ Forall no_newline ls /\ print_log cr lt s = laid_out lt ls.
Proof.
  destruct (split_nl_ok s) as (l & ls & E & Hf & ->). destruct (tidy_lines_ok cr (l :: ls) Hf) as [H1 H2]; [done|].
  exists (tidy_lines cr (l :: ls)). split; [done|]. split; [done|].
  unfold print_log, str_lines. rewrite E. generalize (tidy_lines cr (l :: ls)). clear. intros ls.
  assert (log_name lt ++ bstr ": " = tag lt) as -> by by destruct lt.
  assert (replicate (length (tag lt)) x20 = blanks lt) as -> by by destruct lt.
  destruct ls as [|l ls]; [done|]. rewrite join_laid. unfold laid_out. rewrite <- app_assoc, concat_shift. done.
Qed.

Lemma leftover : exists d d' total e s m e' s' m' t t', 0 <= d <= d' /\ d' <= total /\ 0 < total < 2 ^ 64 /\
  0 <= e <= e' /\ e' < 2 ^ 60 /\ 0 <= s < 2 ^ 60 /\ 0 <= m < 10 ^ 9 /\ 0 <= s' < 2 ^ 60 /\ 0 <= m' < 10 ^ 9 /\
  forall tie, editing_status tie d total e s m true = Ret t /\ editing_status tie d' total e' s' m' true = Ret t' /\
  over t t' = t' ++ bstr "ng".
Proof.
  exists 200, 300, 1000, 1001, 1000, 0, 1301, 1300, 0.
  exists (bstr "[=====                    ] 20.0% | 16:41 elapsed | 1:06:40 remaining").
  exists (bstr "[=======                  ] 30.0% | 21:41 elapsed | 50:33 remaining").
  do 9 (split; [lia|]). intros tie. split; [by vm_compute|]. split; [by vm_compute|]. by vm_compute.
Qed.
