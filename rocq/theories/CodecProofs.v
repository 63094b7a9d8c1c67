(** Lemmas about Codec.v *)
From Verif Require Import Codec SpecBlock.

Ltac inv H := inversion H; clear H; subst.

(** *** Results *)

Lemma bindR_Ok {A B} (m : res A) (f : A -> res B) y :
  bindR m f = Ok y -> exists x, m = Ok x /\ f x = Ok y.
Proof. destruct m; [eauto|done]. Qed.
Lemma bindO_Ret {A B} (m : out A) (f : A -> out B) y :
  bindO m f = Ret y -> exists x, m = Ret x /\ f x = Ret y.
Proof. destruct m; [eauto|done]. Qed.

(** *** Bytes *)

Lemma b2z_range b : 0 <= b2z b < 256.
Proof. unfold b2z. pose proof (Byte.to_N_bounded b). lia. Qed.

Lemma z2b_b2z b : z2b (b2z b) = b.
Proof.
  unfold z2b. pose proof (b2z_range b). rewrite Z.mod_small by lia.
  unfold b2z. rewrite N2Z.id, Byte.of_to_N. done.
Qed.

Lemma b2z_z2b z : b2z (z2b z) = z mod 256.
Proof.
  unfold z2b, b2z. destruct (Byte.of_N (Z.to_N (z mod 256))) eqn:E.
  - apply Byte.to_of_N in E. rewrite E. lia.
  - apply Byte.of_N_None_iff in E. lia.
Qed.

Lemma b2z_inj a b : b2z a = b2z b -> a = b.
Proof. intros E. rewrite <-(z2b_b2z a), <-(z2b_b2z b), E. done. Qed.

Lemma be16_length z : length (be16 z) = 2%nat.
Proof. done. Qed.
Lemma be32_length z : length (be32 z) = 4%nat.
Proof. done. Qed.

(** *** Parser properties *)

(** [p] reads [d] as [x], leaving what follows. *)
Definition decodes {A} (p : parser A) (d : bytes) (x : A) : Prop :=
  forall r, p (d ++ r) = Ok (x, r).

Lemma decodes_bind {A B} (p : parser A) (f : A -> parser B) d1 d2 x y :
  decodes p d1 x -> decodes (f x) d2 y ->
  decodes (fun s => try (a, s1) := p s in f a s1) (d1 ++ d2) y.
Proof. intros H1 H2 r. rewrite <-app_assoc, H1. simpl. apply H2. Qed.

Lemma decodes_ret {A} (x : A) : decodes (fun s => Ok (x, s)) [] x.
Proof. intros r. done. Qed.

Lemma decodes_app {A} (p : parser A) d x r : decodes p d x -> p (d ++ r) = Ok (x, r).
Proof. intros H. apply H. Qed.
Lemma decodes_nil {A} (p : parser A) d x : decodes p d x -> p d = Ok (x, []).
Proof. intros H. rewrite <-(app_nil_r d) at 1. apply H. Qed.

(** Every result of [p] satisfies [P]. *)
Definition yields {A} (p : parser A) (P : A -> Prop) : Prop :=
  forall s x r, p s = Ok (x, r) -> P x.

(** A success consumes a prefix; exactly that prefix is needed, whatever
    follows; any proper prefix of it is rejected as bad data. *)
Definition exact {A} (p : parser A) : Prop :=
  forall s x r, p s = Ok (x, r) ->
    exists c, s = c ++ r /\ (forall r', p (c ++ r') = Ok (x, r')) /\
      forall c' t, c = c' ++ t -> t <> [] -> p c' = Err BadData.

Definition consuming {A} (p : parser A) : Prop :=
  forall s x r, p s = Ok (x, r) -> (length r < length s)%nat.

Lemma exact_bind {A B} (p : parser A) (f : A -> parser B) :
  exact p -> (forall a, exact (f a)) ->
  exact (fun s => try (a, s1) := p s in f a s1).
Proof.
  intros Hp Hf s x r H. apply bindR_Ok in H as ([a s1] & H1 & H2).
  apply Hp in H1 as (c1 & -> & Hc1 & Hs1).
  apply Hf in H2 as (c2 & -> & Hc2 & Hs2).
  exists (c1 ++ c2). split; [by rewrite app_assoc|]. split.
  - intros r'. rewrite <-app_assoc, Hc1. simpl. apply Hc2.
  - intros c' t E Ht.
    apply app_eq_app in E as [l [[-> E]|[-> E]]].
    + destruct (decide (l = [])) as [->|Hl].
      * rewrite app_nil_r in *. simpl in E. subst c2.
        specialize (Hc1 []). rewrite app_nil_r in Hc1. rewrite Hc1. simpl.
        apply (Hs2 [] t); done.
      * rewrite (Hs1 c' l) by done. done.
    + rewrite Hc1. simpl. by apply (Hs2 l t).
Qed.

Lemma exact_ret {A} (x : A) : exact (fun s => Ok (x, s)).
Proof.
  intros s y r H. inv H. exists []. split; [done|]. split; [done|].
  intros c' t E Ht. symmetry in E. apply app_eq_nil in E as [_ ?]. done.
Qed.
Lemma exact_err {A} e : exact (fun s => Err e : res (A * bytes)).
Proof. intros s y r H. done. Qed.
Lemma exact_if {A} (b : bool) (p q : parser A) :
  exact p -> exact q -> exact (fun s => if b then p s else q s).
Proof. destruct b; done. Qed.
Lemma exact_ext {A} (p q : parser A) : (forall s, p s = q s) -> exact p -> exact q.
Proof.
  intros E Hp s x r H. rewrite <-E in H. apply Hp in H as (c & -> & H1 & H2).
  exists c. split; [done|]. split.
  - intros. by rewrite <-E.
  - intros. rewrite <-E. by eapply H2.
Qed.

Lemma exact_suffix {A} (p : parser A) s x r : exact p -> p s = Ok (x, r) ->
  (length r <= length s)%nat.
Proof. intros Hp H. apply Hp in H as (c & -> & _). rewrite app_length. lia. Qed.

Lemma exact_rd_n n : exact (rd_n n).
Proof.
  intros s x r. unfold rd_n. case_decide as Hn; [|done]. intros E. inv E.
  exists (take n s). split; [by rewrite take_drop|]. split.
  - intros r'. assert (length (take n s) = n) as Hl by (rewrite take_length; lia).
    rewrite app_length, decide_True by lia.
    rewrite take_app_alt, drop_app_alt by done. done.
  - intros c' t E Ht. rewrite decide_False; [done|]. intros Hc.
    assert (length (take n s) = length (c' ++ t)) as Hl by by rewrite E.
    rewrite take_length, app_length in Hl. destruct t; [done|]. simpl in Hl. lia.
Qed.

Lemma exact_rd_byte : exact rd_byte.
Proof.
  intros s x r. unfold rd_byte. destruct s as [|a t]; [done|]. intros E. inv E.
  exists [x]. split; [done|]. split; [done|].
  intros [|? c'] t E Ht; [done|]. destruct c'; simpl in E; inv E; done.
Qed.
Lemma exact_rd_u16 : exact rd_u16.
Proof.
  intros s x r. unfold rd_u16. destruct s as [|a [|b t]]; [done..|]. intros E. inv E.
  exists [a; b]. split; [done|]. split; [done|].
  intros c' t' E Ht. destruct c' as [|? [|? c']]; [done..|].
  simpl in E. inv E. destruct c'; simpl in *; [subst; done|done].
Qed.
Lemma exact_rd_u32 : exact rd_u32.
Proof.
  intros s x r. unfold rd_u32. destruct s as [|a [|b [|c [|d t]]]]; [done..|].
  intros E. inv E.
  exists [a; b; c; d]. split; [done|]. split; [done|].
  intros c' t' E Ht. destruct c' as [|? [|? [|? [|? c']]]]; [done..|].
  simpl in E. inv E. destruct c'; simpl in *; [subst; done|done].
Qed.
Lemma exact_rd_i32 : exact rd_i32.
Proof. apply (exact_bind rd_u32 (fun z s => Ok (w32 z, s))); [apply exact_rd_u32|]. intros. apply exact_ret. Qed.

Lemma try_read_n_eq n s : 0 <= n -> try_read_n n s = rd_n (Z.to_nat n) s.
Proof.
  intros Hn. unfold try_read_n, rd_n. destruct (Z.ltb_spec (Z.of_nat (length s)) n).
  - rewrite decide_False by lia. done.
  - done.
Qed.

Lemma exact_try_read_n n : exact (try_read_n n).
Proof.
  destruct (decide (0 <= n)).
  - eapply exact_ext; [|apply (exact_rd_n (Z.to_nat n))]. intros. symmetry. by apply try_read_n_eq.
  - eapply exact_ext; [|apply (exact_rd_n 0)]. intros s. unfold try_read_n.
    destruct (Z.ltb_spec (Z.of_nat (length s)) n); [lia|].
    replace (Z.to_nat n) with O by lia. done.
Qed.

Lemma exact_read_string16 : exact read_string16.
Proof. apply (exact_bind rd_u16 try_read_n); [apply exact_rd_u16|apply exact_try_read_n]. Qed.
Lemma exact_read_string32 : exact read_string32.
Proof. apply (exact_bind rd_u32 try_read_n); [apply exact_rd_u32|apply exact_try_read_n]. Qed.

(** *** Repetition *)

Lemma rep_fuel_irrel {A} (p : parser A) : consuming p ->
  forall f f' n s, (length s < f)%nat -> (length s < f')%nat ->
  rep_fuel p f n s = rep_fuel p f' n s.
Proof.
  intros Hp f. induction f as [|f IH]; intros f' n s H1 H2; [lia|].
  destruct f' as [|f']; [lia|]. simpl.
  destruct (n <=? 0); [done|].
  destruct (p s) as [[a s1]|] eqn:E; [|done]. simpl.
  apply Hp in E. rewrite (IH f' (n - 1) s1) by lia. done.
Qed.

Lemma rep_unfold {A} (p : parser A) n s : consuming p ->
  rep p n s = if n <=? 0 then Ok ([], s)
              else try (a, s1) := p s in try (l, s2) := rep p (n - 1) s1 in Ok (a :: l, s2).
Proof.
  intros Hp. unfold rep at 1. cbn [rep_fuel]. destruct (n <=? 0); [done|].
  destruct (p s) as [[a s1]|] eqn:E; [|done]. simpl.
  apply Hp in E. unfold rep.
  rewrite (rep_fuel_irrel p Hp (length s) (S (length s1))) by lia. done.
Qed.

(** Fuel is never the reason for a failure. *)
Lemma rep_fuel_enough {A} (p : parser A) n s f : consuming p -> (length s < f)%nat ->
  rep_fuel p f n s = rep p n s.
Proof. intros. unfold rep. apply rep_fuel_irrel; [done|lia|lia]. Qed.

Lemma exact_rep {A} (p : parser A) n : consuming p -> exact p -> exact (rep p n).
Proof.
  intros Hc Hp. remember (Z.to_nat n) as k eqn:Hk. revert n Hk.
  induction k as [|k IH]; intros n Hk.
  - eapply exact_ext; [|apply (exact_ret (@nil A))]. intros s. rewrite rep_unfold by done.
    destruct (Z.leb_spec n 0); [done|lia].
  - apply (exact_ext (fun s => try (a, s1) := p s in
      try (l, s2) := rep p (n - 1) s1 in Ok (a :: l, s2))).
    + intros s. rewrite (rep_unfold p n s) by done.
      replace (n <=? 0) with false by lia. reflexivity.
    + apply (exact_bind p (fun a s1 => try (l, s2) := rep p (n - 1) s1 in Ok (a :: l, s2)));
        [done|].
      intros a. apply (exact_bind (rep p (n - 1)) (fun l s2 => Ok (a :: l, s2))).
      * apply IH. lia.
      * intros. apply exact_ret.
Qed.

Lemma rep_length {A} (p : parser A) n s l r : consuming p ->
  rep p n s = Ok (l, r) -> Z.of_nat (length l) = Z.max 0 n.
Proof.
  intros Hc. remember (Z.to_nat n) as k eqn:Hk. revert n s l r Hk.
  induction k as [|k IH]; intros n s l r Hk; rewrite rep_unfold by done.
  - replace (n <=? 0) with true by lia. intros E. inv E. simpl. lia.
  - replace (n <=? 0) with false by lia. intros E.
    apply bindR_Ok in E as ([a s1] & E1 & E).
    apply bindR_Ok in E as ([l' s2] & E2 & E). inv E.
    apply IH in E2; [|lia]. simpl. lia.
Qed.

Lemma rep_Forall {A} (p : parser A) (P : A -> Prop) n s l r : consuming p ->
  yields p P -> rep p n s = Ok (l, r) -> Forall P l.
Proof.
  intros Hc HP. remember (Z.to_nat n) as k eqn:Hk. revert n s l r Hk.
  induction k as [|k IH]; intros n s l r Hk; rewrite rep_unfold by done.
  - replace (n <=? 0) with true by lia. intros E. inv E. constructor.
  - replace (n <=? 0) with false by lia. intros E.
    apply bindR_Ok in E as ([a s1] & E1 & E).
    apply bindR_Ok in E as ([l' s2] & E2 & E). inv E.
    constructor; [by eapply HP|]. eapply (IH (n - 1)); [lia|done].
Qed.

Lemma decodes_rep {A} (p : parser A) (l : list A) (e : A -> bytes) : consuming p ->
  Forall (fun x => decodes p (e x) x) l ->
  decodes (rep p (Z.of_nat (length l))) (concat (e <$> l)) l.
Proof.
  intros Hc Hl r. revert r. induction Hl as [|x l Hx Hl IH]; intros r.
  - rewrite rep_unfold by done. done.
  - rewrite rep_unfold by done. simpl length.
    replace (Z.of_nat (S (length l)) <=? 0) with false by lia.
    csimpl. rewrite <-app_assoc, Hx. simpl.
    replace (Z.of_nat (S (length l)) - 1) with (Z.of_nat (length l)) by lia.
    rewrite IH. done.
Qed.

(** *** Consumption *)

Lemma consuming_bind {A B} (p : parser A) (f : A -> parser B) :
  consuming p -> (forall a, exact (f a)) ->
  consuming (fun s => try (a, s1) := p s in f a s1).
Proof.
  intros Hp Hf s x r H. apply bindR_Ok in H as ([a s1] & H1 & H2).
  apply Hp in H1. apply exact_suffix in H2; [|done]. lia.
Qed.
Lemma consuming_rd_byte : consuming rd_byte.
Proof. intros [|a s] x r H; inv H. simpl. lia. Qed.
Lemma consuming_rd_u16 : consuming rd_u16.
Proof. intros [|a [|b s]] x r H; inv H. simpl. lia. Qed.
Lemma consuming_rd_u32 : consuming rd_u32.
Proof. intros [|a [|b [|c [|d s]]]] x r H; inv H. simpl. lia. Qed.
Lemma consuming_read_string16 : consuming read_string16.
Proof.
  apply (consuming_bind rd_u16 try_read_n); [apply consuming_rd_u16|].
  intros. apply exact_try_read_n.
Qed.

Ltac exact_step :=
  lazymatch goal with
  | |- exact (fun s => bindR (?p s) _) => eapply (exact_bind p); [|intros]
  | |- exact (fun s => Ok (_, s)) => apply exact_ret
  | |- exact (fun s => Err _) => apply exact_err
  | |- exact (fun s => if ?b then _ else _) => apply exact_if
  end.

Lemma exact_nimap_entry : exact rd_nimap_entry.
Proof.
  unfold rd_nimap_entry. exact_step; [apply exact_rd_u16|].
  exact_step; [apply exact_read_string16|]. apply exact_ret.
Qed.
Lemma consuming_nimap_entry : consuming rd_nimap_entry.
Proof.
  unfold rd_nimap_entry. apply (consuming_bind rd_u16); [apply consuming_rd_u16|].
  intros. exact_step; [apply exact_read_string16|]. apply exact_ret.
Qed.
Lemma exact_nimap : exact rd_nimap.
Proof.
  unfold rd_nimap. exact_step; [apply exact_rd_byte|]. exact_step; [apply exact_err|].
  exact_step; [apply exact_rd_u16|].
  exact_step; [apply exact_rep; [apply consuming_nimap_entry|apply exact_nimap_entry]|].
  apply exact_ret.
Qed.

Lemma exact_node_data : exact rd_node_data.
Proof.
  unfold rd_node_data. exact_step; [apply exact_rd_n|]. exact_step; [apply exact_rd_n|].
  exact_step; [apply exact_rd_n|]. apply exact_ret.
Qed.

Lemma exact_var v : exact (rd_var v).
Proof.
  unfold rd_var. exact_step; [apply exact_read_string16|].
  exact_step; [apply exact_read_string32|]. exact_step.
  - exact_step; [apply exact_rd_byte|]. apply exact_ret.
  - apply exact_ret.
Qed.
Lemma consuming_var v : consuming (rd_var v).
Proof.
  unfold rd_var. apply (consuming_bind read_string16); [apply consuming_read_string16|].
  intros. exact_step; [apply exact_read_string32|]. exact_step.
  - exact_step; [apply exact_rd_byte|]. apply exact_ret.
  - apply exact_ret.
Qed.

(** *** Substring search *)

Lemma find_sub_unfold pat s : find_sub pat s =
  if decide (take (length pat) s = pat) then Some O
  else match s with [] => None | _ :: t => S <$> find_sub pat t end.
Proof. by destruct s. Qed.

Lemma prefix_take (pat s : bytes) : take (length pat) s = pat <-> exists r, s = pat ++ r.
Proof.
  split.
  - intros E. exists (drop (length pat) s). rewrite <-E at 1. by rewrite take_drop.
  - intros [r ->]. by rewrite take_app.
Qed.

(** First occurrence: at [i], and not before. *)
Lemma find_sub_Some pat s i : find_sub pat s = Some i <->
  (exists l r, s = l ++ pat ++ r /\ length l = i) /\
  forall l r, s = l ++ pat ++ r -> (i <= length l)%nat.
Proof.
  revert i. induction s as [|a s IH]; intros i; rewrite find_sub_unfold.
  - case_decide as E.
    + apply prefix_take in E as [r E]. symmetry in E. apply app_eq_nil in E as [-> ->].
      split.
      * intros H; inv H. split; [by exists [], []|]. intros; lia.
      * intros ((l & r & E & <-) & _). symmetry in E. apply app_eq_nil in E as [-> _]. done.
    + split; [done|]. intros ((l & r & E' & <-) & _). symmetry in E'.
      apply app_eq_nil in E' as [-> E']. apply app_eq_nil in E' as [-> ->]. done.
  - case_decide as E.
    + apply prefix_take in E as [r E]. split.
      * intros H; inv H. split; [by exists [], r|]. intros; lia.
      * intros (_ & H2). specialize (H2 [] r E). simpl in H2. f_equal. lia.
    + destruct (find_sub pat s) as [j|] eqn:Ej; simpl.
      * pose proof (proj1 (IH j) eq_refl) as ((l & r & El & Hl) & Hmin). split.
        -- intros H; inv H. split.
           ++ exists (a :: l), r. simpl. by split; [f_equal|].
           ++ intros [|b l'] r' E'.
              ** exfalso. apply E. apply prefix_take. by exists r'.
              ** simpl in *. inv E'. pose proof (Hmin l' r' ltac:(congruence)). lia.
        -- intros ((l' & r' & E' & <-) & Hm'). f_equal.
           destruct l' as [|b l'].
           { exfalso. apply E. apply prefix_take. by exists r'. }
           simpl in E'. injection E' as Eab E'.
           pose proof (Hmin l' r' E') as H1.
           pose proof (Hm' (a :: l) r ltac:(simpl; congruence)) as H2.
           simpl in *. lia.
      * split; [done|]. intros ((l' & r' & E' & <-) & Hm').
        destruct l' as [|b l'].
        { exfalso. apply E. apply prefix_take. by exists r'. }
        simpl in E'. injection E' as Eab E'. exfalso.
        destruct (IH (length l')) as [_ IH2].
        enough (None = Some (length l')) by done. apply IH2.
        split; [by eauto|]. intros l r E''.
        pose proof (Hm' (a :: l) r ltac:(simpl; congruence)) as H2. simpl in H2. lia.
Qed.

Lemma find_sub_None pat s : find_sub pat s = None <-> ~ occurs pat s.
Proof.
  unfold occurs. split.
  - intros H (l & r & ->). revert H. induction l as [|a l IH]; rewrite find_sub_unfold; simpl.
    + case_decide as E; [done|]. exfalso. apply E. by rewrite take_app.
    + case_decide; [done|]. destruct (find_sub pat (l ++ pat ++ r)); [done|]. auto.
  - intros H. destruct (find_sub pat s) as [i|] eqn:E; [|done].
    apply find_sub_Some in E as ((l & r & -> & _) & _). exfalso. apply H. by exists l, r.
Qed.

Lemma terminated_find s : terminated s <->
  exists i, find_sub END_STR s = Some i /\ length s = (i + length END_STR)%nat.
Proof.
  split.
  - intros ([b ->] & H). exists (length b). split; [|by rewrite app_length].
    apply find_sub_Some. split.
    + exists b, []. by rewrite app_nil_r.
    + intros l r E. assert (r = []) as -> by by eapply H.
      apply (f_equal length) in E. rewrite !app_length in E. simpl in E. lia.
  - intros (i & Hf & Hl). apply find_sub_Some in Hf as ((l & r & -> & <-) & Hmin).
    rewrite !app_length in Hl. assert (length r = O) as Hr by lia.
    destruct r; [|done]. rewrite app_nil_r in *. split; [by exists l|].
    intros l' r' E. pose proof (Hmin l' r' E) as Hge.
    apply (f_equal length) in E. rewrite !app_length in E.
    destruct r'; [done|simpl in E; lia].
Qed.

Lemma find_sub_app_r pat s r i : find_sub pat s = Some i -> find_sub pat (s ++ r) = Some i.
Proof.
  revert i. induction s as [|a s IH]; intros i.
  - rewrite !find_sub_unfold. case_decide as E; [|done]. apply prefix_take in E as [r' E]. symmetry in E.
    apply app_eq_nil in E as [-> _]. intros H; inv H. by rewrite decide_True.
  - rewrite (find_sub_unfold pat (a :: s)), (find_sub_unfold pat ((a :: s) ++ r)).
    case_decide as E.
    + intros H; inv H. rewrite decide_True; [done|].
      apply prefix_take in E as [r' ->]. by rewrite <-app_assoc, take_app.
    + destruct (find_sub pat s) as [j|] eqn:Ej; intros H; simpl in H; inv H.
      pose proof (IH j eq_refl) as IHj.
      rewrite decide_False.
      * simpl. rewrite IHj. done.
      * intros E'. apply E.
        (* the occurrence at j shows that s is long enough *)
        apply find_sub_Some in Ej as ((l & q & -> & <-) & _).
        etrans; [|exact E']. rewrite take_app_le; [done|].
        simpl. rewrite !app_length. lia.
Qed.

(** The text up to and including the first terminator *)
Definition rd_inv : parser bytes := fun s =>
  match find_sub END_STR s with
  | None => Err BadData
  | Some i => rd_n (i + length END_STR) s
  end.

Lemma rd_inv_Ok s x r : rd_inv s = Ok (x, r) -> s = x ++ r /\ terminated x.
Proof.
  unfold rd_inv. destruct (find_sub END_STR s) as [i|] eqn:E; [|done].
  unfold rd_n. case_decide as Hl; [|done]. intros H; injection H as <- <-.
  split; [by rewrite take_drop|]. apply terminated_find. exists i.
  split; [|rewrite take_length; change (length END_STR) with 13%nat in *; lia].
  change 13%nat with (length END_STR).
  pose proof E as E'. apply find_sub_Some in E' as ((l & q & -> & <-) & Hmin).
  replace (take (length l + length END_STR) (l ++ END_STR ++ q)) with (l ++ END_STR).
  2:{ rewrite app_assoc, take_app_alt; [done|]. rewrite app_length. done. }
  apply find_sub_Some. split.
  - exists l, []. by rewrite app_nil_r.
  - intros l' r' E'. apply (Hmin l' (r' ++ q)).
    rewrite app_assoc, E'. rewrite <-!app_assoc. done.
Qed.

Lemma decodes_rd_inv d : terminated d -> decodes rd_inv d d.
Proof.
  intros Hd r. unfold rd_inv. apply terminated_find in Hd as (i & Hf & Hl).
  rewrite (find_sub_app_r _ _ r _ Hf). unfold rd_n.
  rewrite <-Hl, app_length, decide_True by lia. by rewrite take_app, drop_app.
Qed.

Lemma exact_rd_inv : exact rd_inv.
Proof.
  intros s x r H. apply rd_inv_Ok in H as [-> Ht]. exists x. split; [done|].
  split; [by apply decodes_rd_inv|].
  intros c' t -> Hne. unfold rd_inv.
  destruct (find_sub END_STR c') as [i|] eqn:E; [|done].
  exfalso. apply find_sub_Some in E as ((l & q & -> & <-) & _).
  destruct Ht as [_ Ht]. specialize (Ht l (q ++ t)).
  rewrite <-!app_assoc in Ht. specialize (Ht eq_refl).
  apply app_eq_nil in Ht as [_ ?]. done.
Qed.

Lemma rd_meta_eq v s : rd_meta v s =
  try (n, s1) := rd_u32 s in
  try (l, s2) := rep (rd_var v) n s1 in
  try (iv, s3) := rd_inv s2 in
  Ok (NM (insert_all l) iv, s3).
Proof.
  unfold rd_meta, rd_inv. destruct (rd_u32 s) as [[n s1]|]; [|done]. simpl.
  destruct (rep (rd_var v) n s1) as [[l s2]|]; [|done]. simpl.
  destruct (find_sub END_STR s2); done.
Qed.

Lemma exact_meta v : exact (rd_meta v).
Proof.
  eapply exact_ext; [intros s; symmetry; apply rd_meta_eq|].
  exact_step; [apply exact_rd_u32|].
  exact_step; [apply exact_rep; [apply consuming_var|apply exact_var]|].
  exact_step; [apply exact_rd_inv|]. apply exact_ret.
Qed.
Lemma exact_meta_entry v : exact (rd_meta_entry v).
Proof.
  unfold rd_meta_entry. exact_step; [apply exact_rd_u16|].
  exact_step; [apply exact_meta|]. apply exact_ret.
Qed.
Lemma consuming_meta_entry v : consuming (rd_meta_entry v).
Proof.
  unfold rd_meta_entry. apply (consuming_bind rd_u16); [apply consuming_rd_u16|].
  intros. exact_step; [apply exact_meta|]. apply exact_ret.
Qed.
Lemma exact_metadata : exact rd_metadata.
Proof.
  unfold rd_metadata. exact_step; [apply exact_rd_byte|].
  cbv zeta. exact_step; [apply exact_err|]. exact_step; [apply exact_ret|].
  exact_step; [apply exact_rd_u16|].
  exact_step; [apply exact_rep; [apply consuming_meta_entry|apply exact_meta_entry]|].
  apply exact_ret.
Qed.

Lemma exact_object : exact rd_object.
Proof.
  unfold rd_object. exact_step; [apply exact_rd_byte|].
  exact_step; [apply exact_rd_i32|]. exact_step; [apply exact_rd_i32|].
  exact_step; [apply exact_rd_i32|]. exact_step; [apply exact_read_string16|].
  apply exact_ret.
Qed.
Lemma consuming_object : consuming rd_object.
Proof.
  unfold rd_object. apply (consuming_bind rd_byte); [apply consuming_rd_byte|]. intros.
  exact_step; [apply exact_rd_i32|]. exact_step; [apply exact_rd_i32|].
  exact_step; [apply exact_rd_i32|]. exact_step; [apply exact_read_string16|].
  apply exact_ret.
Qed.
Lemma exact_objects : exact rd_objects.
Proof.
  unfold rd_objects. exact_step; [apply exact_rd_byte|]. exact_step; [apply exact_err|].
  exact_step; [apply exact_rd_u16|]. apply exact_rep; [apply consuming_object|apply exact_object].
Qed.
Lemma exact_timer : exact rd_timer.
Proof.
  unfold rd_timer. exact_step; [apply exact_rd_u16|]. exact_step; [apply exact_rd_u32|].
  exact_step; [apply exact_rd_u32|]. apply exact_ret.
Qed.
Lemma consuming_timer : consuming rd_timer.
Proof.
  unfold rd_timer. apply (consuming_bind rd_u16); [apply consuming_rd_u16|]. intros.
  exact_step; [apply exact_rd_u32|]. exact_step; [apply exact_rd_u32|]. apply exact_ret.
Qed.
Lemma exact_timers : exact rd_timers.
Proof.
  unfold rd_timers. exact_step; [apply exact_rd_byte|]. exact_step; [apply exact_err|].
  exact_step; [apply exact_rd_u16|]. apply exact_rep; [apply consuming_timer|apply exact_timer].
Qed.
