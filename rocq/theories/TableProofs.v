(** The table check *)
From Verif Require Import SpecTable CodecProofs.

Lemma check_column_iff row n t k : check_column row n t k = DOk tt <-> row = Some (Column n t k).
Proof.
  destruct row as [[n' t' k']|]; [|done]. cbn. unfold check_column, field, bindD, my_assert; cbn.
  destruct (bool_decide_reflect (n' = n)) as [->|Hn]; [|split; [done|intros [= ? ? ?]; done]].
  destruct (bool_decide_reflect (t' = t)) as [->|Ht]; [|split; [done|intros [= ? ?]; done]].
  destruct (Z.eqb_spec k' k) as [->|Hk]; [done|split; [done|intros [= ?]; done]].
Qed.
Lemma verify_database_iff cols : verify_database cols = DOk tt <-> map_table cols.
Proof.
  unfold verify_database, map_table. split.
  - destruct (check_column (head cols) _ _ _) as [[]|] eqn:E1; [|done]. intros E2. cbn in E2.
    apply check_column_iff in E1, E2. destruct cols as [|c1 [|c2 rest]]; try done. cbn in *. exists rest. congruence.
  - intros [rest ->]. done.
Qed.
Lemma verify_database_ok cols u : verify_database cols = DOk u <-> map_table cols.
Proof. destruct u. apply verify_database_iff. Qed.
Lemma check_column_err row n t k e : check_column row n t k = DErr e <->
  (row = None /\ e = DatabaseError \/ (exists c, row = Some c /\ c <> Column n t k) /\ e = InvalidDatabase).
Proof.
  destruct row as [c|]; [|cbn; split; [intros [= <-]; by left|by intros [[_ ->]|[(c & [=] & _) _]]]].
  pose proof (check_column_iff (Some c) n t k) as H. revert H. destruct c as [n' t' k'].
  unfold check_column, field, bindD, my_assert; cbn.
  destruct (bool_decide (n' = n)); [destruct (bool_decide (t' = t)); [destruct (k' =? k)|]|]; intros H.
  2-4: split; [intros [= <-]; right; split; [eexists; split; [done|]; intros E; rewrite E in H; by destruct H as [_ H]; specialize (H eq_refl)|done]
              |by intros [[[=] _]|[_ ->]]].
  split; [done|]. intros [[[=] _]|[(c & [= <-] & Hc) _]]. destruct H as [H _]. specialize (H eq_refl). congruence.
Qed.
Lemma verify_database_err cols e : verify_database cols = DErr e <->
  (table_missing cols /\ e = DatabaseError \/ ~ table_missing cols /\ ~ map_table cols /\ e = InvalidDatabase).
Proof.
  unfold verify_database, table_missing, map_table.
  destruct (check_column (head cols) _ _ _) as [[]|e'] eqn:E1; cbn.
  - apply check_column_iff in E1. rewrite check_column_err. destruct cols as [|c1 cols]; [done|]. cbn in E1. injection E1 as ->.
    destruct cols as [|c2 cols]; cbn.
    + split; [intros [[_ ->]|[(c & [=] & _) _]]; auto|intros [[_ ->]|(H & _)]; [by left|destruct H; by right]].
    + split.
      * intros [[[=] _]|[(c & [= <-] & Hc) ->]]. right. split; [by intros [[=]|[=]]|]. split; [|done]. intros [rest [= -> _]]. done.
      * intros [[[[=]|[=]] _]|(_ & Hm & ->)]. right. split; [|done]. eexists. split; [done|]. intros ->. apply Hm. by eexists.
  - transitivity (check_column (head cols) (bstr "pos") (bstr "INT") 1 = DErr e); [by rewrite E1|]. rewrite check_column_err.
    apply check_column_err in E1. destruct cols as [|c1 cols]; cbn in *.
    + split; [intros [[_ ->]|[(c & [=] & _) _]]; auto|intros [[_ ->]|(H & _)]; [by left|destruct H; by left]].
    + destruct E1 as [[[=] _]|[(c & [= <-] & Hc) _]]. split.
      * intros [[[=] _]|[_ ->]]. right. split; [by intros [[=]|[=]]|]. split; [|done]. by intros [rest [= -> _]].
      * intros [[[[=]|[= -> _]] _]|(_ & _ & ->)]; [done|]. right. split; [|done]. by eexists.
Qed.
Lemma found_tables W tables p : map_found (with_tables tables W) p <-> leads_to_map W tables p.
Proof.
  unfold map_found, leads_to_map. cbn. split; intros (f & Hf & Hp & Ho & Hv); exists f; (do 3 (split; [done|])).
  - destruct (verify_database (tables f)) as [u|] eqn:E; [|done]. by apply verify_database_ok in E.
  - apply verify_database_iff in Hv. by rewrite Hv.
Qed.
Lemma key_nil {V} (cols : list column) (row : list V) : Forall (fun c => col_pk c = 0) cols -> key_of cols row = [].
Proof.
  intros H. unfold key_of. revert row. induction H as [|c cols Hc _ IH]; intros row; [done|]. destruct row as [|v row]; [done|].
  cbn [zip zip_with]. rewrite filter_cons_False by (intros H'; by apply H'). apply IH.
Qed.
Lemma unique_positions {V} cols (rows : list (list V)) : map_table cols -> pos_is_key cols -> contents_ok cols rows ->
  positions_unique rows.
Proof.
  intros [rest ->] Hk [Hl Hn]. unfold pos_is_key in Hk. cbn [tail] in Hk. unfold positions_unique.
  induction rows as [|r rows IH]; [constructor|].
  apply Forall_cons in Hl as [Hr Hl]. rewrite fmap_cons in *. apply NoDup_cons in Hn as [Hi Hn].
  apply NoDup_cons. split; [|by apply IH]. intros Hin. apply Hi. apply elem_of_list_fmap in Hin as (r' & Eh & Hr').
  apply elem_of_list_fmap. exists r'. split; [|done].
  rewrite Forall_forall in Hl. specialize (Hl r' Hr').
  destruct r as [|v r], r' as [|v' r']; try done. cbn in Eh. inv Eh.
  assert (forall row : list V, key_of (Column (bstr "pos") (bstr "INT") 1 :: Column (bstr "data") (bstr "BLOB") 0 :: rest) (v' :: row) = [v']) as Hkey.
  { intros row. unfold key_of. cbn [zip zip_with]. rewrite filter_cons_True by done. rewrite fmap_cons. f_equal.
    by apply (key_nil _ row) in Hk. }
  by rewrite !Hkey.
Qed.
Lemma accepted_unique V cols (rows : list (list V)) : verify_database cols = DOk tt -> pos_is_key cols ->
  contents_ok cols rows -> positions_unique rows.
Proof. rewrite verify_database_iff. apply unique_positions. Qed.
(** A key of two columns *)
Lemma accepted_not_unique : exists cols (rows : list (list Z)), verify_database cols = DOk tt /\
  contents_ok cols rows /\ ~ positions_unique rows.
Proof.
  exists [Column (bstr "pos") (bstr "INT") 1; Column (bstr "data") (bstr "BLOB") 0; Column (bstr "version") (bstr "INT") 2].
  exists [[7; 0; 1]; [7; 0; 2]]. split; [by vm_compute|]. split.
  - split; [by repeat constructor|]. apply (bool_decide_unpack _). by vm_compute.
  - intros H. apply NoDup_cons in H as [H _]. apply H. by left.
Qed.
