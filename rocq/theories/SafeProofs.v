(** The commands that edit blocks in place run to the end unless a block makes them
    panic, and skip unreadable blocks. *)
From Verif Require Import SpecSafe ArgProofs ThreadProofs EditProofs BodyProofs NodeProofs MetaProofs PanicProofs.
From Verif Require Import Spec.

(** All of them are loops over the rows. *)
Lemma in_place_loop E W g main pos : setting E W g main pos -> in_place (acmd g) = true ->
  (acmd g = CSetParam2 -> is_Some (aparam2 g)) -> args_fit g -> blocks E main (harmless g) ->
  exists late body mk,
    cmd_func E g = (c ← edit_blocks late (searched g) (aarea g) (invert g) true body; log LInfo (mk c)) /\
    forall k bp x, block_at k bp -> main !! k = Some x -> visit (aarea g) (invert g) true bp -> mentions (searched g) x ->
      match deserialize E x with
      | Err _ => body k x = Ret (EFail, (0, 0))
      | Ok b => exists e c, e <> EFail /\ body k x = Ret (e, c)
      end.
Proof.
  intros HS Hc Hp2 [Hfit Hval] Hb. destruct HS as [HE Hfull HW HO Hsup Hleg Hrdy Hkeys] eqn:EHS. clear EHS.
  pose proof (area_ok_args g Hsup Hleg) as Hok.
  assert (forall k x b, main !! k = Some x -> deserialize E x = Ok b -> harmless g b) as Hb' by exact Hb. clear Hb.
  unfold harmless in Hb'. unfold searched. destruct Hsup as [_ Hsup].
  destruct (acmd g) eqn:Ec; try done.
  - exists false, (delmeta_body E (anode g) (aarea g) (invert g)),
      (fun c => MMeta c.1). split; [unfold cmd_func; by rewrite Ec|].
    intros k bp x Hk Hx Hv _. destruct (deserialize E x) as [b|] eqn:Ed; [|unfold delmeta_body; by rewrite Ed].
    eapply delmeta_safe; eauto.
  - exists false, (delobj_body E (obj_name g) (item_names g) (aarea g) (invert g)), (fun c => MObjects c.1). split; [unfold cmd_func; by rewrite Ec|].
    intros k bp x Hk Hx Hv _. destruct (deserialize E x) as [b|] eqn:Ed; [|unfold delobj_body; by rewrite Ed].
    eapply delobj_safe; eauto.
  - exists false, (deltimers_body E (anode g) (aarea g) (invert g)),
      (fun c => MTimers c.1). split; [unfold cmd_func; by rewrite Ec|].
    intros k bp x Hk Hx Hv _. destruct (deserialize E x) as [b|] eqn:Ed; [|unfold deltimers_body; by rewrite Ed].
    eapply deltimers_safe; eauto.
  - destruct Hsup as [[a Ha] [n Hn]]. rewrite Ha in Hok.
    exists false, (fill_body E a (invert g) n), (fun c => MFilled c.1). split.
    { unfold cmd_func, fill. by rewrite Ec, Ha, Hn. }
    intros k bp x Hk Hx Hv _. rewrite Ha in Hv.
    destruct (deserialize E x) as [b|] eqn:Ed; [|unfold fill_body; by rewrite Ed].
    destruct (Hb' k x b Hx Ed) as [Hup Hhigh]. eapply fill_safe; eauto.
  - destruct Hsup as [[o Ho] [n Hn]]. rewrite Ho.
    exists true, (replace_body E o n (aarea g) (invert g)), (fun c => MReplaced c.1). split.
    { unfold cmd_func, replace_nodes. by rewrite Ec, Ho, Hn. }
    intros k bp x Hk Hx Hv _. destruct (deserialize E x) as [b|] eqn:Ed; [|unfold replace_body; by rewrite Ed].
    eapply replace_safe; eauto.
  - destruct Hsup as [item Hitem].
    exists false, (replinv_body E item (default (if adelete g then [] else item) (new_item g)) (delete_meta g) (anodes g) (aarea g) (invert g)),
      (fun c => MStacks c.1 c.2). split.
    { unfold cmd_func, replace_in_inv. by rewrite Ec, Hitem. }
    intros k bp x Hk Hx Hv _. destruct (deserialize E x) as [b|] eqn:Ed; [|unfold replinv_body; by rewrite Ed].
    eapply replinv_safe; eauto.
  - destruct Hsup as [key Hkey].
    exists false, (setvar_body E key (default [] (avalue g)) (adelete g) (anodes g) (aarea g) (invert g)), (fun c => MVars c.1). split.
    { unfold cmd_func, set_meta_var. by rewrite Ec, Hkey. }
    intros k bp x Hk Hx Hv _. destruct (deserialize E x) as [b|] eqn:Ed; [|unfold setvar_body; by rewrite Ed].
    eapply setvar_safe; eauto. destruct (avalue g) as [v|]; [by apply Hval|done].
  - destruct (Hp2 eq_refl) as [v Hv2].
    exists false, (param2_body E (anode g) v (aarea g) (invert g)),
      (fun c => MParam2 c.1). split.
    { unfold cmd_func, set_param2. by rewrite Ec, Hv2. }
    intros k bp x Hk Hx Hv _. destruct (deserialize E x) as [b|] eqn:Ed; [|unfold param2_body; by rewrite Ed].
    eapply param2_safe; eauto.
Qed.

Lemma in_place_skips E W g main input pos : setting E W g main pos -> in_place (acmd g) = true ->
  (acmd g = CSetParam2 -> is_Some (aparam2 g)) -> args_fit g -> blocks E main (harmless g) ->
  skips E W g main input.
Proof.
  intros HS Hc Hp Hf Hb. destruct (in_place_loop E W g main pos HS Hc Hp Hf Hb) as (late & body & mk & Hcmd & Hbody).
  exact (run_skips E W g main input pos HS late (searched g) body mk Hcmd Hbody).
Qed.

(** The order of the rows does not matter at all. *)
Lemma skipped_fun E main a inv names n1 n2 :
  skipped E main a inv names n1 -> skipped E main a inv names n2 -> n1 = n2.
Proof.
  intros (l1 & N1 & -> & H1) (l2 & N2 & -> & H2). f_equal. apply Permutation_length, NoDup_Permutation; [done..|].
  intros k. by rewrite H1, H2.
Qed.
Lemma in_place_rows E W1 W2 g main input pos : setting E W1 g main pos -> setting E W2 g main pos ->
  in_place (acmd g) = true -> (acmd g = CSetParam2 -> is_Some (aparam2 g)) -> args_fit g -> blocks E main (harmless g) ->
  exists main' l, run_ok E g W1 main input main' l /\ run_ok E g W2 main input main' l.
Proof.
  intros HS1 HS2 Hc Hp Hf Hb. destruct (in_place_loop E W1 g main pos HS1 Hc Hp Hf Hb) as (late & body & mk & Hcmd & Hbody).
  destruct (run_any E W1 g main input pos HS1 late (searched g) body mk Hcmd Hbody) as (n1 & R1 & S1).
  destruct (run_any E W2 g main input pos HS2 late (searched g) body mk Hcmd Hbody) as (n2 & R2 & S2).
  rewrite <-(skipped_fun _ _ _ _ _ _ _ S1 S2) in R2. eexists _, _. split; [exact R1|exact R2].
Qed.

Lemma consistent_harmless g b : consistent b -> harmless g b.
Proof.
  intros [Hs _]. unfold harmless. destruct (acmd g); try done.
  - intros _. apply Hs.
  - intros _. apply Hs.
  - split; [apply Hs|]. intros id Hid. exists id. split; [lia|]. by apply (sound_named _ _ Hs).
  - intros _. apply Hs.
  - intros _. apply Hs.
Qed.
