(** Consequences of the proofs of whole runs, in the form of the properties, and
    runs that contradict what one would expect. *)
From Verif Require Import SpecCmd QueryProofs RunProofs ThreadProofs EditProofs SysProofs MapProofs CodecProofs
  CodecRound BlockProofs BodyProofs NodeProofs MetaProofs ObjProofs InvProofs WholeProofs SafeProofs Toy ToyRun.
From Verif Require Import Spec.

Lemma edits_reports E W g main input names m untouched R :
  edits E W g main input names m untouched R -> reports E W g main input m.
Proof. intros (main' & failed & Hrun & _). by exists main', failed. Qed.

Lemma fill_effect E W g main input pos a node : setting E W g main pos ->
  acmd g = CFill -> aarea g = Some a -> new_node g = Some node -> fits16 node ->
  blocks E main (sound 65533) ->
  exists n, edits E W g main input [] (MFilled n) (fun bp _ => unselected (Some a) (invert g) bp)
    (fun bp => renamed 0 (fun i => selected (Some a) (invert g) (abs_pos bp i)) node).
Proof. intros. eexists. by apply (fill_run E W g main input pos). Qed.

Lemma fill_count_plain a bp : fill_count (Some a) false bp = count_if (fun i => selected (Some a) false (abs_pos bp i)).
Proof. unfold fill_count. cbn [andb]. reflexivity. Qed.
Lemma total_ext E main pos f g : (forall bp b, f bp b = g bp b) -> total E main pos f = total E main pos g.
Proof. intros H. apply zsum_ext. intros [k x] _. cbn [fst snd]. by destruct (deserialize E x). Qed.

Lemma fill_reports E W g main input pos a node : setting E W g main pos ->
  acmd g = CFill -> aarea g = Some a -> new_node g = Some node -> fits16 node ->
  blocks E main (sound 65533) -> invert g = false ->
  reports E W g main input (MFilled (total E main pos
    (fun bp _ => count_if (fun i => selected (Some a) (invert g) (abs_pos bp i))))).
Proof.
  intros HS Hc Ha Hn Hf Hb Hi.
  pose proof (edits_reports _ _ _ _ _ _ _ _ _ (fill_run E W g main input pos a node HS Hc Ha Hn Hf Hb)) as H.
  rewrite Hi in *.
  rewrite <-(total_ext E main pos (fun bp _ => fill_count (Some a) false bp)); [exact H|]. intros bp b. apply fill_count_plain.
Qed.

Lemma replace_reports E W g main input pos old new : setting E W g main pos ->
  acmd g = CReplaceNodes -> anode g = Some old -> new_node g = Some new -> fits16 new ->
  blocks E main (sound 65533) -> blocks E main unique_names ->
  reports E W g main input
    (MReplaced (total E main pos (fun bp b => count_if (chosen (aarea g) (invert g) [old] bp b)))).
Proof. intros. eapply edits_reports. by eapply replace_run. Qed.

Lemma param2_reports E W g main input pos val : setting E W g main pos ->
  acmd g = CSetParam2 -> aparam2 g = Some val ->
  (is_Some (anode g) -> blocks E main unique_names) ->
  reports E W g main input
    (MParam2 (total E main pos (fun bp b => count_if (chosen (aarea g) (invert g) (o2l (anode g)) bp b)))).
Proof. intros. eapply edits_reports. by eapply param2_run. Qed.

Lemma delmeta_reports E W g main input pos : setting E W g main pos ->
  acmd g = CDeleteMeta -> blocks E main meta_in ->
  (is_Some (anode g) -> blocks E main unique_names) ->
  reports E W g main input (MMeta (total E main pos (fun bp b =>
    entries (fun i _ => chosen (aarea g) (invert g) (o2l (anode g)) bp b i) (metadata b)))).
Proof. intros. eapply edits_reports. by eapply delmeta_run. Qed.

Lemma deltimers_reports E W g main input pos : setting E W g main pos ->
  acmd g = CDeleteTimers -> blocks E main timers_in ->
  (is_Some (anode g) -> blocks E main unique_names) ->
  reports E W g main input (MTimers (total E main pos (fun bp b =>
    count_of (fun t => chosen (aarea g) (invert g) (o2l (anode g)) bp b (tpos t)) (timers b)))).
Proof. intros. eapply edits_reports. by eapply deltimers_run. Qed.

Lemma delobj_reports E W g main input pos : setting E W g main pos -> acmd g = CDeleteObjects ->
  exists del : vec3 -> static_object -> bool,
  (forall bp o, wf_object o -> (is_Some (aarea g) -> in_reach o) -> del bp o = true <->
     object_chosen (aarea g) (invert g) (wanted_object g) (default [] (aitems g)) bp o) /\
  reports E W g main input
    (MObjects (total E main pos (fun bp b => count_of (fun o => del bp o = true) (objects b)))).
Proof.
  intros HS Hc. destruct (delobj_run E W g main input pos HS Hc) as (del & Hdel & H).
  exists del. split; [done|]. by eapply edits_reports.
Qed.

Lemma setvar_reports E W g main input pos key : setting E W g main pos ->
  acmd g = CSetMetaVar -> akey g = Some key -> (forall v, avalue g = Some v -> fits32 v) ->
  blocks E main meta_in -> (anodes g <> [] -> blocks E main unique_names) ->
  reports E W g main input (MVars (total E main pos (fun bp b =>
    entries (fun i m => chosen (aarea g) (invert g) (anodes g) bp b i /\ is_Some (vars m !! key)) (metadata b)))).
Proof. intros. eapply edits_reports. by eapply setvar_run. Qed.

Lemma replinv_reports E W g main input pos item : setting E W g main pos ->
  acmd g = CReplaceInInv -> aitem g = Some item ->
  (adelete g = false -> plain_name (default item (new_item g))) ->
  blocks E main meta_in -> (anodes g <> [] -> blocks E main unique_names) ->
  let P := chosen (aarea g) (invert g) (anodes g) in
  let s := fun bp b => zsum (fun e => if decide (P bp b e.1) then stacks item (inv e.2) else 0)
                         (map_to_list (metadata b)) in
  (forall k bp x b i m, block_at k bp -> main !! k = Some x -> deserialize E x = Ok b ->
     metadata b !! i = Some m -> P bp b i -> plain_inv (inv m)) ->
  reports E W g main input (MStacks (total E main pos s mod 18446744073709551616)
    (total E main pos (fun bp b => entries (fun i m => P bp b i /\ 0 < stacks item (inv m)) (metadata b)))).
Proof.
  intros HS Hc Hi Hn Hm Hu P s Hp. eapply edits_reports. eapply replinv_run; [done..| |done|done|done].
  intros n. destruct (adelete g); [done|]. intros [= <-]. auto.
Qed.

Lemma filter_keeps W s w d m names a inv partial : no_faults W -> world_ok W -> area_ok a ->
  db s = MDB (Conn d (Some m)) true -> in_tr (get_db w s) = true ->
  keys_ok (view (cn (get_db w s))) ->
  exists keys s', query_keys w names a inv partial W s = (Done keys, s') /\
    forall E k bp x b, block_at k bp -> view (cn (get_db w s)) !! k = Some x ->
      visit a inv partial bp -> deserialize E x = Ok b ->
      ((exists id n, nimap b !! id = Some n /\ n ∈ names) \/
       (exists o n dt, o ∈ objects b /\ entity o n dt /\ n ∈ names)) -> k ∈ keys.
Proof.
  intros HW HO Ha Hdb Hin Hk.
  destruct (query_exact W s w d m names a inv partial HW HO Ha Hdb Hin Hk) as (keys & s' & Hq & _ & _ & _ & Hkeys & _).
  exists keys, s'. split; [done|]. intros E k bp x b Hbp Hx Hv Hd H. apply Hkeys. exists bp, x.
  split; [done|]. split; [done|]. split; [done|].
  destruct H as [(id & n & Hid & Hn)|(o & n & dt & Ho & He & Hn)].
  - by eapply mentions_nimap.
  - eapply mentions_object; [done..| |done]. by apply entity_iff.
Qed.

(** ** Runs of the toy map *)

(** Checking a run by computation *)
Definition ran (W : world) (main input : mapdata) (g : args) (l : list (log_type * msg))
    (f : mapdata -> bool) : bool :=
  match thread_main toy_full g W (start main input) with
  | (Done tt, s) => bool_decide (logs (trace s) = l) && bool_decide (final Input s = input) &&
                    f (final Main s)
  | _ => false
  end.
Lemma ran_ok W main input g l f : ran W main input g l f = true ->
  exists main', run_ok toy_full g W main input main' l /\ f main' = true.
Proof.
  unfold ran. destruct (thread_main toy_full g W (start main input)) as [[[]| |] s] eqn:E; [|done..].
  rewrite !andb_true_iff. intros [[H1%bool_decide_eq_true H2%bool_decide_eq_true] H3].
  exists (final Main s). split; [by exists s|done].
Qed.

(** An inverted fill: of block (0,0,0), only the nodes with z = 15 are not in the area. *)
Definition bad_area : area := Area (V3 0 0 0) (V3 15 15 14).
Definition main_end : mapdata := {[ key_a := ser block_a ]}.
Definition bad_fill : args :=
  with_names None [] (Some (bstr "air")) (with_area bad_area true (toy_args CFill)).

Ltac toy_supplied := split; [intros ? [= <-]; unfold nonempty; simpl; lia|repeat split; try (by eexists)].

Lemma toy_consistent : blocks toy_full toy_main consistent.
Proof. intros k x b Hk Hd. split; [by apply (toy_sound_upto 65533 ltac:(lia) k x b)|by apply (toy_unique k x b)]. Qed.

Lemma key_a_setting x g : supplied g -> argsb g = true ->
  setting toy_full toy_world g {[ key_a := x ]} (fun _ => V3 0 0 0).
Proof.
  intros Hs Ha. destruct (toy_setting g Hs Ha). split; [done..|].
  intros k [y Hk%lookup_singleton_Some]. destruct Hk as [<- _]. split; [|done]. unfold key_range; simpl; lia.
Qed.

Lemma one_block x b (P : block -> Prop) : deserialize toy_full x = Ok b -> P b -> blocks toy_full {[ key_a := x ]} P.
Proof. intros Hd HP k y b' [<- <-]%lookup_singleton_Some Hd'. congruence. Qed.

Lemma fill_inverted_count : exists E W g main input pos a node, setting E W g main pos /\
  acmd g = CFill /\ aarea g = Some a /\ new_node g = Some node /\ fits16 node /\
  blocks E main consistent /\
  exists n main' failed,
    run_ok E g W main input main' (warnings g ++ [(LInfo, MFilled n)] ++ closing failed) /\
    n <> total E main pos (fun bp _ => count_if (fun i => selected (Some a) (invert g) (abs_pos bp i))).
Proof.
  exists toy_full, toy_world, bad_fill, main_end, ∅, (fun _ => V3 0 0 0), bad_area, (bstr "air").
  split; [apply key_a_setting; [toy_supplied|by vm_compute]|]. do 3 (split; [done|]).
  split; [by vm_compute|].
  split; [apply (one_block (ser block_a) block_a); [apply (bool_decide_unpack _); by vm_compute|]; split; [apply soundb_ok|apply uniqueb_ok]; by vm_compute|].
  destruct (ran_ok toy_world main_end ∅ bad_fill
    (warnings bad_fill ++ [(LInfo, MFilled 3840)] ++ closing 0) (fun _ => true)) as (main' & Hrun & _); [by vm_compute|].
  exists 3840, main', 0. split; [done|].
  by vm_compute.
Qed.

(** ** Not generated blocks *)
Definition fill_d : args :=
  with_names None [] (Some (bstr "air")) (with_area (Area (V3 32 0 0) (V3 33 1 1)) false (toy_args CFill)).
Lemma fill_not_generated : exists E W g main input pos a, setting E W g main pos /\
  acmd g = CFill /\ aarea g = Some a /\ blocks E main consistent /\
  exists main' l k x b, run_ok E g W main input main' l /\
    main !! k = Some x /\ deserialize E x = Ok b /\ not_generated b /\ main' !! k <> Some x.
Proof.
  exists toy_full, toy_world, fill_d, toy_main, toy_input, toy_pos, (Area (V3 32 0 0) (V3 33 1 1)).
  split; [apply toy_setting; [toy_supplied|by vm_compute]|]. do 2 (split; [done|]).
  split; [apply toy_consistent|].
  destruct (ran_ok toy_world toy_main toy_input fill_d
    (warnings fill_d ++ [(LInfo, MFilled 8)] ++ closing 0)
    (fun m => bool_decide (m !! key_d <> toy_main !! key_d))) as (main' & Hrun & H%bool_decide_eq_true); [by vm_compute|].
  exists main', (warnings fill_d ++ [(LInfo, MFilled 8)] ++ closing 0), key_d, (ser block_d), block_d.
  assert (toy_main !! key_d = Some (ser block_d)) as Hx.
  { apply (bool_decide_unpack _). by vm_compute. }
  split; [exact Hrun|]. split; [exact Hx|].
  split; [apply (bool_decide_unpack _); by vm_compute|].
  split; [by vm_compute|]. rewrite <-Hx. exact H.
Qed.

(** ** A name registered twice *)
Definition block_twice : block :=
  Block 29 (z2b 0) 65535 (z2b 2) (z2b 2)
    (ND ([1; 2] ++ replicate (Z.to_nat 4094) 0)
       (replicate (Z.to_nat 4096) (z2b 15)) (replicate (Z.to_nat 4096) (z2b 3)))
    ∅ [] 77 (list_to_map [(0, bstr "air"); (1, bstr "default:stone"); (2, bstr "default:stone")]) [].
Definition toy_twice : mapdata := {[ key_a := ser block_twice ]}.
Definition replace_twice : args :=
  with_names (Some (bstr "default:stone")) [] (Some (bstr "default:dirt")) (toy_args CReplaceNodes).

Lemma replace_misses : exists E W g main input pos old, setting E W g main pos /\
  acmd g = CReplaceNodes /\ anode g = Some old /\ blocks E main (sound 65533) /\
  exists main' l k y b i, run_ok E g W main input main' l /\
    main' !! k = Some y /\ deserialize E y = Ok b /\ 0 <= i < 4096 /\
    chosen (aarea g) (invert g) [old] (pos k) b i.
Proof.
  exists toy_full, toy_world, replace_twice, toy_twice, ∅, (fun _ => V3 0 0 0), (bstr "default:stone").
  split; [apply key_a_setting; [toy_supplied; done|by vm_compute]|]. do 2 (split; [done|]).
  split; [apply (one_block (ser block_twice) block_twice); [apply (bool_decide_unpack _); by vm_compute|apply soundb_ok; by vm_compute]|].
  destruct (ran_ok toy_world toy_twice ∅ replace_twice
    (warnings replace_twice ++ [(LInfo, MReplaced 1)] ++ closing 0)
    (fun m => match m !! key_a with
              | Some y => match deserialize toy_full y with
                          | Ok b => bool_decide (node_name b 1 = Some (bstr "default:stone"))
                          | _ => false end
              | None => false end)) as (main' & Hrun & H); [by vm_compute|].
  destruct (main' !! key_a) as [y|] eqn:Ey; [|done]. destruct (deserialize toy_full y) as [b|] eqn:Eb; [|done].
  apply bool_decide_eq_true in H.
  exists main', (warnings replace_twice ++ [(LInfo, MReplaced 1)] ++ closing 0), key_a, y, b, 1.
  do 4 (split; [done|]). split; [done|]. right. by left.
Qed.

(** ** An item whose name ends like an inventory *)
Definition plainb (i : bytes) : bool :=
  bool_decide (i = END_STR \/ ([x0a] ++ END_STR) `suffix_of` i) &&
  bool_decide (find_sub (bstr "EndInventory ") i = None).
Lemma plainb_ok i : plainb i = true -> plain_inv i.
Proof.
  unfold plainb. rewrite andb_true_iff, !bool_decide_eq_true. intros [H1 H2]. split; [exact H1|]. by apply find_sub_None.
Qed.
Lemma all_plain (m : metadata_t) : forallb (fun e => plainb (inv e.2)) (map_to_list m) = true ->
  forall i e, m !! i = Some e -> plain_inv (inv e).
Proof.
  intros H i e Hi. apply plainb_ok. rewrite forallb_forall in H. apply (H (i, e)), elem_of_list_In.
  by apply elem_of_map_to_list.
Qed.
Definition replace_end : args :=
  with_item (Some (bstr "default:stone")) (Some (bstr "x:EndInventory")) false false (toy_args CReplaceInInv).
Lemma replace_unreadable : exists E W g main input pos item new, setting E W g main pos /\
  acmd g = CReplaceInInv /\ aitem g = Some item /\ new_item g = Some new /\ name_ok new /\
  blocks E main consistent /\
  exists main' l k x b y, run_ok E g W main input main' l /\
    main !! k = Some x /\ deserialize E x = Ok b /\
    (forall i m, metadata b !! i = Some m -> plain_inv (inv m)) /\
    main' !! k = Some y /\ exists e, deserialize E y = Err e.
Proof.
  exists toy_full, toy_world, replace_end, main_end, ∅, (fun _ => V3 0 0 0), (bstr "default:stone"),
    (bstr "x:EndInventory").
  assert (setting toy_full toy_world replace_end main_end (fun _ => V3 0 0 0)) as HS
    by (apply key_a_setting; [split; [done|by eexists]|by vm_compute]).
  assert (deserialize toy_full (ser block_a) = Ok block_a) as Hd by (apply (bool_decide_unpack _); by vm_compute).
  split; [exact HS|]. do 3 (split; [reflexivity|]).
  split. { destruct HS as [_ _ _ _ _ (_ & _ & _ & Hn & _) _ _]. apply (proj1 (Forall_forall _ _) Hn). apply (bool_decide_unpack _). by vm_compute. }
  split; [apply (one_block (ser block_a) block_a); [exact Hd|]; split; [apply soundb_ok|apply uniqueb_ok]; by vm_compute|].
  destruct (ran_ok toy_world main_end ∅ replace_end
    (warnings replace_end ++ [(LInfo, MStacks 2 1)] ++ closing 0)
    (fun m => match m !! key_a with
              | Some y => match deserialize toy_full y with Ok b => false | _ => true end
              | None => false end)) as (main' & Hrun & H); [by vm_compute|].
  destruct (main' !! key_a) as [y|] eqn:Ey; [|done]. destruct (deserialize toy_full y) as [b|e] eqn:Eb; [done|].
  exists main', (warnings replace_end ++ [(LInfo, MStacks 2 1)] ++ closing 0), key_a, (ser block_a), block_a, y.
  split; [exact Hrun|]. split; [apply lookup_singleton|]. split; [exact Hd|]. split.
  - apply all_plain. by vm_compute.
  - split; [done|]. by exists e.
Qed.

(** ** A readable block without names *)
Definition block_nameless : block :=
  Block 29 (z2b 0) 65535 (z2b 2) (z2b 2)
    (ND (replicate (Z.to_nat 4096) 0) (replicate (Z.to_nat 4096) (z2b 15)) (replicate (Z.to_nat 4096) (z2b 3)))
    ∅ [] 77 ∅ [].
Definition main_nameless : mapdata := {[ key_a := ser block_nameless ]}.
Definition fill_a : args :=
  with_names None [] (Some (bstr "air")) (with_area (Area (V3 0 0 0) (V3 2 0 0)) false (toy_args CFill)).
Lemma nameless_panics : exists E W g main input pos, setting E W g main pos /\ in_place (acmd g) = true /\
  args_fit g /\ (exists s, thread_main E g W (start main input) = (Panicked, s)) /\
  forall k x, main !! k = Some x -> exists b, deserialize E x = Ok b.
Proof.
  exists toy_full, toy_world, fill_a, main_nameless, ∅, (fun _ => V3 0 0 0).
  split; [apply key_a_setting; [toy_supplied|by vm_compute]|]. split; [reflexivity|].
  split; [split; [intros n [= <-]; by vm_compute|intros v H; discriminate H]|]. split.
  - destruct (thread_main toy_full fill_a toy_world (start main_nameless ∅)) as [r s] eqn:Er. exists s.
    assert (match r with Panicked => true | _ => false end = true) as Hr.
    { change r with (r, s).1. rewrite <-Er. by vm_compute. }
    destruct r; [discriminate Hr|reflexivity|discriminate Hr].
  - unfold main_nameless. intros k x [<- <-]%lookup_singleton_Some. exists block_nameless. apply (bool_decide_unpack _). by vm_compute.
Qed.
