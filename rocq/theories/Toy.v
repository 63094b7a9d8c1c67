(** Concrete externals satisfying [ext_ok]: used by the examples beside the
    theorems, and showing that the assumptions are satisfiable. *)
From Verif Require Import Block SpecBlock CodecProofs.

(** A self-delimiting code: every byte is announced by a 1, the end by a 0. *)
Fixpoint stuff (d : bytes) : bytes :=
  match d with [] => [x00] | b :: t => x01 :: b :: stuff t end.
Fixpoint unstuff (s : bytes) : option (bytes * nat) :=
  match s with
  | x00 :: _ => Some ([], 1%nat)
  | x01 :: t =>
    match t with
    | b :: t' => match unstuff t' with
                 | Some (d, n) => Some (b :: d, S (S n))
                 | None => None
                 end
    | [] => None
    end
  | _ => None
  end.

(** [lim] bounds what the compressing encoders take in one [write]. *)
Definition toy (lim : nat) : ext := {|
  zl_enc := stuff;
  zl_dec := unstuff;
  zs_enc := stuff;
  zs_dec := fun s => fst <$> unstuff s;
  zs_first := fun s => match unstuff s with Some (b :: _, _) => Some b | _ => None end;
  accept := fun k _ d => match k with Plain => length d | _ => length d `min` lim end%nat;
  vars_iter := fun _ => map_to_list |}.

(** Encoders of unlimited appetite *)
Definition toy_full : ext := {|
  zl_enc := stuff;
  zl_dec := unstuff;
  zs_enc := stuff;
  zs_dec := fun s => fst <$> unstuff s;
  zs_first := fun s => match unstuff s with Some (b :: _, _) => Some b | _ => None end;
  accept := fun _ _ d => length d;
  vars_iter := fun _ => map_to_list |}.

Lemma unstuff_stuff d r : unstuff (stuff d ++ r) = Some (d, length (stuff d)).
Proof. induction d as [|b d IH]; simpl; [done|]. by rewrite IH. Qed.
Lemma unstuff_le s d n : unstuff s = Some (d, n) -> (n <= length s)%nat.
Proof.
  revert d n. induction s as [s IH] using (induction_ltof1 _ length); unfold ltof in IH.
  intros d n H. destruct s as [|x [|b s]]; simpl in H.
  - done.
  - destruct x; try done. inv H. simpl. lia.
  - destruct x; try done.
    + inv H. simpl. lia.
    + destruct (unstuff s) as [[d' n']|] eqn:E; [|done]. inv H.
      apply IH in E; simpl; lia.
Qed.

Lemma toy_ok lim : (0 < lim)%nat -> ext_ok (toy lim).
Proof.
  intros Hl. split; simpl.
  - apply unstuff_stuff.
  - intros x. rewrite <-(app_nil_r (stuff x)), unstuff_stuff. done.
  - intros s b r H. destruct (unstuff s) as [[d n]|]; simpl in H; [|done]. by inv H.
  - done.
  - apply unstuff_le.
  - intros [] _ d; lia.
  - intros [] _ [|b d] H; try done; cbn [length]; lia.
  - done.
  - done.
Qed.
Lemma toy_full_ok : ext_ok toy_full.
Proof.
  split; simpl.
  - apply unstuff_stuff.
  - intros x. rewrite <-(app_nil_r (stuff x)), unstuff_stuff. done.
  - intros s b r H. destruct (unstuff s) as [[d n]|]; simpl in H; [|done]. by inv H.
  - done.
  - apply unstuff_le.
  - done.
  - intros _ _ [|b d] H; simpl; try done; lia.
  - done.
  - done.
Qed.
Lemma toy_full_writes : full_writes toy_full.
Proof. done. Qed.

(** *** Blocks for examples *)

(** A block of [version] with all nodes the same id, and the given rest *)
Definition mk_block (version id : Z) (nm : nimap_t) (md : metadata_t)
    (os : list static_object) (tm : list node_timer) : block :=
  Block version (z2b 0) 65535 (z2b 2) (z2b 2)
    (ND (replicate (Z.to_nat 4096) id) (replicate (Z.to_nat 4096) (z2b 15))
       (replicate (Z.to_nat 4096) (z2b 0)))
    md os 77 nm tm.

Lemma mk_block_wf v id nm md os tm :
  25 <= v <= 29 -> u16_ok id -> wf_nimap nm -> wf_metadata md -> wf_objects os -> wf_timers tm ->
  wf_block (mk_block v id nm md os tm).
Proof.
  intros. split; unfold mk_block; cbn [version lighting content_width params_width ndata metadata
    objects timestamp nimap timers]; try done.
  split; [|split; [|split]]; cbn [nodes param1 param2].
  - rewrite replicate_length, Z2Nat.id; [done|lia].
  - rewrite replicate_length, Z2Nat.id; [done|lia].
  - rewrite replicate_length, Z2Nat.id; [done|lia].
  - by apply Forall_replicate.
Qed.

Lemma wf_nimap_list l : Z.of_nat (length l) < 65536 ->
  Forall (fun e => u16_ok e.1 /\ fits16 e.2) l -> wf_nimap (list_to_map l).
Proof.
  intros Hl Hf. split.
  - enough (size (list_to_map l : nimap_t) <= length l)%nat by lia.
    clear. induction l as [|[k v] l IH]; simpl; [rewrite map_size_empty; lia|].
    rewrite map_size_insert. destruct (_ !! k); simpl; lia.
  - intros k v H. apply elem_of_list_to_map_2 in H. rewrite Forall_forall in Hf. by apply (Hf (k, v)).
Qed.

(** Decidable equality, to compare computed blocks in examples *)
Global Instance vec3_eq_dec : EqDecision vec3.
Proof. solve_decision. Defined.
Global Instance node_data_eq_dec : EqDecision node_data.
Proof. solve_decision. Defined.
Global Instance node_meta_eq_dec : EqDecision node_meta.
Proof. solve_decision. Defined.
Global Instance static_object_eq_dec : EqDecision static_object.
Proof. solve_decision. Defined.
Global Instance node_timer_eq_dec : EqDecision node_timer.
Proof. solve_decision. Defined.
Global Instance block_eq_dec : EqDecision block.
Proof. solve_decision. Defined.

Definition ex_nimap : nimap_t := list_to_map [(0, bstr "air"); (1, bstr "default:chest")].
Definition ex_meta : node_meta :=
  NM (list_to_map [(bstr "infotext", (bstr "Chest", false)); (bstr "owner", (bstr "singleplayer", true))])
     (bstr "List main 32" ++ [x0a] ++ bstr "EndInventoryList" ++ [x0a] ++ END_STR).
Definition ex_metadata : metadata_t := list_to_map [(5, ex_meta); (9, NM ∅ END_STR)].
Definition ex_objects : list static_object := [SO (z2b 7) (V3 (-10) 20 30000) (bstr "data")].
Definition ex_timers : list node_timer := [NT 17 1000 4294967295].
Definition ex_block (v : Z) : block := mk_block v 1 ex_nimap ex_metadata ex_objects ex_timers.

Lemma ex_block_wf v : 25 <= v <= 29 -> wf_block (ex_block v).
Proof.
  intros Hv. apply mk_block_wf; [done|unfold u16_ok; lia| | | |].
  - apply wf_nimap_list; [done|].
    repeat constructor; unfold u16_ok; simpl; lia.
  - split; [vm_compute; done|]. intros k m Hm.
    unfold ex_metadata in Hm. apply elem_of_list_to_map_2 in Hm.
    rewrite !elem_of_cons, elem_of_nil in Hm.
    destruct Hm as [H|[H|[]]]; inv H; (split; [unfold u16_ok; lia|]).
    + split; [by vm_compute|]. split.
      * intros k v' H. apply elem_of_list_to_map_2 in H.
        rewrite !elem_of_cons, elem_of_nil in H. destruct H as [H|[H|[]]]; inv H; done.
      * apply terminated_find. exists 30%nat. by vm_compute.
    + split; [by vm_compute|]. split; [apply map_Forall_empty|].
      apply terminated_find. exists 0%nat. by vm_compute.
  - split; [done|]. repeat constructor; simpl; lia.
  - split; [done|]. repeat constructor; simpl; lia.
Qed.
Global Instance mb_error_eq_dec : EqDecision mb_error.
Proof. solve_decision. Defined.
Global Instance res_eq_dec {A} `{EqDecision A} : EqDecision (res A).
Proof. solve_decision. Defined.
Global Instance out_eq_dec {A} `{EqDecision A} : EqDecision (out A).
Proof. solve_decision. Defined.
