(** Error messages, refused runs and the table check *)
From Verif Require Import SpecRefuse SpecTable RefuseProofs TableProofs Toy ToyRun CmdFacts.
From Verif Require Import Spec.

(** ** C63 *)

(** Whatever fails: an error message at the end of a run tells the truth.  Unless it is
    about the final commit, it is the only message, and the map is unchanged. *)
Theorem C63_error_true : forall E g W main input e, supplied g ->
  let s := (thread_main E g W (start main input)).2 in
  TLog LError (MErr e) ∈ trace s ->
  blame W g e /\ (e = ECommit \/ trace s = [TLog LError (MErr e)] /\ final Main s = main).
Proof. exact RefuseProofs.error_true. Qed.
Print Assumptions C63_error_true.

(** A run that cannot start says so, if it is not killed before. *)
Theorem C63_refused : forall E g W main input, supplied g -> hopeless W g ->
  let '(r, s) := thread_main E g W (start main input) in
  final Main s = main /\
  (r = Done tt /\ (exists e, trace s = [TLog LError (MErr e)] /\ blame W g e) \/
   r = Killed /\ trace s = [] /\ trouble W).
Proof. exact RefuseProofs.refused. Qed.
Print Assumptions C63_refused.

(** The paths lead to w/map.sqlite, which is a map, and to in/map.sqlite, which is not;
    x is a file that cannot be opened. *)
Definition ex_files (fail : nat -> fault) : world :=
  World fail (fun _ m => sorted_list m) true
    (fun f => bool_decide (f ∈ [bstr "w/map.sqlite"; bstr "in/map.sqlite"; bstr "x"]))
    (fun f => negb (bool_decide (f = bstr "x"))) (fun f => bool_decide (f = bstr "w/map.sqlite")).
Definition ex_overlay (main input : bytes) : args :=
  Args false COverlay main (Some input) None false None None [] None None None None None false false
    None None None.
Definition ex_vacuum : args :=
  Args false CVacuum (bstr "w/") None None false None None [] None None None None None false false None None None.
Definition ex_ok (n : nat) : fault := FOk.
(** Statement [k] fails, counted from 0. *)
Definition ex_fails (k n : nat) : fault := if decide (n = k) then FFail true else FOk.
Definition ex_trace (W : world) (g : args) : list tev := trace (thread_main toy_full g W (start ∅ ∅)).2.
Example C63_example_hyps : supplied (ex_overlay (bstr "w") (bstr "in")) /\ hopeless (ex_files ex_ok) (ex_overlay (bstr "w") (bstr "in")) /\
  ~ hopeless (ex_files ex_ok) ex_vacuum.
Proof.
  split; [toy_supplied|]. split.
  - intros (_ & _ & H). destruct (H _ eq_refl) as (f & Hf & Hp & _ & Hv). cbn in Hv. apply bool_decide_eq_true in Hv as ->.
    by destruct Hp as [Hp|[_ Hp]].
  - intros H. apply H. split; [by apply argsb_legal|]. split; [|done]. by exists (bstr "w/map.sqlite"); auto.
Qed.
Example C63_example :
  ex_trace (ex_files ex_ok) (ex_overlay (bstr "w") (bstr "in")) = [TLog LError (MErr EBadInput)] /\
  ex_trace (ex_files ex_ok) (ex_overlay (bstr "w") (bstr "x")) = [TLog LError (MErr EOpenInput)] /\
  ex_trace (ex_files ex_ok) (ex_overlay (bstr "in") (bstr "x")) = [TLog LError (MErr EBadMain)] /\
  ex_trace (ex_files ex_ok) (ex_overlay (bstr "x") (bstr "in")) = [TLog LError (MErr EOpenMain)] /\
  ex_trace (ex_files (ex_fails 1)) (ex_overlay (bstr "w") (bstr "x")) = [TLog LError (MErr EBadMain)] /\
  ex_trace (ex_files ex_ok) (with_offset (Some (V3 0 62001 0)) (ex_overlay (bstr "x") (bstr "in")))
    = [TLog LError (MErr (EArg OffsetTooLarge))] /\
  last (ex_trace (ex_files ex_ok) (ex_overlay (bstr "w") (bstr "w"))) = Some (TLog LInfo MDone) /\
  last (ex_trace (ex_files (ex_fails 6)) (ex_overlay (bstr "w") (bstr "w"))) = Some (TLog LError (MErr ECommit)).
Proof. by vm_compute. Qed.

(** ** C64 *)

Theorem C64_accepted : forall cols, verify_database cols = DOk tt <-> map_table cols.
Proof. exact TableProofs.verify_database_iff. Qed.
Print Assumptions C64_accepted.

(** Which error: a table without the columns gives a database error. *)
Theorem C64_error : forall cols e, verify_database cols = DErr e <->
  (table_missing cols /\ e = DatabaseError \/ ~ table_missing cols /\ ~ map_table cols /\ e = InvalidDatabase).
Proof. exact TableProofs.verify_database_err. Qed.
Print Assumptions C64_error.

(** In the other theorems, "the map is found" then means that its table is a map table. *)
Theorem C64_found : forall W tables p, map_found (with_tables tables W) p <-> leads_to_map W tables p.
Proof. exact TableProofs.found_tables. Qed.
Print Assumptions C64_found.

(** Missing: tables in which further columns belong to the primary key. *)
Theorem C64_unique_partial : forall V cols (rows : list (list V)), verify_database cols = DOk tt ->
  pos_is_key cols -> contents_ok cols rows -> positions_unique rows.
Proof. exact TableProofs.accepted_unique. Qed.
Print Assumptions C64_unique_partial.

Theorem C64_unique_refuted : exists cols (rows : list (list Z)), verify_database cols = DOk tt /\
  contents_ok cols rows /\ ~ positions_unique rows.
Proof. exact TableProofs.accepted_not_unique. Qed.
Print Assumptions C64_unique_refuted.

Definition ex_cols (t : bytes) (pk : Z) : list column :=
  [Column (bstr "pos") (bstr "INT") 1; Column (bstr "data") t pk; Column (bstr "mtime") (bstr "INT") 0].
Example C64_example : verify_database (ex_cols (bstr "BLOB") 0) = DOk tt /\ pos_is_key (ex_cols (bstr "BLOB") 0) /\
  contents_ok (ex_cols (bstr "BLOB") 0) [[1; 5; 0]; [2; 5; 0]] /\
  verify_database (ex_cols (bstr "TEXT") 0) = DErr InvalidDatabase /\ verify_database (ex_cols (bstr "BLOB") 2) = DErr InvalidDatabase /\
  verify_database (take 1 (ex_cols (bstr "BLOB") 0)) = DErr DatabaseError /\ verify_database [] = DErr DatabaseError.
Proof.
  split; [done|]. split; [by repeat constructor|]. split; [|done]. split; [by repeat constructor|].
  apply (bool_decide_unpack _). by vm_compute.
Qed.
