(** Properties of the command line, number formats, database wrapper and cache *)
From Verif Require Import SpecCli SpecFmt SpecStore CliProofs FmtProofs StoreProofs.
From Verif Require Import Spec.

(** * C24: setparam2 from the command line *)

(** The full statement, false: whenever a setparam2 command line with a param2
    value [v] is accepted, the command gets that value. *)
Theorem C24_param2_refuted : exists top m g val, clap_ok top_declared top /\ clap_ok (declared CSetParam2) m /\
  single m (bstr "param2") (Some val) /\ dec val 5 /\
  parse_cmd_line_args top CSetParam2 m = PArgs g /\ aparam2 g <> Some x05.
Proof. exact param2_lost. Qed.
Print Assumptions C24_param2_refuted.

(** In fact the value never arrives, and the map stays as it is. *)
Theorem C24_never_arrives : forall top m g, clap_ok (declared CSetParam2) m ->
  parse_cmd_line_args top CSetParam2 m = PArgs g ->
  aparam2 g = None /\ forall E W main input, final Main (thread_main E g W (start main input)).2 = main.
Proof. exact param2_unusable. Qed.
Print Assumptions C24_never_arrives.

Example C24_ex : clap_ok (declared CSetParam2) ex_sp2 /\
  exists g, parse_cmd_line_args ex_top CSetParam2 ex_sp2 = PArgs g /\ anode g = Some (bstr "a:b").
Proof. split; [apply ex_sp2_ok|]. eexists. split; [by vm_compute|done]. Qed.

(** * C44: the database wrapper *)

(** The full statement is for all call sequences; missing are calls after a commit. *)
Theorem C44_store_partial : forall W m s os, no_faults W -> world_ok W -> opened m s ->
  Forall (fun o => o <> OCommit) os ->
  exists rs s', calls (os ++ [OCommit]) W s = (Done rs, s') /\ all_answer m (os ++ [OCommit]) rs /\
    final Main s' = after_all m os.
Proof. exact (fun W m s os HW HO => store_ok W HW HO m s os). Qed.
Print Assumptions C44_store_partial.

Example C44_ex : no_faults store_world /\ world_ok store_world /\ opened ∅ store_start /\
  Forall (fun o => o <> OCommit) [OSet 1 [x01]; OSet 2 [x02]; ODel 1; OGet 1; OGet 2; ORows].
Proof. split; [by intros t|]. split; [by intros t m|]. split; [done|]. by repeat constructor. Qed.

(** After a commit, calls fail and writes are lost. *)
Theorem C44_store_refuted : exists W m s os rs s', no_faults W /\ world_ok W /\ opened m s /\
  calls os W s = (Done rs, s') /\ ~ all_answer m os rs /\ Failed ∈ rs /\ final Main s' <> after_all m os.
Proof. exact store_fails. Qed.
Print Assumptions C44_store_refuted.

(** * C45: the block cache *)
Theorem C45_fifo : forall V n (l : list (Z * V)) k,
  cache_get (requests n l) k = assoc (foldl (fifo n) [] l) k.
Proof. exact (@cache_fifo). Qed.
Print Assumptions C45_fifo.

Theorem C45_bounded : forall V n (l : list (Z * V)), let c := requests n l in
  Z.of_nat (size (cmap c)) <= Z.max n 1 /\ NoDup (key_queue c) /\ length (key_queue c) = size (cmap c).
Proof. exact (@cache_bounded). Qed.
Print Assumptions C45_bounded.

Theorem C45_transparent : forall V n (l : list (Z * V)) k v,
  cache_get (requests n l) k = Some v -> (k, v) ∈ l.
Proof. exact (@cache_transparent). Qed.
Print Assumptions C45_transparent.

(** Capacity 2: the oldest entry, key 1, has been evicted by key 3. *)
Example C45_ex : let c := requests 2 [(1, 10); (2, 20); (1, 11); (3, 30)] in
  (cache_get c <$> [1; 2; 3]) = [None; Some 20; Some 30].
Proof. by vm_compute. Qed.

(** * C48: durations *)
Theorem C48_duration : forall s, 0 <= s < 2 ^ 64 -> clock (fmt_duration s) s.
Proof. exact fmt_duration_ok. Qed.
Print Assumptions C48_duration.

Example C48_ex : 0 <= 366007 < 2 ^ 64 /\ fmt_duration 366007 = bstr "101:40:07" /\ fmt_duration 59 = bstr "00:59".
Proof. split; [lia|]. by vm_compute. Qed.

(** * C49: abbreviated counts *)

(** Missing from the full statement: at most three digits.  Proved instead: at
    most 1000 without the decimal point, below 999 T. *)
Theorem C49_accuracy_partial : forall tie n, 0 <= n < 2 ^ 64 ->
  (n < 1000 -> dec (fmt_big_num tie n) n) /\
  (1000 <= n -> exists i f v u, abbreviated (fmt_big_num tie n) i f v u /\ (length f <= 2)%nat /\
     close_to n v u (length f) /\ (n < 999 * 10 ^ 12 -> v <= 1000)).
Proof. exact fmt_big_num_ok. Qed.
Print Assumptions C49_accuracy_partial.

Example C49_ex : 0 <= 77864672234000 < 2 ^ 64 /\ fmt_big_num (fun _ => true) 77864672234000 = bstr "77.9T".
Proof. split; [lia|]. by vm_compute. Qed.

(** 999999 is shown as 1000k. *)
Theorem C49_digits_refuted : exists n, 0 <= n < 2 ^ 64 /\ forall tie, fmt_big_num tie n = bstr "1000k" /\
  (3 < digits_shown (fmt_big_num tie n))%nat.
Proof. exact four_digits. Qed.
Print Assumptions C49_digits_refuted.

(** * C53: the arguments of the run are those of the command line *)
Theorem C53_given : forall top c m, clap_ok top_declared top -> clap_ok (declared c) m ->
  match parse_cmd_line_args top c m with
  | PPanic => False
  | PErr _ => exists n vs, n ∈ [bstr "p1"; bstr "p2"; bstr "offset"] /\ m n = Some vs /\ forall p, ~ pos_text vs p
  | PArgs g => supplied g /\ given top c m g
  end.
Proof. exact parse_given. Qed.
Print Assumptions C53_given.

Example C53_ex : clap_ok top_declared ex_top /\ clap_ok (declared CFill) ex_fill /\
  exists g, parse_cmd_line_args ex_top CFill ex_fill = PArgs g /\
    aarea g = Some (Area (V3 (-10) (-3) 0) (V3 10 4 7)).
Proof. split; [apply ex_top_ok|]. split; [apply ex_fill_ok|]. eexists. split; by vm_compute. Qed.

(** * C54: consent *)
Theorem C54_prompt : forall line, confirms line = true <-> yes line.
Proof. exact confirms_iff. Qed.
Print Assumptions C54_prompt.

(** " Y\r\n" *)
Example C54_ex : yes [32; 89; 13; 10] /\ confirms [121; 101; 115; 10] = false /\ confirms [10] = false.
Proof. split; [|by vm_compute]. apply confirms_iff. by vm_compute. Qed.
