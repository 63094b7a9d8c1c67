(** Properties of what is written to the terminal *)
From Verif Require Import SpecTell DisplayProofs TellProofs.

(** ** C56 *)

(** No line of a message is lost or changed, the kind of message stands before it, and
    no line but the first can be taken for the beginning of a message. *)
Theorem C56_layout : forall cr lt s, exists ls,
  lines_of cr s ls /\ Forall no_newline ls /\ print_log cr lt s = laid_out lt ls.
Proof. exact DisplayProofs.print_log_ok. Qed.
Print Assumptions C56_layout.

Definition ex_wording : wording := Wording (fun _ => true) (bstr "disk I/O error") (bstr "database is locked").
Example C56_example :
  print_log true LWarning (text ex_wording MDanger) =
    bstr "warning: This tool can permanently damage your Minetest world." ++ [x0a] ++
    bstr "         Always EXIT Minetest and BACK UP the map database before use." ++ [x0a] /\
  print_log false LInfo (text ex_wording (MStacks 1234 56)) =
    bstr "info: Replaced 1.23k itemstacks in 56 nodes." ++ [x0a] /\
  print_log false LError (text ex_wording (MErr (EArg (CornerOutside (V3 (-40000) 0 7))))) =
    bstr "error: Area corner is outside map bounds: (-40000, 0, 7)." ++ [x0a].
Proof. by vm_compute. Qed.

(** A name with a line break cannot fake a message. *)
Example C56_fake : print_log false LError (text ex_wording (MErr (EArg (BadNodeName (bstr "x" ++ [x0a] ++ bstr "info: Done."))))) =
  bstr "error: Invalid node name: x" ++ [x0a] ++ bstr "       info: Done." ++ [x0a].
Proof. by vm_compute. Qed.

(** ** C57 *)

(** As long as no more blocks are done than there are (C47), the display does not
    crash and shows correct values. *)
Theorem C57_progress : forall tie done total elapsed secs nanos, 0 <= done <= total -> 0 < total < 2 ^ 64 ->
  0 <= elapsed < 2 ^ 60 -> 0 <= secs < 2 ^ 60 -> 0 <= nanos < 10 ^ 9 ->
  exists t bars v r, editing_status tie done total elapsed secs nanos true = Ret t /\
    display t bars v elapsed r /\ bars_ok bars done total /\ percent_ok v done total /\
    shows_eta r (10 ^ 9 * secs + nanos) done total.
Proof. exact DisplayProofs.progress_shown. Qed.
Print Assumptions C57_progress.

(** If there are no blocks at all, nothing is done and no time is estimated. *)
Theorem C57_nothing : forall tie done elapsed secs nanos, 0 <= elapsed < 2 ^ 64 ->
  exists t, editing_status tie done 0 elapsed secs nanos true = Ret t /\ display t 0 0 elapsed None.
Proof. exact DisplayProofs.nothing_shown. Qed.
Print Assumptions C57_nothing.

(** Commands without a progress bar show the time. *)
Theorem C57_plain : forall tie done total elapsed secs nanos, 0 <= elapsed < 2 ^ 64 ->
  exists el, clock el elapsed /\
    editing_status tie done total elapsed secs nanos false = Ret (bstr "Processing... " ++ el ++ bstr " elapsed").
Proof. exact DisplayProofs.plain_shown. Qed.
Print Assumptions C57_plain.

(** The bar and the percentage never go back. *)
Theorem C57_never_back : forall tie d d' total e s m e' s' m', 0 <= d <= d' -> d' <= total -> 0 < total < 2 ^ 64 ->
  0 <= e < 2 ^ 60 -> 0 <= s < 2 ^ 60 -> 0 <= m < 10 ^ 9 ->
  0 <= e' < 2 ^ 60 -> 0 <= s' < 2 ^ 60 -> 0 <= m' < 10 ^ 9 ->
  exists t bars v r t' bars' v' r',
    editing_status tie d total e s m true = Ret t /\ display t bars v e r /\
    editing_status tie d' total e' s' m' true = Ret t' /\ display t' bars' v' e' r' /\
    bars <= bars' /\ v <= v'.
Proof. exact DisplayProofs.never_back. Qed.
Print Assumptions C57_never_back.

Example C57_example :
  editing_status (fun _ => true) 12345 40000 100 90 500000000 true =
    Ret (bstr "[=======                  ] 30.9% | 01:40 elapsed | 03:22 remaining") /\
  editing_status (fun _ => true) 0 0 1 0 5 true =
    Ret (bstr "[                         ] 0.0% | 00:01 elapsed | --:-- remaining") /\
  editing_status (fun _ => true) 0 0 3725 0 5 false = Ret (bstr "Processing... 1:02:05 elapsed").
Proof. by vm_compute. Qed.

(** ** C58 *)

(** A progress display covers the one before, unless that showed an hour or more. *)
Theorem C58_overwrites_partial : forall tie d d' total e s m e' s' m' t t', 0 <= d <= d' -> d' <= total -> 0 < total < 2 ^ 64 ->
  0 <= e <= e' -> e' < 2 ^ 60 -> 0 <= s < 2 ^ 60 -> 0 <= m < 10 ^ 9 -> 0 <= s' < 2 ^ 60 -> 0 <= m' < 10 ^ 9 ->
  editing_status tie d total e s m true = Ret t -> editing_status tie d' total e' s' m' true = Ret t' ->
  over t t' = t' \/ exists bars v x, display t bars v e (Some x) /\ 3600 <= x.
Proof. exact DisplayProofs.overwrites. Qed.
Print Assumptions C58_overwrites_partial.

(** It covers the count of the query before. *)
Theorem C58_after_query : forall tie found d total e s m t, 0 <= d <= total -> 0 < total < 2 ^ 64 ->
  0 <= e < 2 ^ 60 -> 0 <= s < 2 ^ 60 -> 0 <= m < 10 ^ 9 ->
  editing_status tie d total e s m true = Ret t -> over (querying_status found) t = t.
Proof. exact DisplayProofs.query_overwritten. Qed.
Print Assumptions C58_after_query.

(** So do the displays of the query and of vacuum. *)
Theorem C58_query : forall n n', 0 <= n <= n' -> over (querying_status n) (querying_status n') = querying_status n'.
Proof. exact DisplayProofs.query_grows. Qed.
Print Assumptions C58_query.
Theorem C58_vacuum : forall tie d total s m d' total' s' m' e e' t t', 0 <= e <= e' ->
  editing_status tie d total e s m false = Ret t -> editing_status tie d' total' e' s' m' false = Ret t' -> over t t' = t'.
Proof. exact DisplayProofs.plain_grows. Qed.
Print Assumptions C58_vacuum.

(** "1:06:40 remaining" is followed by "50:33 remaining": two letters stay. *)
Theorem C58_overwrites_refuted : exists d d' total e s m e' s' m' t t', 0 <= d <= d' /\ d' <= total /\ 0 < total < 2 ^ 64 /\
  0 <= e <= e' /\ e' < 2 ^ 60 /\ 0 <= s < 2 ^ 60 /\ 0 <= m < 10 ^ 9 /\ 0 <= s' < 2 ^ 60 /\ 0 <= m' < 10 ^ 9 /\
  forall tie, editing_status tie d total e s m true = Ret t /\ editing_status tie d' total e' s' m' true = Ret t' /\
  over t t' = t' ++ bstr "ng".
Proof. exact DisplayProofs.leftover. Qed.
Print Assumptions C58_overwrites_refuted.

Example C58_example :
  editing_status (fun _ => true) 200 1000 1001 1000 0 true =
    Ret (bstr "[=====                    ] 20.0% | 16:41 elapsed | 1:06:40 remaining") /\
  querying_status 4321 = bstr "Querying mapblocks... 4321 found.".
Proof. by vm_compute. Qed.

(** ** C78 *)

(** The counts that a command reports, in words *)
Theorem C78_counts : forall w m, numbers m <> [] -> Forall (fun n => 0 <= n < 2 ^ 64) (numbers m) ->
  exists ts, Forall2 shown ts (numbers m) /\ text w m = weave (words m) ts.
Proof. exact TellProofs.counts_shown. Qed.
Print Assumptions C78_counts.

(** Different messages are worded differently, except for counts that are large and close. *)
Theorem C78_told_apart : forall w m m', worded m -> worded m' -> text w m = text w m' ->
  matter m = matter m' /\ Forall2 look_alike (numbers m) (numbers m').
Proof. exact TellProofs.told_apart. Qed.
Print Assumptions C78_told_apart.

Example C78_example :
  text ex_wording (MStacks 1234 56) = bstr "Replaced 1.23k itemstacks in 56 nodes." /\
  text ex_wording (MReplaced 77) = bstr "77 nodes replaced." /\
  text ex_wording (MReplaced 1234) = text ex_wording (MReplaced 1233) /\ look_alike 1234 1233 /\
  worded (MReplaced 1234) /\ worded (MErr (EArg (CornerOutside (V3 (-40000) 0 7)))).
Proof.
  do 2 (split; [by vm_compute|]). split; [by vm_compute|]. split; [right; lia|].
  split; (split; [repeat constructor; lia|]); [done|]. unfold i32_ok. simpl. lia.
Qed.
