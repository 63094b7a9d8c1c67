(** The two threads: the loop of the user interface (src/cmd_line.rs:259-358), the
    channels between it and the compute thread (src/instance.rs:107-230, 387-404),
    and all their interleavings *)
From Verif Require Export Instance Cli.

(** * The compute thread as seen from outside

    Its program, reduced to what other threads can see: it sends events
    (instance.rs:107-111), writes the shared status, or sends a confirmation
    request and goes on depending on the reply. *)
Inductive proc :=
  | PEnd
  | PLog (lt : log_type) (m : msg) (p : proc)
  | PState (st : inst_state) (p : proc)
  | PStatus (x : status_t) (p : proc)
  | PAsk (k : bool -> proc).

(** What happens, in order, when every request is answered with [b]. *)
Fixpoint path (p : proc) (b : bool) : list tev :=
  match p with
  | PEnd => []
  | PLog lt m p => TLog lt m :: path p b
  | PState st p => TState st :: path p b
  | PStatus x p => TStatus x :: path p b
  | PAsk k => TConfirm :: path (k b) b
  end.

(** The world in which the user replies [b]. *)
Definition replying (b : bool) (W : world) : world :=
  World (faults W) (rows W) b (is_file W) (can_open W) (valid_map W).
(** The events of the compute thread if the user would reply [b]. *)
Definition events (E : ext) (g : args) (W : world) (main input : mapdata) (b : bool) : list tev :=
  trace (thread_main E g (replying b W) (start main input)).2.

(** The program of a thread with events [t b] if the reply is [b] *)
Fixpoint before (l : list tev) (p : proc) : proc :=
  match l with
  | [] => p
  | TLog lt m :: r => PLog lt m (before r p)
  | TState st :: r => PState st (before r p)
  | TStatus x :: r => PStatus x (before r p)
  | TConfirm :: r => PAsk (fun _ => before r p)
  end.
Definition straight (l : list tev) : proc := before l PEnd.
Definition is_confirm (e : tev) : bool := match e with TConfirm => true | _ => false end.
Definition proc_of (t : bool -> list tev) : proc :=
  match list_find (fun e => is_confirm e = true) (t false) with
  | None => straight (t false)
  | Some (n, _) => before (take n (t false)) (PAsk (fun b => straight (drop (S n) (t b))))
  end.

(** * Channels and threads *)

(** instance.rs:107-111 *)
Inductive server_event := SLog (lt : log_type) (m : msg) | SState (st : inst_state) | SConfirm.

(** Where the compute thread is: running, in the loop of instance.rs:161-165, ended
    (its channel ends are dropped, as after a panic), or stopped by the panic of
    [send(..).unwrap()] because the receiver is gone. *)
Inductive worker := WAt (p : proc) | WWait (k : bool -> proc) | WOver | WCrashed.

(** What is written to the terminal; times are left out. *)
Inductive outp :=
  | OLog (lt : log_type) (m : msg)                  (* print_log *)
  | ONewline                                        (* println!() *)
  | OQuery (total : Z)                              (* "\rQuerying mapblocks... {} found." *)
  | OEdit (done total : Z) (show_progress : bool)   (* print_editing_status *)
  | OPrompt.                                        (* "Proceed? (Y/n): " *)

(** Where the interface is: at the top of the loop (cmd_line.rs:289-293), waiting for
    a line of input (250-256), after the [match] with its [forced_update] (329), out
    of the loop (357), or stopped by a panic. *)
Inductive phase := URecv | UPrompt | UUpdate (forced : inst_state) | UEnd | UCrashed.

Record threads := Threads {
  wk : worker;
  chan : list server_event;      (* compute thread to interface *)
  reply : list bool;             (* interface to compute thread *)
  stat : status_t;               (* shared, under a mutex *)
  ph : phase;
  cur : inst_state;              (* [cur_state] *)
  nl : bool;                     (* [need_newline] *)
  outs : list outp }.            (* terminal *)

(** cmd_line.rs:281-286 *)
Definition newline_if (n : bool) : list outp := if n then [ONewline] else [].

Definition is_ignore (st : inst_state) : bool := match st with Ignore => true | _ => false end.
Definition is_querying (st : inst_state) : bool := match st with Querying => true | _ => false end.
Definition is_editing (st : inst_state) : bool := match st with Editing => true | _ => false end.

(** cmd_line.rs:301-305 *)
Definition forced_by (cur new : inst_state) : inst_state :=
  if xorb (is_ignore cur) (is_ignore new) then (if is_ignore cur then new else cur) else Ignore.

(** cmd_line.rs:293-319: an event is received.  Start times are left out. *)
Definition receive (e : server_event) (t : threads) : threads :=
  match e with
  | SLog lt m =>
    Threads (wk t) (chan t) (reply t) (stat t) (UUpdate Ignore) (cur t) false
      (outs t ++ newline_if (nl t) ++ [OLog lt m])
  | SState st =>
    Threads (wk t) (chan t) (reply t) (stat t) (UUpdate (forced_by (cur t) st)) st (nl t) (outs t)
  | SConfirm =>
    Threads (wk t) (chan t) (reply t) (stat t) UPrompt (cur t) false
      (outs t ++ newline_if (nl t) ++ [OPrompt])
  end.

(** cmd_line.rs:196-239: [from_secs_f32] panics on a negative duration, which more
    than 100% of progress would give. *)
Definition over_full (s : status_t) : bool :=
  show_progress s && (0 <? blocks_total s) && (blocks_total s <? blocks_done s).

(** cmd_line.rs:329-354; [ready] is [timed_update_ready] *)
Definition update (forced : inst_state) (ready : bool) (t : threads) : threads :=
  let s := stat t in
  let '(o, n, p) :=
    if is_querying forced || (is_querying (cur t) && ready) then
      ([OQuery (blocks_total s)], true, URecv)
    else if is_editing forced || (is_editing (cur t) && ready) then
      if over_full s then ([], nl t, UCrashed)
      else ([OEdit (blocks_done s) (blocks_total s) (show_progress s)], true, URecv)
    else ([], nl t, URecv) in
  match p with
  | UCrashed => Threads (wk t) (chan t) (reply t) s UCrashed (cur t) (nl t) (outs t)
  | _ =>
    if is_ignore (cur t) then
      Threads (wk t) (chan t) (reply t) s URecv (cur t) false (outs t ++ o ++ newline_if n)
    else Threads (wk t) (chan t) (reply t) s URecv (cur t) n (outs t ++ o)
  end.

Definition set_worker (w : worker) (t : threads) : threads :=
  Threads w (chan t) (reply t) (stat t) (ph t) (cur t) (nl t) (outs t).
Definition push (e : server_event) (t : threads) : threads :=
  Threads (wk t) (chan t ++ [e]) (reply t) (stat t) (ph t) (cur t) (nl t) (outs t).
Definition set_phase (p : phase) (t : threads) : threads :=
  Threads (wk t) (chan t) (reply t) (stat t) p (cur t) (nl t) (outs t).

(** Whether the sending ends of the event channel are dropped: the compute thread
    holds both (instance.rs:389-403). *)
Definition gone (w : worker) : bool :=
  match w with WOver | WCrashed => true | _ => false end.

(** Who makes a step; [LTick] is a receive that times out. *)
Inductive label := LWorker | LUi | LTick.

(** One step of one thread, from one state of the shared objects to the next.
    [line] is what the user types at the prompt. *)
Inductive tstep (line : list Z) : label -> threads -> threads -> Prop :=
  (** instance.rs:169-172 *)
  | W_log t lt m p : wk t = WAt (PLog lt m p) -> ph t <> UCrashed ->
      tstep line LWorker t (push (SLog lt m) (set_worker (WAt p) t))
  | W_log_dead t lt m p : wk t = WAt (PLog lt m p) -> ph t = UCrashed ->
      tstep line LWorker t (set_worker WCrashed t)
  (** instance.rs:132 *)
  | W_state t st p : wk t = WAt (PState st p) -> ph t <> UCrashed ->
      tstep line LWorker t (push (SState st) (set_worker (WAt p) t))
  | W_state_dead t st p : wk t = WAt (PState st p) -> ph t = UCrashed ->
      tstep line LWorker t (set_worker WCrashed t)
  (** instance.rs:131, 136, 140, 144, 148 *)
  | W_status t x p : wk t = WAt (PStatus x p) ->
      tstep line LWorker t
        (Threads (WAt p) (chan t) (reply t) x (ph t) (cur t) (nl t) (outs t))
  (** instance.rs:160 *)
  | W_ask t k : wk t = WAt (PAsk k) -> ph t <> UCrashed ->
      tstep line LWorker t (push SConfirm (set_worker (WWait k) t))
  | W_ask_dead t k : wk t = WAt (PAsk k) -> ph t = UCrashed ->
      tstep line LWorker t (set_worker WCrashed t)
  (** instance.rs:161-166 *)
  | W_resume t k b r : wk t = WWait k -> reply t = b :: r ->
      tstep line LWorker t
        (Threads (WAt (k b)) (chan t) r (stat t) (ph t) (cur t) (nl t) (outs t))
  | W_hangup t k : wk t = WWait k -> reply t = [] -> ph t = UCrashed ->
      tstep line LWorker t (set_worker (WAt (k false)) t)
  | W_end t : wk t = WAt PEnd -> tstep line LWorker t (set_worker WOver t)
  (** cmd_line.rs:293: an event, a timeout, or the end *)
  | U_recv t e c : ph t = URecv -> chan t = e :: c ->
      tstep line LUi t
        (receive e (Threads (wk t) c (reply t) (stat t) (ph t) (cur t) (nl t) (outs t)))
  | U_timeout t : ph t = URecv -> chan t = [] -> gone (wk t) = false ->
      tstep line LTick t (set_phase (UUpdate Ignore) t)
  | U_disconnected t : ph t = URecv -> chan t = [] -> gone (wk t) = true ->
      tstep line LUi t (set_phase UEnd t)
  (** cmd_line.rs:318 and instance.rs:203-205 *)
  | U_reply t : ph t = UPrompt -> gone (wk t) = false ->
      tstep line LUi t
        (Threads (wk t) (chan t) (reply t ++ [confirms line]) (stat t) (UUpdate Ignore)
           (cur t) (nl t) (outs t))
  | U_reply_dead t : ph t = UPrompt -> gone (wk t) = true ->
      tstep line LUi t (set_phase UCrashed t)
  (** cmd_line.rs:329-354 *)
  | U_update t f ready : ph t = UUpdate f ->
      tstep line LUi t (update f ready t).

(** cmd_line.rs:270-279: the beginning *)
Definition launch (p : proc) : threads :=
  Threads (WAt p) [] [] status_new URecv Ignore false [].

(** Every execution, with the steps made *)
Inductive execution (line : list Z) (p : proc) : list label -> threads -> Prop :=
  | X_start : execution line p [] (launch p)
  | X_step ls t l t' : execution line p ls t -> tstep line l t t' ->
      execution line p (ls ++ [l]) t'.
