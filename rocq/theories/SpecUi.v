(** What is claimed of the two threads *)
From Verif Require Import Ui.

(** What is logged, and what of it is printed *)
Definition logged (l : list tev) : list (log_type * msg) :=
  omap (fun e => match e with TLog lt m => Some (lt, m) | _ => None end) l.
Definition printed (o : list outp) : list (log_type * msg) :=
  omap (fun x => match x with OLog lt m => Some (lt, m) | _ => None end) o.
(** States that the run announces *)
Definition states (l : list tev) : list inst_state :=
  omap (fun e => match e with TState st => Some st | _ => None end) l.
(** How often the user is asked *)
Definition requests (l : list tev) : nat := length (omap (fun e => match e with TConfirm => Some tt | _ => None end) l).
Definition prompts (o : list outp) : nat := length (omap (fun x => match x with OPrompt => Some tt | _ => None end) o).

(** [p] is the visible behaviour of the compute thread. *)
Definition behaves (p : proc) (E : ext) (g : args) (W : world) (main input : mapdata) : Prop :=
  forall b, path p b = events E g W main input b.

(** Both threads have ended. *)
Definition ended (t : threads) : Prop := wk t = WOver /\ ph t = UEnd.
(** No thread has been stopped by a failing [unwrap]. *)
Definition sane (t : threads) : Prop := wk t <> WCrashed /\ ph t <> UCrashed.

(** However the steps are chosen, [P] is reached. *)
Inductive inevitably (line : list Z) (P : threads -> Prop) : threads -> Prop :=
  | Now t : P t -> inevitably line P t
  | Later t : (exists l t', tstep line l t t') ->
      (forall l t', tstep line l t t' -> inevitably line P t') -> inevitably line P t.

(** Number of receives that time out *)
Definition timeouts (ls : list label) : nat := length (omap (fun l => match l with LTick => Some tt | _ => None end) ls).

(** The cursor is at the beginning of a line.  Progress displays start with a
    carriage return and have no newline; the reply to a prompt is a line. *)
Definition fresh (o : list outp) : Prop :=
  match last o with
  | Some (OQuery _) | Some (OEdit _ _ _) => False
  | _ => True
  end.
(** Messages and prompts begin on a line of their own. *)
Definition tidy (o : list outp) : Prop :=
  forall pre x suf, o = pre ++ x :: suf ->
  match x with OLog _ _ | OPrompt => fresh pre | _ => True end.
