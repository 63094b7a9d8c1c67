(** Specification of the database wrapper and of the block cache *)
From Verif Require Export SpecRun Utils.
From Verif Require Import Spec.

(** ** Database calls (map_database.rs) *)
Inductive op := OGet (k : Z) | OSet (k : Z) (x : bytes) | ODel (k : Z) | ORows | OCommit.
Inductive reply := GotBlock (x : bytes) | NoBlock | Stored | Rows (rs : list (Z * bytes)) | Failed.

(** What a finite map would answer; rows in any order. *)
Definition answers (m : mapdata) (o : op) (r : reply) : Prop :=
  match o with
  | OGet k => r = match m !! k with Some x => GotBlock x | None => NoBlock end
  | OSet _ _ | ODel _ | OCommit => r = Stored
  | ORows => exists rs, r = Rows rs /\ rs ≡ₚ map_to_list m
  end.
Definition after (m : mapdata) (o : op) : mapdata :=
  match o with
  | OSet k x => <[k := x]> m
  | ODel k => delete k m
  | OGet _ | ORows | OCommit => m
  end.
Fixpoint all_answer (m : mapdata) (os : list op) (rs : list reply) : Prop :=
  match os, rs with
  | [], [] => True
  | o :: os, r :: rs => answers m o r /\ all_answer (after m o) os rs
  | _, _ => False
  end.
Definition after_all (m : mapdata) (os : list op) : mapdata := foldl after m os.

(** The same calls on the wrapper.  Reading rows reads all of them. *)
Definition of_dres {A} (f : A -> reply) (r : dres A) : reply :=
  match r with DOk a => f a | DErr MissingData => NoBlock | DErr _ => Failed end.
Definition read_rows (w : which) : M (list (Z * bytes)) :=
  rs ← iter_rows w; foldM (fun (_ : unit) _ => next_row w) rs tt ;; next_row w ;; mret rs.
Definition call (o : op) : M reply :=
  match o with
  | OGet k => r ← get_block Main k; mret (of_dres GotBlock r)
  | OSet k x => r ← set_block Main k x; mret (of_dres (fun _ => Stored) r)
  | ODel k => r ← delete_block Main k; mret (of_dres (fun _ => Stored) r)
  | ORows => rs ← read_rows Main; mret (Rows rs)
  | OCommit => r ← commit_if_needed Main; mret (of_dres (fun _ => Stored) r)
  end.
Fixpoint calls (os : list op) : M (list reply) :=
  match os with
  | [] => mret []
  | o :: os => r ← call o; rs ← calls os; mret (r :: rs)
  end.
(** A map just opened for editing (map_database.rs:71-81). *)
Definition opened (m : mapdata) (s : sys) : Prop := db s = MDB (Conn m (Some m)) true.

(** ** The block cache (utils.rs:84-113) *)

(** A request: use the cached value if there is one, otherwise store [v]. *)
Definition request {V} (c : cache_map V) (kv : Z * V) : cache_map V :=
  match cache_get c kv.1 with Some _ => c | None => cache_insert c kv.1 kv.2 end.
Definition requests {V} (n : Z) (l : list (Z * V)) : cache_map V := foldl request (cache_new n) l.

(** First in, first out, with at most [n] entries but always the newest one. *)
Definition assoc {V} (l : list (Z * V)) (k : Z) : option V := snd <$> List.find (fun e => e.1 =? k) l.
Definition fifo {V} (n : Z) (l : list (Z * V)) (kv : Z * V) : list (Z * V) :=
  match assoc l kv.1 with
  | Some _ => l
  | None => (if n <=? Z.of_nat (length l) then tail l else l) ++ [kv]
  end.
