(** Model of src/utils.rs: key queries and the block cache *)
From Verif Require Export Sys.

(** utils.rs:26-31: the search string with its 16-bit length in front *)
Definition string16 (s : bytes) : bytes := be16 (w16 (Z.of_nat (length s))) ++ s.

(** utils.rs:39-45: area of block positions *)
Definition query_area (a : option area) (invert partial : bool) : option area :=
  match a with
  | None => None
  | Some a => if Bool.eqb invert partial then to_contained_block_area a
              else Some (to_touching_block_area a)
  end.
(** utils.rs:47 *)
Definition query_empty (a : option area) (invert partial : bool) : bool :=
  match a, query_area a invert partial with Some _, None => true | _, _ => false end.

(** utils.rs:51-69: is the row included? *)
Definition row_match (pats : list bytes) (a : option area) (invert partial : bool)
    (key : Z) (data : bytes) : bool :=
  (if query_empty a invert partial then true else
   match query_area a invert partial with
   | Some ba => negb (Bool.eqb (contains ba (from_block_key key)) invert)
   | None => true
   end) &&
  (match data with
   | v :: _ => negb ((b2z v <=? 28) && negb (bool_decide (pats = []))
       && negb (existsb (fun p => bool_decide (is_Some (find_sub p data))) pats))
   | [] => true
   end).

(** utils.rs:50-76, loop body; the state is the row number and the keys *)
Definition query_step (w : which) (pats : list bytes) (a : option area) (invert partial : bool)
    (st : Z * list Z) (row : Z * bytes) : M (Z * list Z) :=
  next_row w ;;
  (if row_match pats a invert partial row.1 row.2 then
     let keys := st.2 ++ [row.1] in
     (if Z.land st.1 1023 =? 0 then set_total (Z.of_nat (length keys)) else mret tt) ;;
     mret (st.1 + 1, keys)
   else mret (st.1 + 1, st.2)).

(** utils.rs:14-82 *)
Definition query_keys (w : which) (search_strs : list bytes) (a : option area)
    (invert partial : bool) : M (list Z) :=
  set_state Querying ;;
  let pats := string16 <$> search_strs in
  keys ← (if negb (query_empty a invert partial) || invert then
            rs ← iter_rows w;
            st ← foldM (query_step w pats a invert partial) rs (0, []);
            next_row w ;;
            mret st.2
          else mret []);
  set_total (Z.of_nat (length keys)) ;;
  set_state Ignore ;;
  mret keys.

(** utils.rs:85-89 *)
Record cache_map (V : Type) := CM { key_queue : list Z; cmap : gmap Z V; cap : Z }.
Global Arguments CM {V} _ _ _.
Global Arguments key_queue {V} _.
Global Arguments cmap {V} _.
Global Arguments cap {V} _.
(** utils.rs:92-98 *)
Definition cache_new {V} (n : Z) : cache_map V := CM [] ∅ n.
(** utils.rs:100-108 *)
Definition cache_insert {V} (c : cache_map V) (key : Z) (value : V) : cache_map V :=
  let (q, m) :=
    if cap c <=? Z.of_nat (length (key_queue c)) then
      match key_queue c with
      | oldest :: q => (q, delete oldest (cmap c))
      | [] => ([], cmap c)
      end
    else (key_queue c, cmap c) in
  CM (q ++ [key]) (<[key := value]> m) (cap c).
(** utils.rs:111-113 *)
Definition cache_get {V} (c : cache_map V) (key : Z) : option V := cmap c !! key.

(** utils.rs:122-127 *)
Definition to_slice (o : option bytes) : list bytes := match o with Some x => [x] | None => [] end.
