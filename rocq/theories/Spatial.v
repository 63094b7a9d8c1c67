(** Model of src/spatial/{vec3,area,mod}.rs *)
From Verif Require Export Base.

(** ** src/spatial/vec3.rs *)

(** vec3.rs:1 *)
Definition MAP_LIMIT : Z := 31000.

(** vec3.rs:4-9 (fields are [i32]) *)
Record vec3 := V3 { vx : Z; vy : Z; vz : Z }.
Global Instance vec3_eq_dec : EqDecision vec3.
Proof. solve_decision. Defined.

(** vec3.rs:60-68 *)
Definition vmap (f : Z -> Z) (v : vec3) : vec3 := V3 (f (vx v)) (f (vy v)) (f (vz v)).

(** vec3.rs:71-81 *)
Definition vadd (a b : vec3) : vec3 :=
  V3 (w32 (vx a + vx b)) (w32 (vy a + vy b)) (w32 (vz a + vz b)).
(** vec3.rs:83-93 *)
Definition vadds (a : vec3) (k : Z) : vec3 := vmap (fun v => w32 (v + k)) a.
(** vec3.rs:95-105 *)
Definition vsub (a b : vec3) : vec3 :=
  V3 (w32 (vx a - vx b)) (w32 (vy a - vy b)) (w32 (vz a - vz b)).
(** vec3.rs:107-117 *)
Definition vsubs (a : vec3) (k : Z) : vec3 := vmap (fun v => w32 (v - k)) a.
(** vec3.rs:119-129 *)
Definition vmul (a b : vec3) : vec3 :=
  V3 (w32 (vx a * vx b)) (w32 (vy a * vy b)) (w32 (vz a * vz b)).
(** vec3.rs:131-141 *)
Definition vmuls (a : vec3) (k : Z) : vec3 := vmap (fun v => w32 (v * k)) a.

(** vec3.rs:17-23.  [/] truncates ([Z.quot]); [rem_euclid 4096] is [mod]. *)
Definition from_block_key (key : Z) : vec3 :=
  let x := (w64 (key + 2048)) mod 4096 - 2048 in
  let rem := Z.quot (w64 (key - x)) 4096 in
  let y := (w64 (rem + 2048)) mod 4096 - 2048 in
  let z := Z.quot (w64 (rem - y)) 4096 in
  V3 (w32 x) (w32 y) (w32 z).

(** vec3.rs:25-34 *)
Definition to_block_key (p : vec3) : out Z :=
  if (-2048 <=? vx p) && (vx p <? 2048)
     && (-2048 <=? vy p) && (vy p <? 2048)
     && (-2048 <=? vz p) && (vz p <? 2048)
  then Ret (w64 (w64 (vx p + w64 (vy p * 4096)) + w64 (w64 (vz p * 4096) * 4096)))
  else Panic.

(** vec3.rs:36-42 *)
Definition from_u16_key (key : Z) : vec3 :=
  V3 (Z.land key 15) (Z.land (Z.shiftr key 4) 15) (Z.land (Z.shiftr key 8) 15).

(** vec3.rs:44-50.  [31000 / 16 = 1937] *)
Definition is_valid_block_pos (p : vec3) : bool :=
  let limit := Z.quot MAP_LIMIT 16 in
  (- limit <=? vx p) && (vx p <=? limit)
  && (- limit <=? vy p) && (vy p <=? limit)
  && (- limit <=? vz p) && (vz p <=? limit).

(** vec3.rs:52-58 *)
Definition is_valid_node_pos (p : vec3) : bool :=
  let limit := MAP_LIMIT in
  (- limit <=? vx p) && (vx p <=? limit)
  && (- limit <=? vy p) && (vy p <=? limit)
  && (- limit <=? vz p) && (vz p <=? limit).

(** ** src/spatial/area.rs *)

(** area.rs:43-47 *)
Record area := Area { amin : vec3; amax : vec3 }.
Global Instance area_eq_dec : EqDecision area.
Proof. solve_decision. Defined.

(** area.rs:50-54 *)
Definition area_valid (a : area) : bool :=
  (vx (amin a) <=? vx (amax a))
  && (vy (amin a) <=? vy (amax a))
  && (vz (amin a) <=? vz (amax a)).

(** area.rs:56-60 *)
Definition area_new (mn mx : vec3) : out area :=
  if area_valid (Area mn mx) then Ret (Area mn mx) else Panic.

(** area.rs:62-75 *)
Definition from_unsorted (a b : vec3) : area :=
  Area (V3 (Z.min (vx a) (vx b)) (Z.min (vy a) (vy b)) (Z.min (vz a) (vz b)))
       (V3 (Z.max (vx a) (vx b)) (Z.max (vy a) (vy b)) (Z.max (vz a) (vz b))).

(** area.rs:77-81.  Each factor is an [i32] cast to [u64]; products wrap. *)
Definition volume (a : area) : Z :=
  let f mx mn := u64 (w32 (w32 (mx - mn) + 1)) in
  u64 (u64 (f (vx (amax a)) (vx (amin a)) * f (vy (amax a)) (vy (amin a)))
       * f (vz (amax a)) (vz (amin a))).

Definition filter_valid (a : area) : option area :=
  if area_valid a then Some a else None.

(** area.rs:83-97 *)
Definition intersection (a b : area) : option area :=
  filter_valid
    (Area (V3 (Z.max (vx (amin a)) (vx (amin b)))
              (Z.max (vy (amin a)) (vy (amin b)))
              (Z.max (vz (amin a)) (vz (amin b))))
          (V3 (Z.min (vx (amax a)) (vx (amax b)))
              (Z.min (vy (amax a)) (vy (amax b)))
              (Z.min (vz (amax a)) (vz (amax b))))).

(** area.rs:99-103 *)
Definition contains (a : area) (p : vec3) : bool :=
  (vx (amin a) <=? vx p) && (vx p <=? vx (amax a))
  && (vy (amin a) <=? vy p) && (vy p <=? vy (amax a))
  && (vz (amin a) <=? vz p) && (vz p <=? vz (amax a)).

(** area.rs:105-110 *)
Definition contains_block (a : area) (bp : vec3) : bool :=
  let c := vmuls bp 16 in
  (vx (amin a) <=? vx c) && (w32 (vx c + 15) <=? vx (amax a))
  && (vy (amin a) <=? vy c) && (w32 (vy c + 15) <=? vy (amax a))
  && (vz (amin a) <=? vz c) && (w32 (vz c + 15) <=? vz (amax a)).

(** area.rs:112-117 *)
Definition touches_block (a : area) (bp : vec3) : bool :=
  let c := vmuls bp 16 in
  (vx (amin a) <=? w32 (vx c + 15)) && (vx c <=? vx (amax a))
  && (vy (amin a) <=? w32 (vy c + 15)) && (vy c <=? vy (amax a))
  && (vz (amin a) <=? w32 (vz c + 15)) && (vz c <=? vz (amax a)).

(** area.rs:119-133.  [div_euclid 16] is [/] on [Z]. *)
Definition to_contained_block_area (a : area) : option area :=
  filter_valid
    (Area (vmap (fun v => w32 (v + 15) / 16) (amin a))
          (vmap (fun v => w32 (v - 15) / 16) (amax a))).

(** area.rs:135-148 *)
Definition to_touching_block_area (a : area) : area :=
  Area (vmap (fun v => v / 16) (amin a)) (vmap (fun v => v / 16) (amax a)).

(** area.rs:150-166 *)
Definition abs_block_overlap (a : area) (bp : vec3) : option area :=
  let bmin := vmuls bp 16 in
  let bmax := vadds bmin 15 in
  filter_valid
    (Area (V3 (Z.max (vx (amin a)) (vx bmin))
              (Z.max (vy (amin a)) (vy bmin))
              (Z.max (vz (amin a)) (vz bmin)))
          (V3 (Z.min (vx (amax a)) (vx bmax))
              (Z.min (vy (amax a)) (vy bmax))
              (Z.min (vz (amax a)) (vz bmax)))).

(** area.rs:168-185 *)
Definition rel_block_overlap (a : area) (bp : vec3) : option area :=
  let c := vmuls bp 16 in
  let rmin := vsub (amin a) c in
  let rmax := vsub (amax a) c in
  filter_valid
    (Area (vmap (fun v => Z.max v 0) rmin) (vmap (fun v => Z.min v 15) rmax)).

(** area.rs:197-206 *)
Definition area_add (a : area) (v : vec3) : area := Area (vadd (amin a) v) (vadd (amax a) v).
(** area.rs:208-217 *)
Definition area_sub (a : area) (v : vec3) : area := Area (vsub (amin a) v) (vsub (amax a) v).

(** ** Iterators *)

(** Collect the items of an iterator, at most [fuel] of them; [None] if the
    iterator has not stopped by then. *)
Fixpoint collect {S A} (next : S -> option (A * S)) (fuel : nat) (s : S)
  : option (list A) :=
  match next s with
  | None => Some []
  | Some (a, s') =>
    match fuel with
    | O => None
    | S f => cons a <$> collect next f s'
    end
  end.

(** area.rs:5-16 *)
Record area_iter := AI { ai_min : vec3; ai_max : vec3; ai_pos : vec3 }.

(** area.rs:21-39 *)
Definition area_next (it : area_iter) : option (vec3 * area_iter) :=
  let p := ai_pos it in
  let mn := ai_min it in
  let mx := ai_max it in
  if vz mx <? vz p then None
  else
    let x1 := w32 (vx p + 1) in
    let p' :=
      if vx mx <? x1 then
        let y1 := w32 (vy p + 1) in
        if vy mx <? y1 then V3 (vx mn) (vy mn) (w32 (vz p + 1))
        else V3 (vx mn) y1 (vz p)
      else V3 x1 (vy p) (vz p) in
    Some (p, AI mn mx p').

(** area.rs:188-195 *)
Definition area_into_iter (a : area) : area_iter := AI (amin a) (amax a) (amin a).

(** Number of positions of a valid area (not a function of the program: the
    bound used to run iterators to their end). *)
Definition area_size (a : area) : nat :=
  (Z.to_nat (vz (amax a) - vz (amin a) + 1) * (Z.to_nat (vy (amax a) - vy (amin a) + 1)
    * Z.to_nat (vx (amax a) - vx (amin a) + 1)))%nat.

(** [for pos in &area]: all items of the iterator.  The fuel is the number of
    positions; [area_positions_enum] shows it is enough. *)
Definition area_positions (a : area) : option (list vec3) :=
  collect area_next (area_size a) (area_into_iter a).

(** ** src/spatial/mod.rs: InverseBlockIterator *)

(** mod.rs:10-17 *)
Record inv_iter := II {
  ii_area : area; ii_idx : Z; ii_can : bool; ii_pos : vec3; ii_sidx : Z; ii_len : Z }.

(** mod.rs:19-35 *)
Definition inv_new (a : area) : out inv_iter :=
  if (0 <=? vx (amin a)) && (vx (amax a) <? 16)
     && (0 <=? vy (amin a)) && (vy (amax a) <? 16)
     && (0 <=? vz (amin a)) && (vz (amax a) <? 16)
  then Ret (II a 0 true (amin a)
               (vx (amin a) + vy (amin a) * 16 + vz (amin a) * 256)
               (vx (amax a) - vx (amin a) + 1))
  else Panic.

(** mod.rs:41-57, the [while] loop; at most one iteration per row of the area,
    so 256 iterations are enough (fuel exhaustion is shown impossible). *)
Fixpoint inv_skip (fuel : nat) (it : inv_iter) : option inv_iter :=
  if ii_can it && (ii_sidx it <=? ii_idx it) then
    match fuel with
    | O => None
    | S f =>
      let a := ii_area it in
      let idx := ii_idx it + ii_len it in
      let sp := ii_pos it in
      let y1 := vy sp + 1 in
      if vy (amax a) <? y1 then
        let z1 := vz sp + 1 in
        if vz (amax a) <? z1 then
          (* No more skips *)
          Some (II a idx false (ii_pos it) (ii_sidx it) (ii_len it))
        else
          let sp' := V3 (vx sp) (vy (amin a)) z1 in
          inv_skip f (II a idx true sp' (vx sp' + vy sp' * 16 + vz sp' * 256) (ii_len it))
      else
        let sp' := V3 (vx sp) y1 (vz sp) in
        inv_skip f (II a idx true sp' (vx sp' + vy sp' * 16 + vz sp' * 256) (ii_len it))
    end
  else Some it.

(** mod.rs:40-66.  The outer option is fuel exhaustion of [inv_skip]. *)
Definition inv_next (it : inv_iter) : option (Z * inv_iter) :=
  match inv_skip 257 it with
  | None => None
  | Some it' =>
    if ii_idx it' <? 4096 then
      Some (ii_idx it', II (ii_area it') (ii_idx it' + 1) (ii_can it') (ii_pos it')
                           (ii_sidx it') (ii_len it'))
    else None
  end.

(** [for idx in InverseBlockIterator::new(area)] *)
Definition inv_indices (a : area) : out (list Z) :=
  let* it := inv_new a in unwrap (collect inv_next (Z.to_nat 4096) it).
