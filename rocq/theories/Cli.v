(** Model of src/cmd_line.rs: from the command line to the arguments of a run *)
From Verif Require Export Instance.

(** * Argument declarations *)

(** src/instance.rs:15-32 *)
Inductive arg_type :=
  | TInputMapPath | TArea (req : bool) | TInvert | TOffset (req : bool) | TNode (req : bool)
  | TNodes | TNewNode | TObject | TItem | TItems | TNewItem | TDelete | TDeleteMeta
  | TKey | TValue | TParam2.

(** How many values an argument takes, as declared to clap. *)
Inductive nvals := NFlag | NOne | NExactly (n : nat) | NAtLeast (n : nat).
(** [clap::Arg], as far as it matters for the result: long and short names, help
    texts and value names are left out; [aneeds] is [requires]. *)
Record carg := Carg { aname : bytes; avals : nvals; areq : bool; aneeds : list bytes }.

(** cmd_line.rs:26-117 *)
Definition to_cmd_line_args (t : arg_type) : list carg :=
  match t with
  | TArea req =>
    [Carg (bstr "p1") (NExactly 3) req [bstr "p2"]; Carg (bstr "p2") (NExactly 3) req [bstr "p1"]]
  | TInputMapPath => [Carg (bstr "input_map") NOne true []]
  | TInvert => [Carg (bstr "invert") NFlag false []]
  | TOffset req => [Carg (bstr "offset") (NExactly 3) req []]
  | TNode req => [Carg (bstr "node") NOne req []]
  | TNodes => [Carg (bstr "nodes") (NAtLeast 1) false []]
  | TNewNode => [Carg (bstr "new_node") NOne true []]
  | TObject => [Carg (bstr "object") NOne false []]
  | TItem => [Carg (bstr "item") NOne true []]
  | TItems => [Carg (bstr "items") (NAtLeast 0) false []]
  | TNewItem => [Carg (bstr "new_item") NOne false []]
  | TDelete => [Carg (bstr "delete") NFlag false []]
  | TDeleteMeta => [Carg (bstr "delete_meta") NFlag false []]
  | TKey => [Carg (bstr "key") NOne true []]
  | TValue => [Carg (bstr "value") NOne false []]
  | TParam2 => [Carg (bstr "param2") NOne true []]
  end.

(** The [args] of each command: clone.rs:120-123, delete_blocks.rs:25-29,
    delete_meta.rs:79-83, delete_objects.rs:150-157, delete_timers.rs:69-73,
    fill.rs:78-83, overlay.rs:212-218, replace_in_inv.rs:146-156,
    replace_nodes.rs:141-146, set_meta_var.rs:92-102, set_param2.rs:120-125,
    vacuum.rs. *)
Definition cmd_args (c : command) : list arg_type :=
  match c with
  | CClone => [TArea true; TOffset true]
  | CDeleteBlocks => [TArea true; TInvert]
  | CDeleteMeta => [TNode false; TArea false; TInvert]
  | CDeleteObjects => [TObject; TItems; TArea false; TInvert]
  | CDeleteTimers => [TNode false; TArea false; TInvert]
  | CFill => [TArea true; TInvert; TNewNode]
  | COverlay => [TInputMapPath; TArea false; TInvert; TOffset false]
  | CReplaceInInv => [TItem; TNewItem; TDelete; TDeleteMeta; TNodes; TArea false; TInvert]
  | CReplaceNodes => [TNode true; TNewNode; TArea false; TInvert]
  | CSetMetaVar => [TKey; TValue; TDelete; TNodes; TArea false; TInvert]
  | CSetParam2 => [TNode false; TArea false; TInvert; TParam2]
  | CVacuum => []
  end.
(** cmd_line.rs:124-131 *)
Definition declared (c : command) : list carg := cmd_args c ≫= to_cmd_line_args.

(** * Results of clap 2.34.0 (external) *)

(** [clap::ArgMatches]: the values found for an argument name, [None] if the
    argument is absent.  A present flag has no values. *)
Notation matches := (bytes -> option (list bytes)).
(** clap: [is_present], [value_of], [values_of] *)
Definition is_present (m : matches) (n : bytes) : bool := negb (is_none (m n)).
Definition value_of (m : matches) (n : bytes) : option bytes := m n ≫= head.
Definition values_of (m : matches) (n : bytes) : option (list bytes) := m n.

(** What the program relies on when [get_matches] returns (it exits otherwise). *)
Definition vals_ok (v : nvals) (l : list bytes) : Prop :=
  match v with
  | NFlag => l = []
  | NOne => length l = 1%nat
  | NExactly n => length l = n
  | NAtLeast n => (n <= length l)%nat
  end.
Definition clap_ok (decl : list carg) (m : matches) : Prop :=
  (forall n vs, m n = Some vs -> exists a, a ∈ decl /\ aname a = n /\ vals_ok (avals a) vs /\
     forall r, r ∈ aneeds a -> is_Some (m r)) /\
  (forall a, a ∈ decl -> areq a = true -> is_Some (m (aname a))).
(** cmd_line.rs:140-149: arguments before the command name *)
Definition top_declared : list carg :=
  [Carg (bstr "yes") NFlag false []; Carg (bstr "map") NOne true []].

(** * Numbers ([str::parse] of the standard library) *)

Definition digit (b : byte) : option Z := if is_digit b then Some (b2z b - 48) else None.
(** The digits one by one; [None]: not a digit, or out of range.  [from_str_radix]
    accumulates with checked operations, with the sign applied to each digit. *)
Fixpoint accumulate (lo hi sign : Z) (acc : Z) (s : bytes) : option Z :=
  match s with
  | [] => Some acc
  | b :: s =>
    match digit b with
    | None => None
    | Some d =>
      let x := acc * 10 in
      let y := x + sign * d in
      if (lo <=? x) && (x <=? hi) && (lo <=? y) && (y <=? hi) then accumulate lo hi sign y s else None
    end
  end.
Definition parse_int (lo hi : Z) (s : bytes) : option Z :=
  match s with
  | [] => None
  | [b] => if bool_decide (b = x2b) || bool_decide (b = x2d) then None else accumulate lo hi 1 0 s
  | b :: r =>
    if bool_decide (b = x2b) then accumulate lo hi 1 0 r
    else if bool_decide (b = x2d) && (lo <? 0) then accumulate lo hi (-1) 0 r
    else accumulate lo hi 1 0 s
  end.
Definition parse_i32 : bytes -> option Z := parse_int (-2147483648) 2147483647.
Definition parse_u8 (s : bytes) : option byte := z2b <$> parse_int 0 255 s.

(** * Arguments *)

(** cmd_line.rs:13-23 *)
Definition arg_to_pos (vals : list bytes) : option vec3 :=
  match vals with
  | [a; b; c] => x ← parse_i32 a; y ← parse_i32 b; z ← parse_i32 c; Some (V3 x y z)
  | _ => None
  end.
(** [Option::map(f).transpose()] with [f] failing: outer [None] is the error. *)
Definition transpose {A B} (f : A -> option B) (o : option A) : option (option B) :=
  match o with
  | None => Some None
  | Some a => match f a with Some b => Some (Some b) | None => None end
  end.

(** Messages of cmd_line.rs:165, 167, 176, 191 *)
Inductive cli_error := BadP1 | BadP2 | BadOffset | BadParam2.
Inductive parsed := PArgs (g : args) | PErr (e : cli_error) | PPanic.

(** cmd_line.rs:154-193.  [top]: matches before the command name, [c] and [m]:
    the command and its matches. *)
Definition parse_cmd_line_args (top : matches) (c : command) (m : matches) : parsed :=
  match value_of top (bstr "map") with
  | None => PPanic
  | Some path =>
    match transpose arg_to_pos (values_of m (bstr "p1")) with
    | None => PErr BadP1
    | Some p1 =>
    match transpose arg_to_pos (values_of m (bstr "p2")) with
    | None => PErr BadP2
    | Some p2 =>
    match transpose arg_to_pos (values_of m (bstr "offset")) with
    | None => PErr BadOffset
    | Some off =>
    match transpose parse_u8 (value_of m (bstr "param2_val")) with
    | None => PErr BadParam2
    | Some par =>
      PArgs {|
        do_confirmation := negb (is_present top (bstr "yes"));
        acmd := c;
        map_path := path;
        input_map_path := value_of m (bstr "input_map");
        aarea := match p1, p2 with
                 | Some p1, Some p2 => Some (from_unsorted p1 p2)
                 | _, _ => None
                 end;
        invert := is_present m (bstr "invert");
        offset := off;
        anode := value_of m (bstr "node");
        anodes := default [] (values_of m (bstr "nodes"));
        new_node := value_of m (bstr "new_node");
        aobject := value_of m (bstr "object");
        aitem := value_of m (bstr "item");
        aitems := values_of m (bstr "items");
        new_item := value_of m (bstr "new_item");
        adelete := is_present m (bstr "delete");
        delete_meta := is_present m (bstr "delete_meta");
        akey := value_of m (bstr "key");
        avalue := value_of m (bstr "value");
        aparam2 := par |}
    end end end end
  end.

(** * The confirmation prompt *)

(** [char::is_whitespace]; text is a list of code points here. *)
Definition is_white (c : Z) : bool :=
  ((9 <=? c) && (c <=? 13)) || (c =? 32) || (c =? 133) || (c =? 160) || (c =? 5760) ||
  ((8192 <=? c) && (c <=? 8202)) || (c =? 8232) || (c =? 8233) || (c =? 8239) || (c =? 8287) ||
  (c =? 12288).
Fixpoint trim_start (s : list Z) : list Z :=
  match s with
  | c :: r => if is_white c then trim_start r else s
  | [] => []
  end.
Definition trim (s : list Z) : list Z := reverse (trim_start (reverse (trim_start s))).
Definition to_ascii_lowercase (c : Z) : Z := if (65 <=? c) && (c <=? 90) then c + 32 else c.
(** cmd_line.rs:250-256, given the line read *)
Definition confirms (line : list Z) : bool :=
  bool_decide (to_ascii_lowercase <$> trim line = [121]).
