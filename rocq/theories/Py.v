(** Python prelude: the fragments of Python semantics the modelled code relies on.
    Bytes are integers in [list Z]; Python ints are [Z]; exceptions are values.
    Nothing here models gitdb code; the citations name the uses in /repo. *)
From Coq Require Export List ZArith Lia Bool Arith.
Export ListNotations.
Open Scope Z_scope.

Definition bytes := list Z.
Definition is_byte (b : Z) : Prop := 0 <= b < 256.
Definition is_bytes (l : bytes) : Prop := Forall is_byte l.

(** [len(x)] *)
Definition len {A} (l : list A) : Z := Z.of_nat (length l).

(** Exceptions raised by the modelled code (gitdb/exc.py:20-57 and built-ins). *)
Inductive exn :=
| IndexError | ValueError | AssertionError | TypeError | KeyError | AttributeError
| StructError | ZlibError | BinasciiError | FileNotFound | OSError | PermissionError
| BadObject | AmbiguousObjectName | ParseError | UnsupportedOperation | InvalidDBRoot
| OverflowError | NameError | RecursionError.

(** Result of running Python code: a value, an exception, or a loop/recursion that did
    not finish within the given fuel. *)
Inductive res (A : Type) :=
| Ok (a : A)
| Raise (e : exn)
| Diverge.
Arguments Ok {A} _.
Arguments Raise {A} _.
Arguments Diverge {A}.

Definition bind {A B} (r : res A) (f : A -> res B) : res B :=
  match r with Ok a => f a | Raise e => Raise e | Diverge => Diverge end.
Notation "'let!' x := r 'in' k" := (bind r (fun x => k))
  (at level 200, x pattern, r at level 100, k at level 200, right associativity).

(** [assert c, ...] *)
Definition py_assert {A} (c : bool) (k : res A) : res A :=
  if c then k else Raise AssertionError.

(** Slicing [l[a:b]] with Python's clamping and negative indices. *)
Definition norm_idx (n i : Z) : Z := if i <? 0 then Z.max 0 (i + n) else Z.min i n.
Definition slice {A} (l : list A) (a b : Z) : list A :=
  let n := len l in
  let a' := norm_idx n a in
  let b' := norm_idx n b in
  firstn (Z.to_nat (b' - a')) (skipn (Z.to_nat a') l).
(** [l[a:]] *)
Definition slice_from {A} (l : list A) (a : Z) : list A :=
  skipn (Z.to_nat (norm_idx (len l) a)) l.
(** [l[:b]] *)
Definition slice_to {A} (l : list A) (b : Z) : list A :=
  firstn (Z.to_nat (norm_idx (len l) b)) l.

(** Indexing [l[i]]; negative indices count from the end. *)
Definition index {A} (l : list A) (i : Z) : res A :=
  let j := if i <? 0 then i + len l else i in
  if (0 <=? j) && (j <? len l) then
    match nth_error l (Z.to_nat j) with Some x => Ok x | None => Raise IndexError end
  else Raise IndexError.

(** [bytes.find(b)] for a single byte: position of the first occurrence or -1. *)
Fixpoint find_from (b : Z) (l : bytes) (i : Z) : Z :=
  match l with
  | [] => -1
  | x :: l' => if x =? b then i else find_from b l' (i + 1)
  end.
Definition find (b : Z) (l : bytes) : Z := find_from b l 0.

(** [bytes.split(b)] for a single separator byte: always at least one piece. *)
Fixpoint split (b : Z) (l : bytes) : list bytes :=
  match l with
  | [] => [[]]
  | x :: l' =>
      if x =? b then [] :: split b l'
      else match split b l' with
           | p :: ps => (x :: p) :: ps
           | [] => [[x]]
           end
  end.

(** Equality and lexicographic order of byte strings. *)
Fixpoint beq (a b : bytes) : bool :=
  match a, b with
  | [], [] => true
  | x :: a', y :: b' => (x =? y) && beq a' b'
  | _, _ => false
  end.
Fixpoint blt (a b : bytes) : bool :=
  match a, b with
  | _, [] => false
  | [], _ :: _ => true
  | x :: a', y :: b' => if x <? y then true else if x =? y then blt a' b' else false
  end.
(** [a.startswith(p)] *)
Fixpoint startswith (a p : bytes) : bool :=
  match p, a with
  | [], _ => true
  | y :: p', x :: a' => (x =? y) && startswith a' p'
  | _ :: _, [] => false
  end.

(** Constants of gitdb/const.py:1-4 and gitdb/typ.py:7-10. *)
Definition NULL_BYTE : Z := 0.
Definition BYTE_SPACE : Z := 32.
Definition str_blob_type : bytes := [98; 108; 111; 98].
Definition str_commit_type : bytes := [99; 111; 109; 109; 105; 116].
Definition str_tree_type : bytes := [116; 114; 101; 101].
Definition str_tag_type : bytes := [116; 97; 103].

(** ['%i' % n]: decimal digits. *)
Fixpoint dec_fuel (fuel : nat) (n : Z) (acc : bytes) : bytes :=
  match fuel with
  | O => acc
  | S f => let acc' := (48 + n mod 10) :: acc in
           if n / 10 =? 0 then acc' else dec_fuel f (n / 10) acc'
  end.
Definition dec_nonneg (n : Z) : bytes := dec_fuel (S (Z.to_nat (Z.log2 n))) n [].
Definition fmt_i (n : Z) : bytes := if n <? 0 then 45 :: dec_nonneg (- n) else dec_nonneg n.

(** [int(b)] for a bytes object: surrounding ASCII white space, optional sign, decimal
    digits with single underscores between digits; anything else is a ValueError. *)
Definition is_space (c : Z) : bool := (c =? 32) || ((9 <=? c) && (c <=? 13)).
Definition is_digit (c : Z) : bool := (48 <=? c) && (c <=? 57).
Fixpoint lstrip (l : bytes) : bytes :=
  match l with
  | [] => []
  | c :: l' => if is_space c then lstrip l' else l
  end.
Definition strip (l : bytes) : bytes := rev (lstrip (rev (lstrip l))).
(** [expect] is true when a digit must come next (start, or after an underscore). *)
Fixpoint parse_digits (l : bytes) (acc : Z) (expect : bool) : option Z :=
  match l with
  | [] => if expect then None else Some acc
  | c :: l' =>
      if is_digit c then parse_digits l' (10 * acc + (c - 48)) false
      else if (c =? 95) && negb expect then parse_digits l' acc true
      else None
  end.
Definition py_int (l : bytes) : res Z :=
  let l := strip l in
  let r := match l with
           | 45 :: l' => option_map Z.opp (parse_digits l' 0 true)
           | 43 :: l' => parse_digits l' 0 true
           | _ => parse_digits l 0 true
           end in
  match r with Some n => Ok n | None => Raise ValueError end.

(** Big-endian integers: [struct.pack('>L')], ['>Q'] and [unpack_from]. *)
Fixpoint be_enc (n : nat) (v : Z) : bytes :=
  match n with
  | O => []
  | S n' => (v / 256 ^ Z.of_nat n') mod 256 :: be_enc n' v
  end.
Fixpoint be_dec_acc (l : bytes) (acc : Z) : Z :=
  match l with [] => acc | b :: l' => be_dec_acc l' (256 * acc + b) end.
Definition be_dec (l : bytes) : Z := be_dec_acc l 0.
Definition pack_be (n : nat) (v : Z) : res bytes :=
  if (0 <=? v) && (v <? 256 ^ Z.of_nat n) then Ok (be_enc n v) else Raise StructError.
Definition pack_L := pack_be 4.
Definition pack_Q := pack_be 8.
(** [unpack_from(fmt, d, off)[0]] for an [n]-byte field; raises struct.error when the
    buffer is too short (negative offsets do not occur in the modelled code and are
    rejected here). *)
Definition unpack_be (n : nat) (d : bytes) (off : Z) : res Z :=
  if (0 <=? off) && (off + Z.of_nat n <=? len d)
  then Ok (be_dec (slice d off (off + Z.of_nat n))) else Raise StructError.

(** [binascii.b2a_hex] / [a2b_hex]. *)
Definition hex_digit (v : Z) : Z := if v <? 10 then 48 + v else 87 + v.
Fixpoint bin_to_hex (l : bytes) : bytes :=
  match l with
  | [] => []
  | b :: l' => hex_digit (b / 16) :: hex_digit (b mod 16) :: bin_to_hex l'
  end.
Definition hex_val (c : Z) : option Z :=
  if (48 <=? c) && (c <=? 57) then Some (c - 48)
  else if (97 <=? c) && (c <=? 102) then Some (c - 87)
  else if (65 <=? c) && (c <=? 70) then Some (c - 55)
  else None.
Fixpoint hex_to_bin (l : bytes) : res bytes :=
  match l with
  | [] => Ok []
  | [_] => Raise BinasciiError
  | a :: b :: l' =>
      match hex_val a, hex_val b with
      | Some x, Some y =>
          let! r := hex_to_bin l' in Ok (16 * x + y :: r)
      | _, _ => Raise BinasciiError
      end
  end.

(** [b * n] for a one-byte string. *)
Definition brepeat (b : Z) (n : Z) : bytes := repeat b (Z.to_nat n).

(** Fuelled [while]: [step] returns [inl s'] to go on and [inr a] to leave the loop. *)
Fixpoint while {S A} (fuel : nat) (step : S -> res (S + A)) (s : S) : res A :=
  match fuel with
  | O => Diverge
  | Datatypes.S f =>
      match step s with
      | Ok (inl s') => while f step s'
      | Ok (inr a) => Ok a
      | Raise e => Raise e
      | Diverge => Diverge
      end
  end.

(** Helpers used by statements. *)
Definition terminates {A} (r : nat -> res A) : Prop := exists fuel, r fuel <> Diverge.
Definition diverges {A} (r : nat -> res A) : Prop := forall fuel, r fuel = Diverge.
