(** Model of CompoundDB, gitdb/db/base.py:153-276.  Definitions only.
    The member databases are of an arbitrary type, with methods that give back what they
    return or raise and the member as it is afterwards.  Iterators are run to their end
    without calls in between. *)
From Verif Require Import Py FunModel MemModel.

Section Compound.
  Context {M : Type}.
  (** gitdb/db/base.py:173-179: _dbs; and _db_cache, in which a database is represented by
      its place in _dbs. *)
  Record compound := mk_compound { c_dbs : list M; c_cache : list (bytes * nat) }.

  Section Query.
    Context (has : bytes -> M -> res bool * M).
    (** gitdb/db/base.py:192-196 *)
    Fixpoint first_with (sha : bytes) (i : nat) (l : list M) : res (option nat) * list M :=
      match l with
      | [] => (Ok None, [])
      | m :: l' =>
          match has sha m with
          | (Ok true, m) => (Ok (Some i), m :: l')
          | (Ok false, m) => let (r, l') := first_with sha (S i) l' in (r, m :: l')
          | (Raise x, m) => (Raise x, m :: l')
          | (Diverge, m) => (Diverge, m :: l')
          end
      end.
    (** gitdb/db/base.py:181-197 *)
    Definition db_query (sha : bytes) (c : compound) : res nat * compound :=
      match dict_get sha (c_cache c) with
      | Some i => (Ok i, c)
      | None =>
          match first_with sha 0 (c_dbs c) with
          | (Ok (Some i), l) => (Ok i, mk_compound l (dict_set sha i (c_cache c)))
          | (Ok None, l) => (Raise BadObject, mk_compound l (c_cache c))
          | (Raise x, l) => (Raise x, mk_compound l (c_cache c))
          | (Diverge, l) => (Diverge, mk_compound l (c_cache c))
          end
      end.
    (** gitdb/db/base.py:201-207 *)
    Definition c_has (sha : bytes) (c : compound) : res bool * compound :=
      match db_query sha c with
      | (Ok _, c) => (Ok true, c)
      | (Raise BadObject, c) => (Ok false, c)
      | (Raise x, c) => (Raise x, c)
      | (Diverge, c) => (Diverge, c)
      end.
    (** A method of the database found. *)
    Fixpoint at_place {A} (f : M -> res A * M) (i : nat) (l : list M) : res A * list M :=
      match i, l with
      | O, m :: l' => let (r, m) := f m in (r, m :: l')
      | S i, m :: l' => let (r, l') := at_place f i l' in (r, m :: l')
      | _, [] => (Raise IndexError, [])
      end.
    (** gitdb/db/base.py:209-213: info and stream *)
    Definition c_ask {A} (f : bytes -> M -> res A * M) (sha : bytes) (c : compound) : res A * compound :=
      match db_query sha c with
      | (Ok i, c) => let (r, l) := at_place (f sha) i (c_dbs c) in (r, mk_compound l (c_cache c))
      | (Raise x, c) => (Raise x, c)
      | (Diverge, c) => (Diverge, c)
      end.
  End Query.

  (** One member after the other, until one raises. *)
  Fixpoint each {A} (f : M -> res A * M) (l : list M) : res (list A) * list M :=
    match l with
    | [] => (Ok [], [])
    | m :: l' =>
        match f m with
        | (Ok a, m) => let (r, l') := each f l' in ((let! t := r in Ok (a :: t)), m :: l')
        | (Raise x, m) => (Raise x, m :: l')
        | (Diverge, m) => (Diverge, m :: l')
        end
    end.
  Definition on_each {A B} (f : M -> res A * M) (g : list A -> B) (c : compound) : res B * compound :=
    let (r, l) := each f (c_dbs c) in ((let! t := r in Ok (g t)), mk_compound l (c_cache c)).
  (** gitdb/db/base.py:215-217 *)
  Definition c_size (size : M -> res Z * M) : compound -> res Z * compound :=
    on_each size (fun l => fold_left Z.add l 0).
  (** gitdb/db/base.py:219-220 *)
  Definition c_iter (iter : M -> res (list bytes) * M) : compound -> res (list bytes) * compound :=
    on_each iter (@concat bytes).
  (** gitdb/db/base.py:230-239; the method of a member that is not a CachingDB: false *)
  Definition c_update (update : M -> res bool * M) (c : compound) : res bool * compound :=
    on_each update (fun l => existsb (fun b => b) l) (mk_compound (c_dbs c) []).
End Compound.
Arguments compound : clear implicits.

(** ** Abbreviated names *)
(** The databases below a CompoundDB; a member is either itself a CompoundDB or another
    database. *)
Inductive tree (M : Type) := Leaf (m : M) | Node (l : list (tree M)).
Arguments Leaf {M}. Arguments Node {M}.
Definition is_node {M} (t : tree M) : bool := match t with Node _ => true | Leaf _ => false end.

(** gitdb/db/base.py:153-163 *)
Fixpoint databases_recursive {M} (t : tree M) : list M :=
  match t with
  | Leaf m => [m]
  | Node l =>
      flat_map (fun t => match t with Leaf m => [m] | Node _ => [] end) l ++
      (fix below (l : list (tree M)) : list M :=
         match l with
         | [] => []
         | t :: l' => (if is_node t then databases_recursive t else []) ++ below l'
         end) l
  end.

(** How a database that is not a CompoundDB completes names: with a method
    partial_to_complete_sha_hex, with a method partial_to_complete_sha, or not at all. *)
Record completer := mk_completer { by_hex : option (bytes -> res bytes); by_bin : option (bytes -> Z -> res bytes) }.
(** gitdb/db/base.py:260-264 *)
Definition complete (partial_hexsha partial_binsha : bytes) (m : completer) : res bytes :=
  match by_hex m with
  | Some f => f partial_hexsha
  | None => match by_bin m with
            | Some f => f partial_binsha (len partial_hexsha)
            | None => Raise AttributeError
            end
  end.
(** gitdb/db/base.py:257-276; a name is false as a condition if it is empty. *)
Fixpoint complete_loop (partial_hexsha partial_binsha : bytes) (l : list completer) (candidate : bytes) : res bytes :=
  match l with
  | [] => match candidate with [] => Raise BadObject | _ => Ok candidate end
  | m :: l' =>
      match complete partial_hexsha partial_binsha m with
      | Ok [] => complete_loop partial_hexsha partial_binsha l' candidate
      | Ok full =>
          if negb (len candidate =? 0) && negb (beq candidate full) then Raise AmbiguousObjectName
          else complete_loop partial_hexsha partial_binsha l' full
      | Raise BadObject => complete_loop partial_hexsha partial_binsha l' candidate
      | Raise x => Raise x
      | Diverge => Diverge
      end
  end.
(** gitdb/db/base.py:241-276 *)
Definition c_partial (t : tree completer) (partial_hexsha : bytes) : res bytes :=
  let databases := databases_recursive t in
  let! partial_binsha :=
    (if negb (len partial_hexsha mod 2 =? 0) then hex_to_bin (partial_hexsha ++ [48]) else hex_to_bin partial_hexsha) in
  complete_loop partial_hexsha partial_binsha databases [].
