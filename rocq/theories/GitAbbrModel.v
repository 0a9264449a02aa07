(** Model of partial_to_complete_sha_hex of a GitDB, gitdb/db/base.py:153-163 and 240-276.
    Definitions only.  As in GitModel.v the file system does not change during the call. *)
From Verif Require Import Py FunModel ZlibModel ReaderModel PackModel OsModel LooseModel PackDbModel CompoundModel GitModel.

Definition is_compound (d : db) : bool := match d with Git _ _ | Ref _ _ => true | _ => false end.

Section Abbr.
  Context (F : fs).
  (** Calls [f] for the members that [sel] selects, one after the other, with a value that is
      handed on; an exception ends it. *)
  Fixpoint walk {A} (sel : db -> bool) (f : A -> db -> res A * db) (acc : A) (l : list db) : res A * list db :=
    match l with
    | [] => (Ok acc, [])
    | d :: l' =>
        if sel d then
          match f acc d with
          | (Ok acc, d) => let (r, l') := walk sel f acc l' in (r, d :: l')
          | (Raise x, d) => (Raise x, d :: l')
          | (Diverge, d) => (Diverge, d :: l')
          end
        else let (r, l') := walk sel f acc l' in (r, d :: l')
    end.
  Definition on_members {A} (f : list db -> res A * list db) (c : compound db) : res A * compound db :=
    let (r, l) := f (c_dbs c) in (r, mk_compound l (c_cache c)).

  (** gitdb/db/base.py:153-163: databases() of every CompoundDB below; the list itself is
      gone through by [db_ask] in the same order. *)
  Fixpoint db_open (fuel : nat) (d : db) : res unit * db :=
    match d, fuel with
    | Git root dbs, S fuel => in_git root (with_dbs (git_load F root) dbs (on_members (walk is_compound (fun _ => db_open fuel) tt)))
    | Ref root dbs, S fuel => in_ref root (with_dbs (ref_load F root) dbs (on_members (walk is_compound (fun _ => db_open fuel) tt)))
    | Git _ _, O | Ref _ _, O => (Diverge, d)
    | _, _ => (Ok tt, d)
    end.

  Context (digits binsha : bytes).
  (** gitdb/db/base.py:260-267: a LooseObjectDB has partial_to_complete_sha_hex
      (gitdb/db/loose.py:108-125), a PackedDB partial_to_complete_sha. *)
  Definition member_partial (d : db) : res bytes * db :=
    match d with
    | Packed root s => in_packed root (PackDbModel.partial_to_complete_sha (pack_env F root) binsha (len digits) s)
    | Loose root known => (partial_loop digits (map Ok (loose_names F root)) None, d)
    | _ => (Raise AttributeError, d)
    end.
  (** gitdb/db/base.py:259-273 for one database; the candidate None is the empty name. *)
  Definition weigh (candidate : bytes) (r : res bytes) : res bytes :=
    match r with
    | Ok [] => Ok candidate
    | Ok full => if negb (len candidate =? 0) && negb (beq candidate full) then Raise AmbiguousObjectName else Ok full
    | Raise BadObject => Ok candidate
    | Raise x => Raise x
    | Diverge => Diverge
    end.
  Definition ask_member (candidate : bytes) (d : db) : res bytes * db :=
    let (r, d) := member_partial d in (weigh candidate r, d).
  (** The loop of lines 258-273 over the list made by [_databases_recursive]: of each CompoundDB
      first the members that are none, then what is below the others.  All members have been
      set up by [db_open]. *)
  Definition ask_below (f : bytes -> db -> res bytes * db) (candidate : bytes) (l : list db) : res bytes * list db :=
    match walk (fun d => negb (is_compound d)) ask_member candidate l with
    | (Ok candidate, l) => walk is_compound f candidate l
    | (r, l) => (r, l)
    end.
  Fixpoint db_ask (fuel : nat) (candidate : bytes) (d : db) : res bytes * db :=
    match d, fuel with
    | Git root dbs, S fuel => in_git root (with_dbs (git_load F root) dbs (on_members (ask_below (db_ask fuel) candidate)))
    | Ref root dbs, S fuel => in_ref root (with_dbs (ref_load F root) dbs (on_members (ask_below (db_ask fuel) candidate)))
    | Git _ _, O | Ref _ _, O => (Diverge, d)
    | _, _ => ask_member candidate d
    end.
End Abbr.

(** gitdb/db/base.py:240-276 *)
Definition db_partial (F : fs) (fuel : nat) (digits : bytes) (d : db) : res bytes * db :=
  match db_open F fuel d with
  | (Ok _, d) =>
      match (if negb (len digits mod 2 =? 0) then hex_to_bin (digits ++ [48]) else hex_to_bin digits) with
      | Ok binsha =>
          let (r, d) := db_ask F digits binsha fuel [] d in
          (match r with Ok [] => Raise BadObject | _ => r end, d)
      | Raise x => (Raise x, d)
      | Diverge => (Diverge, d)
      end
  | (Raise x, d) => (Raise x, d)
  | (Diverge, d) => (Diverge, d)
  end.
