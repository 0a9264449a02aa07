(** Model of the output stream of a database: gitdb/db/base.py:63-103, gitdb/db/loose.py:148-152
    and 176-251.  Definitions only. *)
From Verif Require Import Py FunModel ZlibModel ReaderModel OsModel LooseModel.

Section Ostream.
  Context (K : zlib) (sha1 : bytes -> bytes) (pagesize : Z) {R : Type} (read : R -> Z -> res (bytes * R)).
  (** A LooseObjectDB and its attribute _ostream (gitdb/db/base.py:70-71).  The writer is the
      object as it is now, also for others who have it. *)
  Record wdb := mk_wdb { wd_db : ldb; wd_out : option (writer K) }.
  Definition wdb_init (db : ldb) : wdb := mk_wdb db None.
  (** gitdb/db/base.py:87-93 *)
  Definition ostream (d : wdb) : option (writer K) := wd_out d.
  (** isinstance(stream, Sha1Writer) *)
  Definition is_sha_writer (w : writer K) : bool := match w with WFD _ _ => false | _ => true end.
  (** gitdb/db/loose.py:148-152 and gitdb/db/base.py:74-85 *)
  Definition set_ostream (d : wdb) (stream : option (writer K)) : res (option (writer K)) * wdb :=
    match stream with
    | Some w => if is_sha_writer w then (Ok (wd_out d), mk_wdb (wd_db d) stream) else (Raise TypeError, d)
    | None => (Ok (wd_out d), mk_wdb (wd_db d) stream)
    end.
  (** gitdb/db/loose.py:176-251 (what the writer is after an exception is not modelled) *)
  Definition db_store (fuel : nat) (d : wdb) (i : istream R) : prog (istream R * wdb) :=
    do! (i, out) := store K sha1 pagesize read fuel (wd_db d) (ostream d) i in
    ret (i, mk_wdb (wd_db d) out).
End Ostream.
Arguments mk_wdb {K}. Arguments wd_db {K}. Arguments wd_out {K}. Arguments ostream {K}. Arguments set_ostream {K}. Arguments wdb_init {K}.
