(** Model of the writing side of GitDB: gitdb/db/git.py:44-83.  Definitions only. *)
From Verif Require Import Py FunModel ZlibModel OsModel LooseModel OstreamModel MemModel CompoundModel GitModel.

(** gitdb/db/git.py:45-69 and gitdb/util.py:249-258: the path of _loose_db, and the database
    afterwards.  _loose_db is set together with _dbs; if the assertion failed at that time it
    is not set, and using it sets up the members again ([_db_cache] stays). *)
Definition loose_db (F : fs) (root : list Z) (dbs : option (compound db)) : res (list Z) * db :=
  let again (cache : list (bytes * nat)) :=
    let (r, l) := git_load F root in
    ((let! _ := r in
      match List.find is_loose l with Some d => Ok (db_root d) | None => Raise AssertionError end), Git root (Some (mk_compound l cache))) in
  match dbs with
  | Some c => match List.find is_loose (c_dbs c) with
              | Some d => (Ok (db_root d), Git root dbs)
              | None => again (c_cache c)
              end
  | None => again []
  end.

Section GitStore.
  Context (K : zlib) (sha1 : bytes -> bytes) (pagesize : Z) {R : Type} (read : R -> Z -> res (bytes * R)).
  (** Where the directory of a path is. *)
  Context (at_path : list Z -> path).
  (** gitdb/db/git.py:73-74, for a loose database without output stream; O_NOATIME does not
      matter when writing.  A PackedDB does not support store (gitdb/db/pack.py:122-126); for the
    others this definition says nothing. *)
  Definition git_store (F : fs) (fuel : nat) (d : db) (i : istream R) : prog (istream R) * db :=
    match d with
    | Git root dbs =>
        match loose_db F root dbs with
        | (Ok p, d) => ((do! (i, _) := store K sha1 pagesize read fuel (loose_init (at_path p) true) None i in ret i), d)
        | (Raise x, d) => (throw x, d)
        | (Diverge, d) => (Ret Diverge, d)
        end
    | _ => (throw UnsupportedOperation, d)
    end.
  (** gitdb/db/git.py:76-80: the output stream [out] of the loose database is given or set. *)
  Definition git_ostream (F : fs) (out : option (writer K)) (root : list Z) (dbs : option (compound db)) : res (option (writer K)) * db :=
    match loose_db F root dbs with
    | (Ok p, d) => (Ok (ostream (mk_wdb (loose_init (at_path p) true) out)), d)
    | (Raise x, d) => (Raise x, d)
    | (Diverge, d) => (Diverge, d)
    end.
  Definition git_set_ostream (F : fs) (out stream : option (writer K)) (root : list Z) (dbs : option (compound db))
    : res (option (writer K)) * option (writer K) * db :=
    match loose_db F root dbs with
    | (Ok p, d) => let (r, w) := set_ostream (mk_wdb (loose_init (at_path p) true) out) stream in (r, wd_out w, d)
    | (Raise x, d) => (Raise x, out, d)
    | (Diverge, d) => (Diverge, out, d)
    end.
End GitStore.
