(** Model of MemoryDB, gitdb/db/mem.py. *)
From Verif Require Import Py FunModel ZlibModel ReaderModel OsModel LooseModel.

(** Python's dict: insertion keeps the place of a key that is there already. *)
Section Dict.
  Context {A : Type}.
  Fixpoint dict_get (k : bytes) (d : list (bytes * A)) : option A :=
    match d with
    | [] => None
    | (k', a) :: d' => if beq k' k then Some a else dict_get k d'
    end.
  Fixpoint dict_set (k : bytes) (a : A) (d : list (bytes * A)) : list (bytes * A) :=
    match d with
    | [] => [(k, a)]
    | (k', a') :: d' => if beq k' k then (k', a) :: d' else (k', a') :: dict_set k a d'
    end.
End Dict.

(** BytesIO.read *)
Definition bytesio_read (b : bytes) (n : Z) : res (bytes * bytes) := Ok (bio_read b n).

Section Mem.
  Context (K : zlib) (sha1 : bytes -> bytes) (pagesize : Z).

  (** gitdb/db/mem.py:39-44.  The OStream objects created by store are numbered; a handle
      given to the caller is the number of such an object, since stream gives out the object
      itself, not a copy.  _cache maps a sha to one of them.  The LooseObjectDB in _db is
      only used for its store method. *)
  Record mdb := mk_mdb { m_cache : list (bytes * nat); m_objs : list (ostream (reader K)) }.
  Definition mem_init : mdb := mk_mdb [] [].
  Definition mem_db : ldb := loose_init [[112; 97; 116; 104]; [100; 111; 101; 115; 110; 116]; [109; 97; 116; 116; 101; 114]] true.

  (** gitdb/db/mem.py:49-63 *)
  Definition mem_store {R} (read : R -> Z -> res (bytes * R)) (fuel : nat) (db : mdb) (i : istream R) : prog (istream R * mdb) :=
    let zstream := WZip [] (zc_new K 1) [] in
    do! (i, w) := store K sha1 pagesize read fuel mem_db (Some zstream) i in
    do! value := match w with Some w => w_zip_value K w | None => throw AttributeError end in
    let decomp_stream := reader_init K value None in
    match is_binsha i with
    | None => throw AttributeError
    | Some sha => ret (i, mk_mdb (dict_set sha (length (m_objs db)) (m_cache db))
                            (m_objs db ++ [mk_ostream sha (is_type i) (is_size i) decomp_stream]))
    end.

  (** gitdb/db/mem.py:46-47 *)
  Definition mem_set_ostream {W} (db : mdb) (stream : W) : res W * mdb := (Raise UnsupportedOperation, db).

  (** gitdb/db/mem.py:65-66 *)
  Definition mem_has_object (db : mdb) (sha : bytes) : bool :=
    match dict_get sha (m_cache db) with Some _ => true | None => false end.

  (** Doing something with the stream of object n, by whoever has it. *)
  Definition set_stream (n : nat) (r : reader K) (l : list (ostream (reader K))) : list (ostream (reader K)) :=
    firstn n l ++ match nth_error l n with
                  | Some o => mk_ostream (ot_binsha o) (ot_type o) (ot_size o) r :: skipn (S n) l
                  | None => []
                  end.
  Definition handle_object (db : mdb) (n : nat) : res (ostream (reader K)) :=
    match nth_error (m_objs db) n with Some o => Ok o | None => Raise IndexError end.
  (** gitdb/base.py:139-140: OStream.read *)
  Definition handle_read (fuel : nat) (db : mdb) (n : nat) (size : Z) : res (bytes * mdb) :=
    let! o := handle_object db n in
    let! (d, r) := read fuel (ot_stream o) size in
    Ok (d, mk_mdb (m_cache db) (set_stream n r (m_objs db))).
  (** seek(0) on ostream.stream *)
  Definition handle_rewind (db : mdb) (n : nat) : res mdb :=
    let! o := handle_object db n in
    let! r := seek (ot_stream o) 0 0 in
    Ok (mk_mdb (m_cache db) (set_stream n r (m_objs db))).

  (** gitdb/db/mem.py:72-80 *)
  Definition mem_stream (db : mdb) (sha : bytes) : res (nat * mdb) :=
    match dict_get sha (m_cache db) with
    | None => Raise BadObject
    | Some n => let! db := handle_rewind db n in Ok (n, db)
    end.
  (** gitdb/db/mem.py:68-70 *)
  Definition mem_info (db : mdb) (sha : bytes) : res (nat * mdb) := mem_stream db sha.
  (** gitdb/db/mem.py:82-86 *)
  Definition mem_size (db : mdb) : Z := len (m_cache db).
  Definition mem_sha_iter (db : mdb) : list bytes := map fst (m_cache db).

  (** gitdb/db/mem.py:89-109, with the methods of the target database as parameters.  The
      database as it is after an exception is not given back. *)
  Section Copy.
    Context {D : Type} (odb_has : D -> bytes -> prog (bool * D)) (odb_store : D -> istream bytes -> prog (istream bytes * D)).
    Fixpoint mem_copy_loop (db : mdb) (odb : D) (shas : list bytes) (count : Z) : prog (Z * mdb * D) :=
      match shas with
      | [] => ret (count, db, odb)
      | sha :: shas =>
          do! (there, odb) := odb_has odb sha in
          if there then mem_copy_loop db odb shas count
          else
            do! (n, db) := Ret (mem_stream db sha) in
            do! o := Ret (handle_object db n) in
            let sio := r_m (ot_stream o) in
            let istream := mk_istream (Some sha) (ot_type o) (ot_size o) sio in
            do! (_, odb) := odb_store odb istream in
            mem_copy_loop db odb shas (count + 1)
      end.
    Definition mem_stream_copy (db : mdb) (odb : D) (shas : list bytes) : prog (Z * mdb * D) := mem_copy_loop db odb shas 0.
  End Copy.
  (** Into a LooseObjectDB and into another MemoryDB. *)
  Definition copy_to_loose (fuel : nat) : mdb -> ldb -> list bytes -> prog (Z * mdb * ldb) :=
    mem_stream_copy has_object
      (fun odb i => do! (i, _) := store K sha1 pagesize bytesio_read fuel odb None i in ret (i, odb)).
  Definition copy_to_mem (fuel : nat) : mdb -> mdb -> list bytes -> prog (Z * mdb * mdb) :=
    mem_stream_copy (fun odb sha => ret (mem_has_object odb sha, odb)) (mem_store bytesio_read fuel).
End Mem.
Arguments m_cache {K}. Arguments m_objs {K}. Arguments mem_has_object {K}. Arguments mem_stream {K}. Arguments mem_info {K}.
Arguments mem_size {K}. Arguments mem_sha_iter {K}. Arguments handle_read {K}. Arguments handle_rewind {K}. Arguments handle_object {K}.
Arguments mk_mdb {K}. Arguments set_stream {K}.
