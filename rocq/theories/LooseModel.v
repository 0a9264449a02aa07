(** Model of the writers of gitdb/stream.py:556-711 and of LooseObjectDB, gitdb/db/loose.py.
    zlib and SHA-1 are parameters; the operating system is in OsModel.v. *)
From Verif Require Import Py FunModel ZlibModel ReaderModel OsModel.

(** sys.maxsize on a 64 bit system *)
Definition maxsize : Z := 2 ^ 63 - 1.

(** ** Writers *)
Section Writers.
  Context (K : zlib) (sha1 : bytes -> bytes).

  (** Sha1Writer (gitdb/stream.py:556-585): what was digested so far.
      FlexibleSha1Writer (590-602) around a function that collects what it gets.
      ZippedStoreShaWriter (605-637): digested, compressor, buffer.
      FDCompressedSha1Writer (640-675): file, digested, compressor.
      FDStream (680-711): file, position. *)
  Inductive writer :=
  | WSha (seen : bytes)
  | WFlex (seen passed : bytes)
  | WZip (seen : bytes) (zip : zc K) (buf : bytes)
  | WFDC (fd : ino) (seen : bytes) (zip : zc K)
  | WFD (fd : ino) (pos : Z).

  (** The write methods.  The result is what the method returns (None for a method without
      a return statement) or raises; the writer is the object afterwards in both cases. *)
  Definition w_write (w : writer) (d : bytes) : prog (res (option Z) * writer) :=
    match w with
    | WSha seen => ret (Ok (Some (len d)), WSha (seen ++ d))
    | WFlex seen passed => ret (Ok None, WFlex (seen ++ d) (passed ++ d))
    | WZip seen zip buf =>
        let (cdata, zip) := zc_compress K zip d in
        ret (Ok (Some (len d)), WZip (seen ++ d) zip (buf ++ cdata))
    | WFDC fd seen zip =>
        let seen := seen ++ d in
        let (cdata, zip) := zc_compress K zip d in
        after (sysr (Write fd cdata)) (fun r =>
          ret (match r with
               | Ok n => if n =? len cdata then Ok (Some (len d)) else Raise OSError
               | Raise e => Raise e
               | Diverge => Diverge
               end, WFDC fd seen zip))
    | WFD fd pos =>
        let pos := pos + len d in
        after (sysr (Write fd d)) (fun r =>
          ret (match r with Ok _ => Ok None | Raise e => Raise e | Diverge => Diverge end, WFD fd pos))
    end.

  (** The close methods of the two file writers (gitdb/stream.py:669-673 and 710-711);
      Sha1Writer has none, ZippedStoreShaWriter's is [w_zip_close]. *)
  Definition w_close (w : writer) : prog unit :=
    match w with
    | WFDC fd _ zip =>
        let remainder := zc_flush K zip in
        do! n := sysr (Write fd remainder) in
        if n =? len remainder then sysr (Close fd) else throw OSError
    | WFD fd _ => sysr (Close fd)
    | _ => ret tt
    end.
  (** gitdb/stream.py:624-637: close, seek(0), getvalue. *)
  Definition w_zip_value (w : writer) : prog bytes :=
    match w with
    | WZip _ zip buf => ret (buf ++ zc_flush K zip)
    | _ => throw AttributeError
    end.
  (** gitdb/stream.py:579-584 *)
  Definition w_sha (w : writer) : prog bytes :=
    match w with
    | WSha seen | WFlex seen _ | WZip seen _ _ | WFDC _ seen _ => ret (sha1 seen)
    | WFD _ _ => throw AttributeError
    end.

  (** ** Copying into a writer *)
  Context {R : Type} (read : R -> Z -> res (bytes * R)).

  (** gitdb/fun.py:509-533, as [FunModel.stream_copy], with writers that call the system.
      The source and the writer survive an exception. *)
  Fixpoint copy_loop (fuel : nat) (r : R) (w : writer) (size chunk_size dbw : Z) : prog (res Z * R * writer) :=
    match fuel with
    | O => Ret Diverge
    | S f =>
        let cs := Z.min chunk_size (size - dbw) in
        match read r cs with
        | Raise e => ret (Raise e, r, w)
        | Diverge => Ret Diverge
        | Ok (data, r) =>
            let dbw := dbw + len data in
            do! (res, w) := w_write w data in
            match res with
            | Raise e => ret (Raise e, r, w)
            | Diverge => Ret Diverge
            | Ok _ => if (len data <? cs) || (dbw =? size) then ret (Ok dbw, r, w)
                      else copy_loop f r w size chunk_size dbw
            end
        end
    end.
  (** gitdb/fun.py:488-506; adding None to a number is a TypeError. *)
  Definition write_object_to (fuel : nat) (type : bytes) (size : Z) (r : R) (w : writer) (chunk_size : Z)
    : prog (res Z * R * writer) :=
    do! (res, w) := w_write w (loose_object_header type size) in
    match res with
    | Raise e => ret (Raise e, r, w)
    | Diverge => Ret Diverge
    | Ok None => ret (Raise TypeError, r, w)
    | Ok (Some n) =>
        do! (res, r, w) := copy_loop fuel r w size chunk_size 0 in
        ret (let! m := res in Ok (n + m), r, w)
    end.
End Writers.
Arguments WSha {K}. Arguments WFlex {K}. Arguments WZip {K}. Arguments WFDC {K}. Arguments WFD {K}.

(** ** LooseObjectDB *)

(** gitdb/base.py:203-281: IStream *)
Record istream (R : Type) := mk_istream {
  is_binsha : option bytes; is_type : bytes; is_size : Z; is_stream : R }.
Arguments mk_istream {R}. Arguments is_binsha {R}. Arguments is_type {R}. Arguments is_size {R}. Arguments is_stream {R}.
(** gitdb/base.py:120-145: OStream *)
Record ostream (R : Type) := mk_ostream {
  ot_binsha : bytes; ot_type : bytes; ot_size : Z; ot_stream : R }.
Arguments mk_ostream {R}. Arguments ot_binsha {R}. Arguments ot_type {R}. Arguments ot_size {R}. Arguments ot_stream {R}.

(** gitdb/db/loose.py:76-83: _root_path, _hexsha_to_file, _fd_open_flags (O_NOATIME or 0). *)
Record ldb := mk_ldb { l_root : path; l_cache : list (bytes * path); l_noatime : bool }.
Definition loose_init (root : path) (has_noatime : bool) : ldb := mk_ldb root [] has_noatime.

Fixpoint cache_get (h : bytes) (l : list (bytes * path)) : option path :=
  match l with
  | [] => None
  | (k, p) :: l' => if beq k h then Some p else cache_get h l'
  end.

(** gitdb/db/loose.py:86-90 and gitdb/db/base.py:121-125; names of at least two hex digits. *)
Definition object_path (hexsha : bytes) : path := [slice_to hexsha 2; slice_from hexsha 2].
Definition db_path (root : path) (rela : path) : path := root ++ rela.

(** gitdb/db/loose.py:92-106 *)
Definition readable_db_object_path (db : ldb) (hexsha : bytes) : prog (path * ldb) :=
  match cache_get hexsha (l_cache db) with
  | Some p => ret (p, db)
  | None =>
      let p := db_path (l_root db) (object_path hexsha) in
      do! e := sysv (Exists p) in
      if e then ret (p, mk_ldb (l_root db) ((hexsha, p) :: l_cache db) (l_noatime db))
      else throw BadObject
  end.
(** gitdb/db/loose.py:168-174 *)
Definition has_object (db : ldb) (sha : bytes) : prog (bool * ldb) :=
  after (readable_db_object_path db (bin_to_hex sha)) (fun r =>
    match r with
    | Ok (_, db) => ret (true, db)
    | Raise BadObject => ret (false, db)
    | Raise e => throw e
    | Diverge => Ret Diverge
    end).

(** gitdb/util.py:165-202 with allow_mmap: open, map, close. *)
Definition file_contents_ro_filepath (noatime : bool) (p : path) : prog bytes :=
  do! fd := sysr (OpenRead noatime p) in finally (sysr (Map fd)) (sysr (Close fd)).
(** Whether an exception is an OSError, and whether its errno is ENOENT. *)
Definition is_oserror (e : exn) : bool :=
  match e with OSError | FileNotFound | PermissionError => true | _ => false end.
Definition is_enoent (e : exn) : bool := match e with FileNotFound => true | _ => false end.
(** gitdb/db/loose.py:128-146; line 142 is not reachable, so the flags never change. *)
Definition map_loose_object (db : ldb) (sha : bytes) : prog bytes :=
  let p := db_path (l_root db) (object_path (bin_to_hex sha)) in
  catch (file_contents_ro_filepath (l_noatime db) p) (fun e =>
    if is_oserror e then
      if negb (is_enoent e) then
        catch (file_contents_ro_filepath false p) (fun e' => throw (if is_oserror e' then BadObject else e'))
      else throw BadObject
    else throw e).

Section Loose.
  Context (K : zlib) (sha1 : bytes -> bytes) (pagesize : Z).
  (** gitdb/fun.py:52: chunk_size, gitdb/db/loose.py:69: stream_chunk_size *)
  Definition stream_chunk_size : Z := 1000 * pagesize.

  (** gitdb/db/loose.py:154-162 *)
  Definition info (db : ldb) (sha : bytes) : prog (bytes * bytes * Z) :=
    do! m := map_loose_object db sha in
    Ret (let! (typ, size) := loose_object_header_info K m in Ok (sha, typ, size)).
  (** gitdb/db/loose.py:163-166 *)
  Definition stream (fuel : nat) (db : ldb) (sha : bytes) : prog (ostream (reader K)) :=
    do! m := map_loose_object db sha in
    Ret (let! (type, size, r) := reader_new K fuel m in Ok (mk_ostream sha type size r)).

  (** gitdb/db/loose.py:230-242: 14 attempts, sleeping in between; only PermissionError is
      ignored. *)
  Fixpoint chmod_loop (n : nat) (p : path) : prog unit :=
    match n with
    | O => throw PermissionError
    | S n' => after (sysr (Chmod p)) (fun r =>
                match r with
                | Ok _ => ret tt
                | Raise PermissionError => chmod_loop n' p
                | Raise e => throw e
                | Diverge => Ret Diverge
                end)
    end.

  Context {R : Type} (read : R -> Z -> res (bytes * R)).
  Definition obj_prefix : bytes := [111; 98; 106].

  (** gitdb/db/loose.py:211-242: from the temporary file to the object file. *)
  Definition publish (root tmp : path) (hexsha : bytes) : prog unit :=
    let obj_path := db_path root (object_path hexsha) in
    do! _ := sysr (Makedirs (dirname obj_path)) in
    do! there := sysv (Isfile obj_path) in
    do! _ := (if there then sysr (Remove tmp) else sysr (Rename tmp obj_path)) in
    chmod_loop 14 obj_path.

  (** gitdb/db/loose.py:189-198: what is written to the writer. *)
  Definition feed (fuel : nat) (w : writer K) (i : istream R) : prog (res Z * R * writer K) :=
    match is_binsha i with
    | Some _ => copy_loop K read fuel (is_stream i) w maxsize stream_chunk_size 0
    | None => write_object_to K read fuel (is_type i) (is_size i) (is_stream i) w stream_chunk_size
    end.
  (** gitdb/db/loose.py:187-205: with the writer closed and, after an error, the temporary
      file removed. *)
  Definition fill (fuel : nat) (tmp : option path) (w : writer K) (i : istream R) : prog (R * writer K) :=
    on_error
      (do! (res, r, w) := feed fuel w i in
       match res with
       | Diverge => Ret Diverge
       | _ => do! _ := (match tmp with Some _ => w_close K w | None => ret tt end) in
              Ret (let! _ := res in Ok (r, w))
       end)
      (match tmp with Some t => sysr (Remove t) | None => ret tt end).
  (** gitdb/db/loose.py:176-251.  [out] is the writer set with set_ostream, if any; it is
      given back as it is afterwards. *)
  Definition store (fuel : nat) (db : ldb) (out : option (writer K)) (i : istream R)
    : prog (istream R * option (writer K)) :=
    do! (tmp, w) :=
      match out with
      | Some w => ret (None, w)
      | None =>
          do! (t, fd) := sysr (Mkstemp obj_prefix (l_root db)) in
          ret (Some t, match is_binsha i with None => WFDC fd [] (zc_new K 1) | Some _ => WFD fd 0 end)
      end in
    do! (r, w) := fill fuel tmp w i in
    do! hexsha :=
      match is_binsha i with
      | Some (b :: s) => ret (bin_to_hex (b :: s))
      | _ => do! s := w_sha K sha1 w in ret (bin_to_hex s)
      end in
    do! _ := match tmp with Some t => publish (l_root db) t hexsha | None => ret tt end in
    Ret (let! s := hex_to_bin hexsha in
         Ok (mk_istream (Some s) (is_type i) (is_size i) r,
             match out with Some _ => Some w | None => None end)).
End Loose.

(** gitdb/db/loose.py:253-266: the names of the files that look like objects, in the order
    of os.walk; an exception ends the iteration where it occurs. *)
Fixpoint shas_of (files : list path) : list (res bytes) :=
  match files with
  | [] => []
  | p :: files' =>
      let root_base := basename (dirname p) in
      let f := basename p in
      if negb (len root_base =? 2) || negb (len f =? 38) then shas_of files'
      else match hex_to_bin (root_base ++ f) with
           | Ok s => Ok s :: shas_of files'
           | r => [r]
           end
  end.
Definition sha_iter (db : ldb) : prog (list (res bytes)) :=
  do! files := sysv (Walk (l_root db)) in ret (shas_of files).
Fixpoint all_ok {A} (l : list (res A)) : res (list A) :=
  match l with
  | [] => Ok []
  | r :: l' => let! a := r in let! t := all_ok l' in Ok (a :: t)
  end.
(** gitdb/db/loose.py:268-269 *)
Definition loose_size (db : ldb) : prog Z :=
  do! l := sha_iter db in Ret (let! l := all_ok l in Ok (len l)).
(** gitdb/db/loose.py:108-124 *)
Fixpoint partial_loop (partial : bytes) (l : list (res bytes)) (candidate : option bytes) : res bytes :=
  match l with
  | [] => match candidate with None => Raise BadObject | Some c => Ok c end
  | r :: l' =>
      let! binsha := r in
      if startswith (bin_to_hex binsha) partial then
        match candidate with
        | Some _ => Raise AmbiguousObjectName
        | None => partial_loop partial l' (Some binsha)
        end
      else partial_loop partial l' candidate
  end.
Definition partial_to_complete_sha_hex (db : ldb) (partial : bytes) : prog bytes :=
  do! l := sha_iter db in Ret (partial_loop partial l None).
