(** Model of PackEntity.create, gitdb/pack.py:1007-1029, with the writing of packs and indexes
    (gitdb/pack.py:130-167, 187-241 and 915-1004) as a program that calls the operating system.
    Definitions only.  zlib and SHA-1 are parameters.  Simplification: iterating over the objects
    and reading their streams makes no system calls. *)
From Verif Require Import Py FunModel IndexModel ZlibModel ReaderModel Crc32 PackModel OsModel PackDbModel.

Section Create.
  Context (K : zlib) (sha1 : bytes -> bytes) (pagesize : Z).
  Context {R : Type} (oread : R -> Z -> res (bytes * R)).

  (** FlexibleSha1Writer.write (gitdb/stream.py:600-602) around os.write (gitdb/pack.py:1016-1017),
      whose result is ignored.  The answer is what has been digested. *)
  Definition flex_write (fd : ino) (seen d : bytes) : prog bytes :=
    do! _ := sysr (Write fd d) in ret (seen ++ d).

  (** gitdb/pack.py:145-157 *)
  Fixpoint stream_to_fd (fuel : nat) (fd : ino) (seen : bytes) (r : R) (z : zc K) (br bw crc : Z)
    : prog (bytes * Z * Z * Z * zc K) :=
    match fuel with
    | O => Ret Diverge
    | S f =>
        do! (chunk, r) := Ret (oread r (chunk_size pagesize)) in
        let br := br + len chunk in
        let (compressed, z) := zc_compress K z chunk in
        let bw := bw + len compressed in
        do! seen := flex_write fd seen compressed in
        let crc := crc32 compressed crc in
        if negb (len chunk =? chunk_size pagesize) then ret (seen, br, bw, crc, z)
        else stream_to_fd f fd seen r z br bw crc
    end.
  (** gitdb/pack.py:130-167: digested; bytes read, bytes written, crc *)
  Definition stream_to_pack_fd (fuel : nat) (fd : ino) (seen : bytes) (r : R) (z : zc K) (base_crc : Z)
    : prog (bytes * Z * Z * Z) :=
    do! (seen, br, bw, crc, z) := stream_to_fd fuel fd seen r z 0 0 base_crc in
    let compressed := zc_flush K z in
    let bw := bw + len compressed in
    do! seen := flex_write fd seen compressed in
    ret (seen, br, bw, crc32 compressed crc).
  (** gitdb/pack.py:956-985: digested, index entries, actual_count *)
  Fixpoint objects_to_fd (fuel : nat) (fd : ino) (seen : bytes) (level : Z) (objs : list (wobj (R := R)))
    (object_count actual ofs : Z) : prog (bytes * list ientry * Z) :=
    match objs with
    | [] => ret (seen, [], actual)
    | o :: objs' =>
        do! type_id := Ret (type_to_type_id (wo_type o)) in
        do! hdr := Ret (create_pack_object_header type_id (wo_size o)) in
        do! seen := flex_write fd seen hdr in
        do! (seen, br, bw, crc) := stream_to_pack_fd fuel fd seen (wo_stream o) (zc_new K level) (crc32 hdr 0) in
        if br =? wo_size o then
          let en := (wo_binsha o, crc, ofs) in
          if actual + 1 =? object_count then ret (seen, [en], actual + 1)
          else
            do! (seen, ens, n) := objects_to_fd fuel fd seen level objs' object_count (actual + 1) (ofs + (len hdr + bw)) in
            ret (seen, en :: ens, n)
        else throw AssertionError
    end.

  (** [for x in l: sha_write(f(x))] *)
  Fixpoint each_to_fd {A} (fd : ino) (seen : bytes) (f : A -> res bytes) (l : list A) : prog bytes :=
    match l with
    | [] => ret seen
    | x :: l' => do! b := Ret (f x) in do! seen := flex_write fd seen b in each_to_fd fd seen f l'
    end.
  (** gitdb/pack.py:204-209 *)
  Fixpoint fanout_to_fd (fd : ino) (seen : bytes) (carry : Z) (tmp : list Z) : prog bytes :=
    match tmp with
    | [] => ret seen
    | v :: tmp' =>
        do! b := Ret (pack_L (carry + v)) in
        do! seen := flex_write fd seen b in
        fanout_to_fd fd seen (carry + v) tmp'
    end.
  (** gitdb/pack.py:220-229 *)
  Fixpoint offsets_to_fd (fd : ino) (seen : bytes) (l : list ientry) (big : list Z) : prog (bytes * list Z) :=
    match l with
    | [] => ret (seen, big)
    | e :: l' =>
        let ofs := e_ofs e in
        let big' := if 2147483647 <? ofs then big ++ [ofs] else big in
        let ofs := if 2147483647 <? ofs then 2147483648 + len big' - 1 else ofs in
        do! b := Ret (pack_L (Z.land ofs 4294967295)) in
        do! seen := flex_write fd seen b in
        offsets_to_fd fd seen l' big'
    end.
  (** IndexWriter.write, gitdb/pack.py:187-241 *)
  Definition index_to_fd (fd : ino) (objs : list ientry) (pack_sha : bytes) : prog bytes :=
    let objs := sort_entries objs in
    do! seen := flex_write fd [] index_v2_signature in
    do! ver := Ret (pack_L index_version_default) in
    do! seen := flex_write fd seen ver in
    do! tmp := Ret (fanout_counts objs (repeat 0 256)) in
    do! seen := fanout_to_fd fd seen 0 tmp in
    do! seen := flex_write fd seen (concat (map e_sha objs)) in
    do! seen := each_to_fd fd seen (fun e => pack_L (Z.land (e_crc e) 4294967295)) objs in
    do! (seen, big) := offsets_to_fd fd seen objs [] in
    do! seen := each_to_fd fd seen pack_Q big in
    if len pack_sha =? 20 then
      do! seen := flex_write fd seen pack_sha in
      let sha := sha1 seen in
      do! _ := sysr (Write fd sha) in
      ret sha
    else throw AssertionError.

  (** gitdb/pack.py:915-1004: pack_sha, index_sha *)
  Definition pack_to_fd (fuel : nat) (pack_fd index_fd : ino) (level : Z) (objs : list (wobj (R := R))) (object_count : option Z)
    : prog (bytes * bytes) :=
    let count := match object_count with None => len objs | Some n => if n =? 0 then len objs else n end in
    do! cnt := Ret (pack_L count) in
    do! seen := flex_write pack_fd [] (be_enc 4 1346454347 ++ be_enc 4 2 ++ cnt) in
    do! (seen, ens, actual) := objects_to_fd fuel pack_fd seen level objs count 0 12 in
    if negb (actual =? count) then throw ValueError
    else
      let pack_sha := sha1 seen in
      if len pack_sha =? 20 then
        do! _ := sysr (Write pack_fd pack_sha) in
        do! index_sha := index_to_fd index_fd ens pack_sha in
        ret (pack_sha, index_sha)
      else throw AssertionError.

  (** "pack-%s.%s" % (bin_to_hex(sha), ext), gitdb/pack.py:1023-1025: bin_to_hex gives bytes,
      whose text in Python 3 is b'...' (under python -bb this is an exception instead). *)
  Definition str_pack : bytes := [112; 97; 99; 107].
  Definition str_index : bytes := [105; 110; 100; 101; 120].
  Definition quoted (b : bytes) : bytes := [98; 39] ++ b ++ [39].
  Definition new_name (sha ext : bytes) : bytes := str_pack_dash ++ quoted (bin_to_hex sha) ++ ext.

  (** gitdb/pack.py:1007-1029; the answer is new_pack_path, which the returned PackEntity is
      made from (662-666: it stores two names and opens nothing). *)
  Definition create_pack (fuel : nat) (base_dir : path) (level : Z) (objs : list (wobj (R := R))) (object_count : option Z) : prog path :=
    do! (pack_path, pack_fd) := sysr (Mkstemp str_pack base_dir) in
    do! (index_path, index_fd) := sysr (Mkstemp str_index base_dir) in
    do! (pack_binsha, _) := pack_to_fd fuel pack_fd index_fd level objs object_count in
    do! _ := sysr (Close pack_fd) in
    do! _ := sysr (Close index_fd) in
    let new_pack_path := base_dir ++ [new_name pack_binsha str_dot_pack] in
    let new_index_path := base_dir ++ [new_name pack_binsha str_dot_idx] in
    do! _ := sysr (Rename pack_path new_pack_path) in
    do! _ := sysr (Rename index_path new_index_path) in
    ret new_pack_path.
End Create.
