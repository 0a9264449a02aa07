(** Model of pack files, gitdb/pack.py:76-167 and 504-1004: pack_object_at,
    write_stream_to_pack, PackFile, PackEntity.  Definitions only.
    zlib, SHA-1 and mmap.PAGESIZE are parameters.  A file is the byte string its cursor maps.
    Simplification: smmap's window covers the rest of the file (it is at least 64 MB, 1 GB
    on 64-bit systems), so [use_region(offset).buffer()] is everything from offset on. *)
From Verif Require Import Py FunModel IndexModel ZlibModel ReaderModel DeltaModel DeltaReaderModel Crc32.

(** [cursor.use_region(offset).buffer()].  Outside the file smmap fails or gives an empty
    view, whose first byte is then asked for: an exception either way. *)
Definition region (data : bytes) (offset : Z) : res bytes :=
  if (0 <=? offset) && (offset <? len data) then Ok (slice_from data offset) else Raise IndexError.

(** gitdb/pack.py:84: None, an offset or a sha *)
Inductive delta_info := NoDelta | OfsDelta (distance : Z) | RefDelta (sha : bytes).

Section Pack.
  Context (K : zlib).
  Variable sha1 : bytes -> bytes.
  Variable pagesize : Z.
  (** gitdb/fun.py:54 *)
  Definition chunk_size : Z := 1000 * pagesize.

  (** OPackInfo/OPackStream/ODeltaPackInfo/ODeltaPackStream, gitdb/base.py:65-185.  The info
      objects are the same without the stream. *)
  Record pobj := mk_pobj { po_offset : Z; po_type_id : Z; po_size : Z; po_delta : delta_info; po_stream : reader K }.

  (** gitdb/pack.py:76-127 *)
  Definition pack_object_at (data : bytes) (offset : Z) : res (Z * pobj) :=
    let! data := region data offset in
    let! (type_id, uncomp_size, data_rela_offset) := pack_object_header_info data in
    let! (delta, total_rela_offset) :=
      (if type_id =? OFS_DELTA then
         let! (d, i) := ofs_delta_info data data_rela_offset in Ok (OfsDelta d, i)
       else if type_id =? REF_DELTA then
         let t := data_rela_offset + 20 in
         Ok (RefDelta (slice data data_rela_offset t), t)
       else Ok (NoDelta, data_rela_offset)) in
    Ok (offset + total_rela_offset,
        mk_pobj offset type_id uncomp_size delta
          (reader_init K (slice_from data total_rela_offset) (Some uncomp_size))).

  (** ** PackFile *)
  (** gitdb/pack.py:533-542: version and object count *)
  Definition pack_open (data : bytes) : res (Z * Z) :=
    let! sig := unpack_be 4 data 0 in
    let! version := unpack_be 4 data 4 in
    let! size := unpack_be 4 data 8 in
    if sig =? 1346454347 then Ok (version, size) else Raise ParseError.
  (** gitdb/pack.py:584-586 *)
  Definition pack_checksum (data : bytes) : res bytes := region data (len data - 20).
  Definition first_object_offset : Z := 12.
  Definition footer_size : Z := 20.

  (** NullStream.write, gitdb/stream.py:722-724 *)
  Definition null_write (w : unit) (d : bytes) : res (Z * unit) := Ok (len d, w).

  (** gitdb/pack.py:552-564: one round of the loop: the object yielded and the next offset *)
  Definition iter_step (fuel : nat) (data : bytes) (cur_offset : Z) : res (pobj * Z) :=
    let! (data_offset, o) := pack_object_at data cur_offset in
    let! (_, r, _) := stream_copy (read fuel) null_write fuel (po_stream o) tt (po_size o) chunk_size in
    py_assert (r_br r =? po_size o)
      (let! (n, r) := compressed_bytes_read pagesize fuel r in
       let next := cur_offset + ((data_offset - po_offset o) + n) in
       let! r := seek r 0 0 in
       Ok (mk_pobj (po_offset o) (po_type_id o) (po_size o) (po_delta o) r, next)).
  (** gitdb/pack.py:544-566: everything the generator yields (an exception in the middle is
      the result as a whole) *)
  Fixpoint iter_loop (rounds fuel : nat) (data : bytes) (content_size cur_offset : Z) : res (list pobj) :=
    match rounds with
    | O => Diverge
    | S k =>
        if cur_offset <? content_size then
          let! (o, next) := iter_step fuel data cur_offset in
          let! l := iter_loop k fuel data content_size next in
          Ok (o :: l)
        else Ok []
    end.
  Definition stream_iter (fuel : nat) (data : bytes) (start_offset : Z) : res (list pobj) :=
    iter_loop fuel fuel data (len data - footer_size)
      (if start_offset =? 0 then first_object_offset else start_offset).

  (** gitdb/pack.py:597-620.  (The code tests type_id, here the delta information is looked
      at; pack_object_at sets the one according to the other.) *)
  Fixpoint collect_streams (fuel : nat) (data : bytes) (offset : Z) : res (list pobj) :=
    match fuel with
    | O => Diverge
    | S f =>
        let! (_, o) := pack_object_at data offset in
        match po_delta o with
        | OfsDelta d => let! l := collect_streams f data (po_offset o - d) in Ok (o :: l)
        | _ => Ok [o]
        end
    end.
  (** gitdb/pack.py:626-641: PackFile.info and PackFile.stream *)
  Definition pack_stream (data : bytes) (offset : Z) : res pobj :=
    let! (_, o) := pack_object_at data (if offset =? 0 then first_object_offset else offset) in Ok o.

  (** ** PackEntity *)
  Record entity := mk_entity { en_index : pidx; en_pack : bytes }.

  (** sorted() *)
  Fixpoint insert_z (x : Z) (l : list Z) : list Z :=
    match l with [] => [x] | y :: l' => if y <? x then y :: insert_z x l' else x :: l end.
  Fixpoint sort_z (l : list Z) : list Z := match l with [] => [] | x :: l' => insert_z x (sort_z l') end.
  (** dict(pairs)[k]: the last pair with that key *)
  Fixpoint dict_get (k : Z) (pairs : list (Z * Z)) (found : res Z) : res Z :=
    match pairs with
    | [] => found
    | (a, b) :: l => dict_get k l (if a =? k then Ok b else found)
    end.
  (** gitdb/pack.py:677-700 (the case of one offset is the general one) and a lookup in the
      map *)
  Definition next_offset (e : entity) (offset : Z) : res Z :=
    let! l := ix_offsets (en_index e) in
    let offsets_sorted := sort_z l in
    let last_offset := len (en_pack e) - footer_size in
    py_assert (negb (len offsets_sorted =? 0))
      (dict_get offset (combine offsets_sorted (slice_from offsets_sorted 1 ++ [last_offset])) (Raise KeyError)).

  (** gitdb/pack.py:702-707 *)
  Definition entity_index (e : entity) (sha : bytes) : res Z :=
    let! i := sha_to_index (en_index e) sha in
    match i with Some i => Ok i | None => Raise BadObject end.

  (** gitdb/pack.py:877-895: following a REF delta.  [stream] is the last one collected. *)
  Fixpoint resolve_loop (fuel : nat) (e : entity) (stream : pobj) : res (list pobj) :=
    match fuel with
    | O => Diverge
    | S f =>
        match po_delta stream with
        | NoDelta => Ok []
        | RefDelta sha =>
            let! i := sha_to_index (en_index e) sha in
            match i with
            | None => Ok []
            | Some i =>
                let! off := ix_offset (en_index e) i in
                let! s := pack_stream (en_pack e) off in
                let! l := resolve_loop f e s in Ok (s :: l)
            end
        | OfsDelta d =>
            let! s := pack_stream (en_pack e) d in
            let! l := resolve_loop f e s in Ok (s :: l)
        end
    end.
  (** gitdb/pack.py:865-898 *)
  Definition collect_streams_at_offset (fuel : nat) (e : entity) (offset : Z) : res (list pobj) :=
    let! streams := collect_streams fuel (en_pack e) offset in
    let! last := index streams (-1) in
    match po_delta last with
    | RefDelta _ => let! l := resolve_loop fuel e last in Ok (streams ++ l)
    | _ => Ok streams
    end.
  (** gitdb/pack.py:900-912 *)
  Definition entity_collect_streams (fuel : nat) (e : entity) (sha : bytes) : res (list pobj) :=
    let! i := entity_index e sha in
    let! off := ix_offset (en_index e) i in
    collect_streams_at_offset fuel e off.

  Definition is_delta_type (t : Z) : bool := (t =? OFS_DELTA) || (t =? REF_DELTA).

  (** gitdb/pack.py:735-757 with as_stream=False: OInfo *)
  Definition info_at (fuel : nat) (e : entity) (sha : bytes) (i : Z) : res oinfo :=
    let! offset := ix_offset (en_index e) i in
    let! d := region (en_pack e) offset in
    let! (type_id, uncomp_size, _) := pack_object_header_info d in
    if negb (is_delta_type type_id) then
      let! t := type_id_to_type type_id in Ok (mk_oinfo sha t uncomp_size)
    else
      let! streams := collect_streams_at_offset fuel e offset in
      let! s0 := index streams 0 in
      let! (buf, _) := read fuel (po_stream s0) 512 in
      let! (o, _) := msb_size buf 0 in
      let! (_, target_size) := msb_size buf o in
      let! last := index streams (-1) in
      if is_delta_type (po_type_id last) then Raise BadObject
      else let! t := type_id_to_type (po_type_id last) in Ok (mk_oinfo sha t target_size).

  (** OStream and ODeltaStream, gitdb/base.py:120-152: sha, type and one of the two kinds of
      stream; the size of the second is the reader's.  (DeltaApplyReader works lazily; as in
      DeltaReaderModel.v its work is done at construction here.) *)
  Inductive ostream :=
  | OPlain (sha : bytes) (type : pystr) (size : Z) (stream : reader K)
  | ODelta (sha : bytes) (type : pystr) (stream : dar).
  Definition os_type (o : ostream) : pystr := match o with OPlain _ t _ _ => t | ODelta _ t _ => t end.
  Definition os_size (o : ostream) : Z := match o with OPlain _ _ n _ => n | ODelta _ _ s => dr_size s end.
  Definition os_read (fuel : nat) (o : ostream) (n : Z) : res (bytes * ostream) :=
    match o with
    | OPlain sha t size s => let! (d, s) := read fuel s n in Ok (d, OPlain sha t size s)
    | ODelta sha t s => let (d, s) := dar_read s n in Ok (d, ODelta sha t s)
    end.

  (** OStream delegates to its stream (gitdb/base.py:137-142: the attribute is handed out);
      seek(0) of either kind. *)
  Definition os_seek0 (o : ostream) : res ostream :=
    match o with
    | OPlain sha t size s => let! s := seek s 0 0 in Ok (OPlain sha t size s)
    | ODelta sha t s => let! s := dar_seek s 0 0 in Ok (ODelta sha t s)
    end.

  (** gitdb/pack.py:717-734 with as_stream=True.  DeltaApplyReader.new takes the list with
      the base last; a chain without base is a ValueError. *)
  Definition stream_at (fuel : nat) (e : entity) (sha : bytes) (i : Z) : res ostream :=
    let! offset := ix_offset (en_index e) i in
    let! d := region (en_pack e) offset in
    let! (type_id, uncomp_size, _) := pack_object_header_info d in
    if negb (is_delta_type type_id) then
      let! o := pack_stream (en_pack e) offset in
      let! t := type_id_to_type (po_type_id o) in
      Ok (OPlain sha t (po_size o) (po_stream o))
    else
      let! streams := collect_streams_at_offset fuel e offset in
      let! last := index streams (-1) in
      let! st := dar_new (read fuel) fuel (map (fun o => (po_stream o, po_size o)) (slice_to streams (-1)))
                   (po_stream last) (po_size last) (po_type_id last) in
      let! t := type_id_to_type (po_type_id last) in
      Ok (ODelta sha t st).

  (** gitdb/pack.py:761-775 *)
  Definition entity_info (fuel : nat) (e : entity) (sha : bytes) : res oinfo :=
    let! i := entity_index e sha in info_at fuel e sha i.
  Definition entity_stream (fuel : nat) (e : entity) (sha : bytes) : res ostream :=
    let! i := entity_index e sha in stream_at fuel e sha i.
  (** gitdb/pack.py:777-784 with 709-715 and 723-725 *)
  Definition info_at_index (fuel : nat) (e : entity) (i : Z) : res oinfo :=
    info_at fuel e (ix_sha (en_index e) i) i.
  Definition stream_at_index (fuel : nat) (e : entity) (i : Z) : res ostream :=
    stream_at fuel e (ix_sha (en_index e) i) i.

  (** gitdb/pack.py:709-715: everything the generator yields (an exception in the middle is
      the result as a whole); range(n) as the numbers from [i] on *)
  Fixpoint each_object {A} (object : bytes -> Z -> res A) (e : entity) (n : nat) (i : Z) : res (list A) :=
    match n with
    | O => Ok []
    | S n' =>
        let! o := object (ix_sha (en_index e) i) i in
        let! l := each_object object e n' (i + 1) in Ok (o :: l)
    end.
  Definition iter_objects {A} (object : bytes -> Z -> res A) (e : entity) : res (list A) :=
    let! n := ix_size (en_index e) in each_object object e (Z.to_nat n) 0.
  (** gitdb/pack.py:851-863 *)
  Definition entity_info_iter (fuel : nat) (e : entity) : res (list oinfo) := iter_objects (info_at fuel e) e.
  Definition entity_stream_iter (fuel : nat) (e : entity) : res (list ostream) := iter_objects (stream_at fuel e) e.

  (** gitdb/pack.py:830-835 *)
  Fixpoint crc_loop (fuel : nat) (pack_data : bytes) (cur_pos next : Z) (crc : Z) : res Z :=
    match fuel with
    | O => Diverge
    | S f =>
        if cur_pos <? next then
          let rbound := Z.min (cur_pos + chunk_size) next in
          let size := rbound - cur_pos in
          crc_loop f pack_data (cur_pos + size) next (crc32 (slice pack_data cur_pos (cur_pos + size)) crc)
        else Ok crc
    end.
  (** gitdb/pack.py:816-840, use_crc=True *)
  Definition is_valid_crc (fuel : nat) (e : entity) (sha : bytes) : res bool :=
    if ix_version (en_index e) <? 2 then Raise UnsupportedOperation
    else
      let! i := entity_index e sha in
      let! offset := ix_offset (en_index e) i in
      let! next := next_offset e offset in
      let! crc_value := ix_crc (en_index e) i in
      let! this := crc_loop fuel (en_pack e) offset next 0 in
      Ok (Z.land this 4294967295 =? crc_value).

  (** Sha1Writer.write: the state is everything written so far *)
  Definition sha_write (w : bytes) (d : bytes) : res (Z * bytes) := Ok (len d, w ++ d).
  (** force_text(stream.type) of a type name, gitdb/fun.py:485 *)
  Definition type_text (t : pystr) : bytes := match t with PBytes b => b | PStr b => b end.
  (** gitdb/pack.py:842-849, use_crc=False *)
  Definition is_valid_sha (fuel : nat) (e : entity) (sha : bytes) : res bool :=
    let! stream := entity_stream fuel e sha in
    let! (_, _, w) := write_object (os_read fuel) sha_write fuel (type_text (os_type stream)) (os_size stream)
                        stream [] chunk_size in
    py_assert (beq (sha1 w) sha) (Ok (beq (sha1 w) sha)).

  (** ** Writing packs *)
  Section Write.
    Context {R : Type}.
    Variable oread : R -> Z -> res (bytes * R).

    (** gitdb/pack.py:130-167: bytes read, crc, everything written. *)
    Fixpoint wstp_loop (fuel : nat) (r : R) (z : zc K) (br crc : Z) (out : bytes) : res (Z * Z * bytes * zc K * R) :=
      match fuel with
      | O => Diverge
      | S f =>
          let! (chunk, r) := oread r chunk_size in
          let br := br + len chunk in
          let (compressed, z) := zc_compress K z chunk in
          let crc := crc32 compressed crc in
          let out := out ++ compressed in
          if negb (len chunk =? chunk_size) then Ok (br, crc, out, z, r)
          else wstp_loop f r z br crc out
      end.
    Definition write_stream_to_pack (fuel : nat) (r : R) (z : zc K) (base_crc : Z) : res (Z * Z * bytes) :=
      let! (br, crc, out, z, r) := wstp_loop fuel r z 0 base_crc [] in
      let compressed := zc_flush K z in
      Ok (br, crc32 compressed crc, out ++ compressed).

    (** An object to be written: type name, size, sha and stream (gitdb/base.py). *)
    Record wobj := mk_wobj { wo_type : pystr; wo_size : Z; wo_binsha : bytes; wo_stream : R }.

    (** gitdb/pack.py:960-981, one object: what is written and its index entry *)
    Definition write_one (fuel : nat) (level : Z) (o : wobj) (ofs : Z) : res (bytes * ientry) :=
      let! type_id := type_to_type_id (wo_type o) in
      let! hdr := create_pack_object_header type_id (wo_size o) in
      let! (br, crc, out) := write_stream_to_pack fuel (wo_stream o) (zc_new K level) (crc32 hdr 0) in
      py_assert (br =? wo_size o) (Ok (hdr ++ out, (wo_binsha o, crc, ofs))).
    (** gitdb/pack.py:956-985: the loop; returns what was written, the index entries and
        actual_count *)
    Fixpoint write_objs (fuel : nat) (level : Z) (objs : list wobj) (object_count actual ofs : Z)
      : res (bytes * list ientry * Z) :=
      match objs with
      | [] => Ok ([], [], actual)
      | o :: objs' =>
          let! (d, en) := write_one fuel level o ofs in
          if actual + 1 =? object_count then Ok (d, [en], actual + 1)
          else
            let! (d', ens, n) := write_objs fuel level objs' object_count (actual + 1) (ofs + len d) in
            Ok (d ++ d', en :: ens, n)
      end.
    (** gitdb/pack.py:915-1004 with an index writer: the pack, the pack sha, the index, the
        index sha.  [object_count] None or 0 means counting.  (What has been written when an
        exception is raised is not modelled.  The crc is computed in the same way without an
        index writer, where the code leaves it out.) *)
    Definition write_pack (fuel : nat) (level : Z) (objs : list wobj) (object_count : option Z)
      : res (bytes * bytes * bytes * bytes) :=
      let count := match object_count with None => len objs | Some n => if n =? 0 then len objs else n end in
      let! cnt := pack_L count in
      let hdr := be_enc 4 1346454347 ++ be_enc 4 2 ++ cnt in
      let! (d, ens, actual) := write_objs fuel level objs count 0 12 in
      if negb (actual =? count) then Raise ValueError
      else
        let body := hdr ++ d in
        let pack_sha := sha1 body in
        py_assert (len pack_sha =? 20)
          (let! (idx, idx_sha) := index_write sha1 ens pack_sha in
           Ok (body ++ pack_sha, pack_sha, idx, idx_sha)).
  End Write.
End Pack.
Arguments mk_pobj {K}. Arguments po_offset {K}. Arguments po_type_id {K}. Arguments po_size {K}.
Arguments po_delta {K}. Arguments po_stream {K}. Arguments OPlain {K}. Arguments ODelta {K}.
Arguments os_type {K}. Arguments os_size {K}. Arguments os_read {K}. Arguments os_seek0 {K}.
Arguments mk_wobj {R}. Arguments wo_type {R}. Arguments wo_size {R}. Arguments wo_binsha {R}. Arguments wo_stream {R}.
