(** DecompressMemMapReader on a system with zlib 1.2.5 or 1.2.7 (and not macOS): the first
    branch at gitdb/stream.py:297-298, in which the data after the end of the stream is not
    subtracted from the number of compressed bytes.  The rest is as in ReaderModel.v. *)
From Verif Require Import Py FunModel ZlibModel ReaderModel PackModel.

Section OldReader.
  Context {K : zlib}.

  (** gitdb/stream.py:281-307 with the branch of line 298 *)
  Definition inflate_some_old (r : reader K) (size : Z) : res (bytes * reader K) :=
    let (ws, we) := window (r_cws r) (r_cwe r) (zs_tail K (r_zip r)) size in
    let indata := slice (r_m r) ws we in
    if size <? 0 then Raise ValueError
    else
      let! (dcompdat, zip) := zs_decompress K (r_zip r) indata size in
      let unused_datalen := len (zs_tail K zip) in
      Ok (dcompdat,
          mk_reader (r_m r) zip (r_buf r) (r_buflen r) (r_s r) (r_br r + len dcompdat) ws (ws + len indata)
            (r_cbr r + (len indata - unused_datalen)) (r_phi r)).

  (** gitdb/stream.py:214-319 *)
  Fixpoint read_s_old (fuel : nat) (s : Z) (r : reader K) (size : Z) : res (bytes * reader K) :=
    match fuel with
    | O => Diverge
    | S f =>
        let size := if size <? 1 then s - r_br r else Z.min size (s - r_br r) in
        if size =? 0 then Ok ([], r)
        else
          match r_buf r with
          | Some b =>
              if size <=? r_buflen r then
                let (dat, b) := bio_read b size in
                Ok (dat, with_buf r (Some b) (r_buflen r - size) (r_br r + size))
              else
                let dat := b in
                let size := size - r_buflen r in
                read_rest_old f s (with_buf r None 0 (r_br r + r_buflen r)) dat size
          | None => read_rest_old f s r [] size
          end
    end
  with read_rest_old (fuel : nat) (s : Z) (r : reader K) (dat : bytes) (size : Z) : res (bytes * reader K) :=
    match fuel with
    | O => Diverge
    | S f =>
        let! (out, r) := inflate_some_old r size in
        let dcompdat := dat ++ out in
        if negb (len dcompdat =? 0) && (len dcompdat - len dat <? size) && (r_br r <? s) then
          let! (more, r) := read_s_old f s r (size - len dcompdat) in
          Ok (dcompdat ++ more, r)
        else Ok (dcompdat, r)
    end.

  (** gitdb/stream.py:91-119 *)
  Definition parse_header_info_old (fuel : nat) (r : reader K) : res (bytes * Z * reader K) :=
    let maxb := 8192 in
    let r := mk_reader (r_m r) (r_zip r) (r_buf r) (r_buflen r) (Some maxb) (r_br r) (r_cws r) (r_cwe r) (r_cbr r) (r_phi r) in
    let! (hdr, r) := read_s_old fuel maxb r maxb in
    let hdrend := find NULL_BYTE hdr in
    let! (typ, size) := parse_loose_header hdr in
    let hdrend := hdrend + 1 in
    Ok (typ, size,
        mk_reader (r_m r) (r_zip r) (Some (slice_from hdr hdrend)) (len hdr - hdrend) (Some size) 0
          (r_cws r) (r_cwe r) (r_cbr r) true).

  (** gitdb/util.py:248-255 and gitdb/stream.py:85-89 *)
  Definition get_s_old (fuel : nat) (r : reader K) : res (Z * reader K) :=
    match r_s r with
    | Some s => Ok (s, r)
    | None => let! (_, s, r) := parse_header_info_old fuel r in Ok (s, r)
    end.
  (** gitdb/stream.py:214 *)
  Definition read_old (fuel : nat) (r : reader K) (size : Z) : res (bytes * reader K) :=
    let! (s, r) := get_s_old fuel r in read_s_old fuel s r size.
  (** gitdb/stream.py:122-134 *)
  Definition reader_new_old (fuel : nat) (m : bytes) : res (bytes * Z * reader K) :=
    parse_header_info_old fuel (reader_init K m (Some 0)).

  (** gitdb/stream.py:183-186 *)
  Definition scrub_step_old (pagesize : Z) (fuel : nat) (r : reader K) : res (reader K + reader K) :=
    if (len (zs_unused K (r_zip r)) =? 0) && negb (r_cbr r =? len (r_m r)) then
      let! (_, r) := read_old fuel r pagesize in Ok (inl r)
    else Ok (inr r).
  (** gitdb/stream.py:151-196 *)
  Definition compressed_bytes_read_old (pagesize : Z) (fuel : nat) (r : reader K) : res (Z * reader K) :=
    let! (s, r) := get_s_old fuel r in
    if (r_br r =? s) && (len (zs_unused K (r_zip r)) =? 0) then
      let r := with_buf r (r_buf r) (r_buflen r) 0 in
      let! r := while fuel (scrub_step_old pagesize fuel) r in
      let! (s, r) := get_s_old fuel r in
      Ok (r_cbr r, with_buf r (r_buf r) (r_buflen r) s)
    else Ok (r_cbr r, r).

  (** gitdb/pack.py:544-566, PackFile.stream_iter, with this reader *)
  Definition iter_step_old (pagesize : Z) (fuel : nat) (data : bytes) (cur_offset : Z) : res (pobj K * Z) :=
    let! (data_offset, o) := pack_object_at K data cur_offset in
    let! (_, r, _) := stream_copy (read_old fuel) null_write fuel (po_stream o) tt (po_size o) (chunk_size pagesize) in
    py_assert (r_br r =? po_size o)
      (let! (n, r) := compressed_bytes_read_old pagesize fuel r in
       let next := cur_offset + ((data_offset - po_offset o) + n) in
       let! r := seek r 0 0 in
       Ok (mk_pobj (po_offset o) (po_type_id o) (po_size o) (po_delta o) r, next)).
  Fixpoint iter_loop_old (pagesize : Z) (rounds fuel : nat) (data : bytes) (content_size cur_offset : Z) : res (list (pobj K)) :=
    match rounds with
    | O => Diverge
    | S k =>
        if cur_offset <? content_size then
          let! (o, next) := iter_step_old pagesize fuel data cur_offset in
          let! l := iter_loop_old pagesize k fuel data content_size next in
          Ok (o :: l)
        else Ok []
    end.
  Definition stream_iter_old (pagesize : Z) (fuel : nat) (data : bytes) (start_offset : Z) : res (list (pobj K)) :=
    iter_loop_old pagesize fuel fuel data (len data - footer_size)
      (if start_offset =? 0 then first_object_offset else start_offset).
End OldReader.
