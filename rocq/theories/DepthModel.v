(** Python's limit on nested calls, for the read method of DecompressMemMapReader that calls
    itself. *)
From Verif Require Import Py FunModel ZlibModel ReaderModel.

Section Depth.
  Context {K : zlib}.
  (** gitdb/stream.py:214-319 with [s] the value of _s, as [read_s] in ReaderModel.v; but
      [depth] calls of read can be active at a time, this one among them; the next one raises
      RecursionError (sys.getrecursionlimit, 1000 by default).  Simplified: other calls do not
      count, and the limit is not reached inside the calls of BytesIO and zlib. *)
  Fixpoint read_nested (depth : nat) (s : Z) (r : reader K) (size : Z) : res (bytes * reader K) :=
    match depth with
    | O => Raise RecursionError
    | S deeper =>
        let size := if size <? 1 then s - r_br r else Z.min size (s - r_br r) in
        if size =? 0 then Ok ([], r)
        else
          let rest r dat size :=
            let! (out, r) := inflate_some r size in
            let dcompdat := dat ++ out in
            if negb (len dcompdat =? 0) && (len dcompdat - len dat <? size) && (r_br r <? s) then
              let! (more, r) := read_nested deeper s r (size - len dcompdat) in
              Ok (dcompdat ++ more, r)
            else Ok (dcompdat, r) in
          match r_buf r with
          | Some b =>
              if size <=? r_buflen r then
                let (dat, b) := bio_read b size in
                Ok (dat, with_buf r (Some b) (r_buflen r - size) (r_br r + size))
              else rest (with_buf r None 0 (r_br r + r_buflen r)) b (size - r_buflen r)
          | None => rest r [] size
          end
    end.
  (** gitdb/stream.py:91-119, as [parse_header_info] in ReaderModel.v *)
  Definition parse_nested (depth : nat) (r : reader K) : res (bytes * Z * reader K) :=
    let maxb := 8192 in
    let r := mk_reader (r_m r) (r_zip r) (r_buf r) (r_buflen r) (Some maxb) (r_br r) (r_cws r) (r_cwe r) (r_cbr r) (r_phi r) in
    let! (hdr, r) := read_nested depth maxb r maxb in
    let hdrend := find NULL_BYTE hdr in
    let! (typ, size) := parse_loose_header hdr in
    let hdrend := hdrend + 1 in
    Ok (typ, size,
        mk_reader (r_m r) (r_zip r) (Some (slice_from hdr hdrend)) (len hdr - hdrend) (Some size) 0
          (r_cws r) (r_cwe r) (r_cbr r) true).
  (** gitdb/stream.py:85-89, 214: the header is parsed when _s is first needed, within read. *)
  Definition limited_read (depth : nat) (r : reader K) (size : Z) : res (bytes * reader K) :=
    match depth with
    | O => Raise RecursionError
    | S deeper =>
        let! (s, r) := match r_s r with
                       | Some s => Ok (s, r)
                       | None => let! (_, s, r) := parse_nested deeper r in Ok (s, r)
                       end in
        read_nested depth s r size
    end.
End Depth.
