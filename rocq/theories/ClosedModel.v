(** Model of closing a DecompressMemMapReader, gitdb/stream.py:90-91 and 140-149, and of
    reading one whose memory map was closed: every slice of a closed map is a ValueError. *)
From Verif Require Import Py FunModel ZlibModel ReaderModel.

Section Closed.
  Context {K : zlib}.

  (** The reader, its flag _close (gitdb/stream.py:83), whether _m has a method close (a
      memory map has one, bytes have none) and whether _m has not been closed. *)
  Record ostream := mk_ostream {
    o_reader : reader K;
    o_flag : bool;
    o_closable : bool;
    o_open : bool }.

  (** gitdb/stream.py:140-149.  The method has no return statement: the result is None. *)
  Definition close (o : ostream) : option bool * ostream :=
    (None,
     if o_flag o then mk_ostream (o_reader o) false (o_closable o) (if o_closable o then false else o_open o)
     else o).

  (** gitdb/stream.py:214-319 with [s] the value of _s and _m closed: the slice of line 282
      raises.  What was taken from the buffer before (lines 234-241) is lost.  The window
      (_cws, _cwe) is changed before the slice is taken; it is used for nothing but this
      slice, so that change is left out. *)
  Definition closed_s (s : Z) (r : reader K) (size : Z) : res bytes * reader K :=
    let size := if size <? 1 then s - r_br r else Z.min size (s - r_br r) in
    if size =? 0 then (Ok [], r)
    else
      match r_buf r with
      | Some b =>
          if size <=? r_buflen r then
            let (dat, b) := bio_read b size in
            (Ok dat, with_buf r (Some b) (r_buflen r - size) (r_br r + size))
          else (Raise ValueError, with_buf r None 0 (r_br r + r_buflen r))
      | None => (Raise ValueError, r)
      end.

  (** gitdb/stream.py:93-119 with _m closed. *)
  Definition closed_header (r : reader K) : res Z * reader K :=
    let maxb := 8192 in
    let r := mk_reader (r_m r) (r_zip r) (r_buf r) (r_buflen r) (Some maxb) (r_br r) (r_cws r) (r_cwe r) (r_cbr r) (r_phi r) in
    match closed_s maxb r maxb with
    | (Ok hdr, r) =>
        let hdrend := find NULL_BYTE hdr in
        match parse_loose_header hdr with
        | Ok (typ, size) =>
            let hdrend := hdrend + 1 in
            (Ok size,
             mk_reader (r_m r) (r_zip r) (Some (slice_from hdr hdrend)) (len hdr - hdrend) (Some size) 0
               (r_cws r) (r_cwe r) (r_cbr r) true)
        | Raise e => (Raise e, r)
        | Diverge => (Diverge, r)
        end
    | (Raise e, r) => (Raise e, r)
    | (Diverge, r) => (Diverge, r)
    end.

  (** gitdb/stream.py:214: the method, with _m closed. *)
  Definition read_closed (r : reader K) (size : Z) : res bytes * reader K :=
    match r_s r with
    | Some s => closed_s s r size
    | None =>
        match closed_header r with
        | (Ok s, r) => closed_s s r size
        | (Raise e, r) => (Raise e, r)
        | (Diverge, r) => (Diverge, r)
        end
    end.

  (** A read of the stream, open or closed.  What an exception leaves of an open stream is
      not modelled: it is left as it was. *)
  Definition ostream_read (fuel : nat) (o : ostream) (n : Z) : res bytes * ostream :=
    let with_reader r := mk_ostream r (o_flag o) (o_closable o) (o_open o) in
    if o_open o then
      match read fuel (o_reader o) n with
      | Ok (d, r) => (Ok d, with_reader r)
      | Raise e => (Raise e, o)
      | Diverge => (Diverge, o)
      end
    else let (d, r) := read_closed (o_reader o) n in (d, with_reader r).
  (** gitdb/stream.py:200-212 with arguments 0: nothing of it needs _m. *)
  Definition ostream_rewind (o : ostream) : ostream :=
    mk_ostream (rewind (o_reader o)) (o_flag o) (o_closable o) (o_open o).
End Closed.
Arguments ostream : clear implicits.
