(** Model of DecompressMemMapReader, gitdb/stream.py:46-319, and of the inflating half of
    loose_object_header_info, gitdb/fun.py:403-412.  zlib is a parameter (ZlibModel.v). *)
From Verif Require Import Py FunModel ZlibModel.

Section Reader.
  Context (K : zlib).

  (** The attributes set in __init__, gitdb/stream.py:69-83.  [r_s] is None while _s is
      deleted (the header is then parsed on the next access, lines 85-89 and
      gitdb/util.py:248-255).  [r_buf] holds the unread part of the BytesIO object; that
      object is true even when nothing is left of it.  The flag _close and closing are in
      ClosedModel.v. *)
  Record reader := mk_reader {
    r_m : bytes;
    r_zip : zs K;
    r_buf : option bytes;
    r_buflen : Z;
    r_s : option Z;
    r_br : Z;
    r_cws : Z;
    r_cwe : Z;
    r_cbr : Z;
    r_phi : bool }.
  Definition reader_init (m : bytes) (size : option Z) : reader :=
    mk_reader m (zs_new K) None 0 size 0 0 0 0 false.

  (** [BytesIO.read(n)]: everything for a negative n. *)
  Definition bio_read (b : bytes) (n : Z) : bytes * bytes :=
    if n <? 0 then (b, []) else (firstn (Z.to_nat n) b, skipn (Z.to_nat n) b).

  (** The new window (_cws, _cwe), gitdb/stream.py:257-279. *)
  Definition window (cws cwe : Z) (tail : bytes) (size : Z) : Z * Z :=
    let (ws, we) := if negb (len tail =? 0) then (cwe - len tail, cwe - len tail + size)
                    else (cwe, cws + size) in
    if we - ws <? 8 then (ws, ws + 8) else (ws, we).

  (** gitdb/stream.py:281-307: take the window, inflate, count.  A negative max_length is a
      ValueError of zlib (and 0 would mean no limit; it does not occur).  The branch of line
      298 for zlib 1.2.5 and 1.2.7 is in OldZlibModel.v. *)
  Definition inflate_some (r : reader) (size : Z) : res (bytes * reader) :=
    let (ws, we) := window (r_cws r) (r_cwe r) (zs_tail K (r_zip r)) size in
    let indata := slice (r_m r) ws we in
    if size <? 0 then Raise ValueError
    else
      let! (dcompdat, zip) := zs_decompress K (r_zip r) indata size in
      let unused_datalen := len (zs_tail K zip) + len (zs_unused K zip) in
      Ok (dcompdat,
          mk_reader (r_m r) zip (r_buf r) (r_buflen r) (r_s r) (r_br r + len dcompdat) ws (ws + len indata)
            (r_cbr r + (len indata - unused_datalen)) (r_phi r)).

  Definition with_buf (r : reader) (buf : option bytes) (buflen br : Z) : reader :=
    mk_reader (r_m r) (r_zip r) buf buflen (r_s r) br (r_cws r) (r_cwe r) (r_cbr r) (r_phi r).

  (** gitdb/stream.py:214-319 with [s] the value of _s.  Recursion is not bounded by
      Python's recursion limit here. *)
  Fixpoint read_s (fuel : nat) (s : Z) (r : reader) (size : Z) : res (bytes * reader) :=
    match fuel with
    | O => Diverge
    | S f =>
        let size := if size <? 1 then s - r_br r else Z.min size (s - r_br r) in
        if size =? 0 then Ok ([], r)
        else
          match r_buf r with
          | Some b =>
              if size <=? r_buflen r then
                let (dat, b) := bio_read b size in
                Ok (dat, with_buf r (Some b) (r_buflen r - size) (r_br r + size))
              else
                let dat := b in
                let size := size - r_buflen r in
                read_rest f s (with_buf r None 0 (r_br r + r_buflen r)) dat size
          | None => read_rest f s r [] size
          end
    end
  with read_rest (fuel : nat) (s : Z) (r : reader) (dat : bytes) (size : Z) : res (bytes * reader) :=
    match fuel with
    | O => Diverge
    | S f =>
        let! (out, r) := inflate_some r size in
        let dcompdat := dat ++ out in
        if negb (len dcompdat =? 0) && (len dcompdat - len dat <? size) && (r_br r <? s) then
          let! (more, r) := read_s f s r (size - len dcompdat) in
          Ok (dcompdat ++ more, r)
        else Ok (dcompdat, r)
    end.

  (** gitdb/stream.py:91-119 *)
  Definition parse_header_info (fuel : nat) (r : reader) : res (bytes * Z * reader) :=
    let maxb := 8192 in
    let r := mk_reader (r_m r) (r_zip r) (r_buf r) (r_buflen r) (Some maxb) (r_br r) (r_cws r) (r_cwe r) (r_cbr r) (r_phi r) in
    let! (hdr, r) := read_s fuel maxb r maxb in
    let hdrend := find NULL_BYTE hdr in
    let! (typ, size) := parse_loose_header hdr in
    let hdrend := hdrend + 1 in
    Ok (typ, size,
        mk_reader (r_m r) (r_zip r) (Some (slice_from hdr hdrend)) (len hdr - hdrend) (Some size) 0
          (r_cws r) (r_cwe r) (r_cbr r) true).

  (** Access to _s: gitdb/util.py:248-255 and gitdb/stream.py:85-89 *)
  Definition get_s (fuel : nat) (r : reader) : res (Z * reader) :=
    match r_s r with
    | Some s => Ok (s, r)
    | None => let! (_, s, r) := parse_header_info fuel r in Ok (s, r)
    end.
  (** gitdb/stream.py:214: the method; only its first access to _s can find it deleted. *)
  Definition read (fuel : nat) (r : reader) (size : Z) : res (bytes * reader) :=
    let! (s, r) := get_s fuel r in read_s fuel s r size.

  (** gitdb/stream.py:122-134 *)
  Definition reader_new (fuel : nat) (m : bytes) : res (bytes * Z * reader) :=
    parse_header_info fuel (reader_init m (Some 0)).

  (** gitdb/stream.py:200-212 with offset 0 and SEEK_SET (all other values raise). *)
  Definition rewind (r : reader) : reader :=
    mk_reader (r_m r) (zs_new K) (r_buf r) (r_buflen r) (if r_phi r then None else r_s r) 0 0 0 0 false.
  Definition seek (r : reader) (offset whence : Z) : res reader :=
    if negb (offset =? 0) || negb (whence =? 0) then Raise ValueError else Ok (rewind r).

  (** gitdb/stream.py:183-186 (the branch for a zlib with a [status] attribute is not
      modelled); mmap.PAGESIZE is a parameter. *)
  Definition scrub_step (pagesize : Z) (fuel : nat) (r : reader) : res (reader + reader) :=
    if (len (zs_unused K (r_zip r)) =? 0) && negb (r_cbr r =? len (r_m r)) then
      let! (_, r) := read fuel r pagesize in Ok (inl r)
    else Ok (inr r).
  (** gitdb/stream.py:151-196 *)
  Definition compressed_bytes_read (pagesize : Z) (fuel : nat) (r : reader) : res (Z * reader) :=
    let! (s, r) := get_s fuel r in
    if (r_br r =? s) && (len (zs_unused K (r_zip r)) =? 0) then
      let r := with_buf r (r_buf r) (r_buflen r) 0 in
      let! r := while fuel (scrub_step pagesize fuel) r in
      let! (s, r) := get_s fuel r in
      Ok (r_cbr r, with_buf r (r_buf r) (r_buflen r) s)
    else Ok (r_cbr r, r).

  (** gitdb/fun.py:403-412 *)
  Definition loose_object_header_info (m : bytes) : res (bytes * Z) :=
    let! (hdr, _) := zs_decompress K (zs_new K) m 8192 in parse_loose_header hdr.
End Reader.
Arguments r_m {K}. Arguments r_zip {K}. Arguments r_buf {K}. Arguments r_buflen {K}. Arguments r_s {K}.
Arguments r_br {K}. Arguments r_cws {K}. Arguments r_cwe {K}. Arguments r_cbr {K}. Arguments r_phi {K}.
Arguments rewind {K}. Arguments read {K}. Arguments seek {K}. Arguments compressed_bytes_read {K}.
Arguments read_s {K}. Arguments read_rest {K}. Arguments inflate_some {K}. Arguments get_s {K}.
Arguments with_buf {K}. Arguments parse_header_info {K}. Arguments scrub_step {K}. Arguments mk_reader {K}.
