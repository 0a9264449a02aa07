(** Model of DeltaApplyReader, gitdb/stream.py:322-548 (without the C extension, so
    [_set_cache_] is [_set_cache_brute_], line 479), and of allocate_memory,
    gitdb/util.py:146-160.  Definitions only. *)
From Verif Require Import Py FunModel DeltaModel.

(** ** Memory buffers *)

(** mmap.mmap(-1, n) for n > 0: [n] zero bytes, fixed size; a _RandomAccessBytesIO for
    n = 0, which grows ([mb_grow]).  Anonymous maps are assumed to be available here; the
    fallback on OSError is in AllocModel.v. *)
Record membuf := mk_membuf { mb_data : bytes; mb_pos : Z; mb_grow : bool }.

(** gitdb/util.py:146-160.  A negative length is an OverflowError of mmap. *)
Definition allocate_memory (size : Z) : res membuf :=
  if size =? 0 then Ok (mk_membuf [] 0 true)
  else if size <? 0 then Raise OverflowError
  else Ok (mk_membuf (repeat 0 (Z.to_nat size)) 0 false).

(** mmap.write / BytesIO.write: mmap raises ValueError ("data out of range") and writes
    nothing when the data does not fit. *)
Definition mb_write (b : membuf) (d : bytes) : res (Z * membuf) :=
  if negb (mb_grow b) && (len (mb_data b) <? mb_pos b + len d) then Raise ValueError
  else Ok (len d, mk_membuf (slice_to (mb_data b) (mb_pos b) ++ d
                             ++ slice_from (mb_data b) (mb_pos b + len d))
                    (mb_pos b + len d) (mb_grow b)).
(** mmap.read(n) / BytesIO.read(n) for n >= 0 *)
Definition mb_read (b : membuf) (n : Z) : bytes * membuf :=
  let d := slice (mb_data b) (mb_pos b) (mb_pos b + n) in
  (d, mk_membuf (mb_data b) (mb_pos b + len d) (mb_grow b)).
(** seek(0) *)
Definition mb_rewind (b : membuf) : membuf := mk_membuf (mb_data b) 0 (mb_grow b).

(** 256 * mmap.PAGESIZE, lines 432 and 456 *)
Definition copy_chunk : Z := 1048576.

(** ** Applying the deltas *)
Section Brute.
  Context {R : Type}.
  Variable read : R -> Z -> res (bytes * R).

  (** One element of [buffer_info_list] together with its stream: [buf[offset:]], offset,
      source size, target size, the stream after the peek, the stream's size. *)
  Record dinfo := mk_dinfo { di_buf : bytes; di_offset : Z; di_src : Z; di_tgt : Z; di_r : R; di_size : Z }.

  (** gitdb/stream.py:411-416; [(r, size)] is a delta stream and its size attribute. *)
  Definition peek (ds : R * Z) : res dinfo :=
    let '(r, size) := ds in
    let! (buf, r) := read r 512 in
    let! (offset, src_size) := msb_size buf 0 in
    let! (offset, target_size) := msb_size buf offset in
    Ok (mk_dinfo (slice_from buf offset) offset src_size target_size r size).
  Fixpoint peek_all (ds : list (R * Z)) : res (list dinfo) :=
    match ds with
    | [] => Ok []
    | d :: ds' => let! i := peek d in let! l := peek_all ds' in Ok (i :: l)
    end.
  (** gitdb/stream.py:410 and 416 *)
  Definition max_target (l : list dinfo) : Z := fold_left (fun m i => Z.max m (di_tgt i)) l 0.

  (** gitdb/stream.py:445-470, one delta: the new base buffer and the new target buffer,
      swapped and rewound. *)
  Definition brute_step (fuel : nat) (i : dinfo) (bbuf tbuf : membuf) : res (membuf * membuf) :=
    let! ddata := allocate_memory (di_size i - di_offset i) in
    let! (_, ddata) := mb_write ddata (di_buf i) in
    let! (_, _, ddata) := stream_copy read mb_write fuel (di_r i) ddata (di_size i) copy_chunk in
    let! tbuf := apply_delta_data (fun w d => let! (_, w) := mb_write w d in Ok w)
                   (mb_data bbuf) (di_src i) (mb_data ddata) (len (mb_data ddata)) tbuf in
    Ok (mb_rewind tbuf, mb_rewind bbuf).
  (** gitdb/stream.py:444-471; [fts] is final_target_size.  Oldest delta first. *)
  Fixpoint brute_loop (fuel : nat) (l : list dinfo) (bbuf tbuf : membuf) (fts : Z)
    : res (membuf * membuf * Z) :=
    match l with
    | [] => Ok (bbuf, tbuf, fts)
    | i :: l' =>
        let! (bbuf, tbuf) := brute_step fuel i bbuf tbuf in
        brute_loop fuel l' bbuf tbuf (di_tgt i)
    end.

  (** gitdb/stream.py:404-477.  [ds]: the delta streams, latest first; the base stream and
      its size.  Returns [_mm_target] and [_size]. *)
  Definition set_cache_brute (fuel : nat) (ds : list (R * Z)) (b : R) (bsize : Z) : res (membuf * Z) :=
    let! infos := peek_all ds in
    let max_target_size := max_target infos in
    let m := Z.max bsize max_target_size in
    let base_size := if 1 <? len ds then m else bsize in
    let target_size := if 1 <? len ds then m else max_target_size in
    let! bbuf := allocate_memory base_size in
    let! (_, _, bbuf) := stream_copy read mb_write fuel b bbuf base_size copy_chunk in
    let! tbuf := allocate_memory target_size in
    let! (bbuf, tbuf, fts) := brute_loop fuel (rev infos) bbuf tbuf 0 in
    Ok (bbuf, fts).

  (** ** The reader *)
  Record dar := mk_dar { dr_target : membuf; dr_size : Z; dr_br : Z }.

  (** gitdb/stream.py:361-368 followed by the lazy evaluation of [_size]/[_mm_target]
      (LazyMixin calls [_set_cache_] on first access; modelled at construction). *)
  Definition dar_init (fuel : nat) (ds : list (R * Z)) (b : R) (bsize : Z) : res dar :=
    py_assert (negb (len ds =? 0))
      (let! (t, size) := set_cache_brute fuel ds b bsize in Ok (mk_dar t size 0)).

  (** gitdb/stream.py:486-494 *)
  Definition dar_read (st : dar) (count : Z) : bytes * dar :=
    let bl := dr_size st - dr_br st in
    let count := if (count <? 1) || (bl <? count) then bl else count in
    let '(data, t) := mb_read (dr_target st) count in
    (data, mk_dar t (dr_size st) (dr_br st + len data)).
  (** gitdb/stream.py:496-504; SEEK_SET is 0. *)
  Definition dar_seek (st : dar) (offset whence : Z) : res dar :=
    if negb (offset =? 0) || negb (whence =? 0) then Raise ValueError
    else Ok (mk_dar (mb_rewind (dr_target st)) (dr_size st) 0).

  (** The two as operations of a stream object *)
  Definition dar_read' (st : dar) (n : Z) : res (bytes * dar) := Ok (dar_read st n).
  Definition dar_rewind (st : dar) : res dar := dar_seek st 0 0.

  (** gitdb/stream.py:509-529 with [type_id] of the last stream; delta_types is
      (OFS_DELTA, REF_DELTA) = (6, 7). *)
  Definition dar_new (fuel : nat) (ds : list (R * Z)) (b : R) (bsize btype : Z) : res dar :=
    if len ds + 1 <? 2 then Raise ValueError
    else if (btype =? 6) || (btype =? 7) then Raise ValueError
    else dar_init fuel ds b bsize.
End Brute.
Arguments mk_dinfo {R}. Arguments di_buf {R}. Arguments di_offset {R}. Arguments di_src {R}.
Arguments di_tgt {R}. Arguments di_r {R}. Arguments di_size {R}.
