(** Model of DeltaApplyReader where allocate_memory cannot always have an anonymous memory map:
    the "except OSError" of gitdb/util.py:146-160.  Definitions only; the same with maps at hand
    is DeltaReaderModel.v. *)
From Verif Require Import Py FunModel DeltaModel DeltaReaderModel.

(** gitdb/util.py:146-160; [map] says whether mmap.mmap(-1, size) succeeds.  If it raises
    OSError the block is a _RandomAccessBytesIO (lines 97-116) of zeros, which grows.  A negative
    length is an OverflowError of mmap, which is not caught.  Not modelled: the MemoryError of
    line 159. *)
Definition allocate_memory_x (map : bool) (size : Z) : res membuf :=
  if size =? 0 then Ok (mk_membuf [] 0 true)
  else if size <? 0 then Raise OverflowError
  else if map then Ok (mk_membuf (repeat 0 (Z.to_nat size)) 0 false)
  else Ok (mk_membuf (repeat 0 (Z.to_nat size)) 0 true).

Section BruteX.
  Context {R : Type}.
  Variable read : R -> Z -> res (bytes * R).
  (** Whether the n-th allocation of the reader gets a map *)
  Variable maps : nat -> bool.

  (** gitdb/stream.py:445-470; [m]: whether the buffer for the delta is a map.  Slices and items
      of a _RandomAccessBytesIO are those of its value, gitdb/util.py:109-116. *)
  Definition brute_step_x (m : bool) (fuel : nat) (i : dinfo) (bbuf tbuf : membuf) : res (membuf * membuf) :=
    let! ddata := allocate_memory_x m (di_size i - di_offset i) in
    let! (_, ddata) := mb_write ddata (di_buf i) in
    let! (_, _, ddata) := stream_copy read mb_write fuel (di_r i) ddata (di_size i) copy_chunk in
    let! tbuf := apply_delta_data (fun w d => let! (_, w) := mb_write w d in Ok w)
                   (mb_data bbuf) (di_src i) (mb_data ddata) (len (mb_data ddata)) tbuf in
    Ok (mb_rewind tbuf, mb_rewind bbuf).
  (** gitdb/stream.py:444-471 *)
  Fixpoint brute_loop_x (n : nat) (fuel : nat) (l : list dinfo) (bbuf tbuf : membuf) (fts : Z)
    : res (membuf * membuf * Z) :=
    match l with
    | [] => Ok (bbuf, tbuf, fts)
    | i :: l' =>
        let! (bbuf, tbuf) := brute_step_x (maps n) fuel i bbuf tbuf in
        brute_loop_x (S n) fuel l' bbuf tbuf (di_tgt i)
    end.
  (** gitdb/stream.py:404-477 *)
  Definition set_cache_x (fuel : nat) (ds : list (R * Z)) (b : R) (bsize : Z) : res (membuf * Z) :=
    let! infos := peek_all read ds in
    let max_target_size := max_target infos in
    let m := Z.max bsize max_target_size in
    let base_size := if 1 <? len ds then m else bsize in
    let target_size := if 1 <? len ds then m else max_target_size in
    let! bbuf := allocate_memory_x (maps 0%nat) base_size in
    let! (_, _, bbuf) := stream_copy read mb_write fuel b bbuf base_size copy_chunk in
    let! tbuf := allocate_memory_x (maps 1%nat) target_size in
    let! (bbuf, tbuf, fts) := brute_loop_x 2 fuel (rev infos) bbuf tbuf 0 in
    Ok (bbuf, fts).
  (** gitdb/stream.py:361-368 and the first access to [_size] or [_mm_target]; reads and seeks
      are [dar_read] and [dar_seek], which are the same for both kinds of buffers. *)
  Definition dar_init_x (fuel : nat) (ds : list (R * Z)) (b : R) (bsize : Z) : res dar :=
    py_assert (negb (len ds =? 0))
      (let! (t, size) := set_cache_x fuel ds b bsize in Ok (mk_dar t size 0)).
End BruteX.
