(** Model of DeltaApplyReader as an object whose buffer and size are made when first used:
    gitdb/util.py:237-266 (LazyMixin), gitdb/stream.py:322-548.  Definitions only.
    DeltaReaderModel.v has the same with everything made at construction and without the
    positions in the streams of the deltas and of the base.
    Simplified: when the deltas cannot be applied, the streams are left as they are after the
    first look at each (lines 411-416); when a stream's read raises, the stream is as before. *)
From Verif Require Import Py FunModel DeltaModel DeltaReaderModel LazyModel.

Section LazyDelta.
  Context {R : Type}.
  Variable read : R -> Z -> res (bytes * R).

  (** gitdb/stream.py:411-416 for one stream; also the stream afterwards *)
  Definition peek_at (d : R * Z) : res dinfo * (R * Z) :=
    match read (fst d) 512 with
    | Ok (buf, r) =>
        (let! (offset, src_size) := msb_size buf 0 in
         let! (offset, target_size) := msb_size buf offset in
         Ok (mk_dinfo (slice_from buf offset) offset src_size target_size r (snd d)), (r, snd d))
    | Raise x => (Raise x, d)
    | Diverge => (Diverge, d)
    end.
  (** gitdb/stream.py:411-417 *)
  Fixpoint peek_each (ds : list (R * Z)) : res (list (@dinfo R)) * list (R * Z) :=
    match ds with
    | [] => (Ok [], [])
    | d :: ds =>
        match peek_at d with
        | (Ok i, d) => let (r, ds) := peek_each ds in (let! l := r in Ok (i :: l), d :: ds)
        | (Raise x, d) => (Raise x, d :: ds)
        | (Diverge, d) => (Diverge, d :: ds)
        end
    end.
  (** gitdb/stream.py:445-470; also the delta's stream afterwards *)
  Definition apply_one (fuel : nat) (i : dinfo) (bbuf tbuf : membuf) : res (membuf * membuf * (R * Z)) :=
    let! ddata := allocate_memory (di_size i - di_offset i) in
    let! (_, ddata) := mb_write ddata (di_buf i) in
    let! (_, r, ddata) := stream_copy read mb_write fuel (di_r i) ddata (di_size i) copy_chunk in
    let! tbuf := apply_delta_data (fun w d => let! (_, w) := mb_write w d in Ok w)
                   (mb_data bbuf) (di_src i) (mb_data ddata) (len (mb_data ddata)) tbuf in
    Ok (mb_rewind tbuf, mb_rewind bbuf, (r, di_size i)).
  (** gitdb/stream.py:444-471; the streams afterwards, latest delta first *)
  Fixpoint apply_each (fuel : nat) (l : list dinfo) (bbuf tbuf : membuf) (fts : Z) (done : list (R * Z))
    : res (membuf * Z * list (R * Z)) :=
    match l with
    | [] => Ok (bbuf, fts, done)
    | i :: l =>
        let! (bbuf, tbuf, d) := apply_one fuel i bbuf tbuf in
        apply_each fuel l bbuf tbuf (di_tgt i) (d :: done)
    end.
  (** gitdb/stream.py:418-471 *)
  Definition apply_all (fuel : nat) (infos : list dinfo) (b : R) (bsize : Z) : res (membuf * Z * list (R * Z) * R) :=
    let max_target_size := max_target infos in
    let m := Z.max bsize max_target_size in
    let base_size := if 1 <? len infos then m else bsize in
    let target_size := if 1 <? len infos then m else max_target_size in
    let! bbuf := allocate_memory base_size in
    let! (_, b, bbuf) := stream_copy read mb_write fuel b bbuf base_size copy_chunk in
    let! tbuf := allocate_memory target_size in
    let! (bbuf, fts, ds) := apply_each fuel (rev infos) bbuf tbuf 0 [] in
    Ok (bbuf, fts, ds, b).

  (** The attributes of a DeltaApplyReader, gitdb/stream.py:348-354; [None]: not set *)
  Record ldar := mk_ldar { l_dstreams : list (R * Z); l_bstream : R; l_bsize : Z;
                           l_target : option membuf; l_size : option Z; l_br : Z }.
  (** gitdb/stream.py:361-368 *)
  Definition ldar_init (ds : list (R * Z)) (b : R) (bsize : Z) : res ldar :=
    py_assert (negb (len ds =? 0)) (Ok (mk_ldar ds b bsize None None 0)).

  Variable fuel : nat.
  (** _set_cache_, gitdb/stream.py:404-477, whatever attribute is asked for *)
  Definition l_set_cache : method ldar unit := fun s =>
    match peek_each (l_dstreams s) with
    | (Ok infos, ds) =>
        match apply_all fuel infos (l_bstream s) (l_bsize s) with
        | Ok (t, size, ds, b) => (Ok tt, mk_ldar ds b (l_bsize s) (Some t) (Some size) (l_br s))
        | Raise x => (Raise x, mk_ldar ds (l_bstream s) (l_bsize s) (l_target s) (l_size s) (l_br s))
        | Diverge => (Diverge, mk_ldar ds (l_bstream s) (l_bsize s) (l_target s) (l_size s) (l_br s))
        end
    | (Raise x, ds) => (Raise x, mk_ldar ds (l_bstream s) (l_bsize s) (l_target s) (l_size s) (l_br s))
    | (Diverge, ds) => (Diverge, mk_ldar ds (l_bstream s) (l_bsize s) (l_target s) (l_size s) (l_br s))
    end.
  Definition set_target (t : membuf) (s : ldar) : ldar := mk_ldar (l_dstreams s) (l_bstream s) (l_bsize s) (Some t) (l_size s) (l_br s).
  Definition set_br (n : Z) (s : ldar) : ldar := mk_ldar (l_dstreams s) (l_bstream s) (l_bsize s) (l_target s) (l_size s) n.

  (** gitdb/stream.py:486-494 *)
  Definition l_read (count : Z) : method ldar bytes :=
    let? size := get l_size l_set_cache in
    let? br := (fun s => (Ok (l_br s), s)) in
    let bl := size - br in
    let count := if (count <? 1) || (bl <? count) then bl else count in
    let? t := get l_target l_set_cache in
    let (data, t) := mb_read t count in
    let? _ := set (set_target t) in
    let? _ := set (fun s => set_br (l_br s + len data) s) in
    pure (Ok data).
  (** gitdb/stream.py:496-504 *)
  Definition l_seek (offset whence : Z) : method ldar unit :=
    if negb (offset =? 0) || negb (whence =? 0) then pure (Raise ValueError)
    else
      let? _ := set (set_br 0) in
      let? t := get l_target l_set_cache in
      set (set_target (mb_rewind t)).
  (** gitdb/stream.py:541-544 *)
  Definition l_size_of : method ldar Z := get l_size l_set_cache.
  (** An attribute that a DeltaApplyReader does not have, gitdb/util.py:248-255, as in
      hasattr(reader, "close"): _set_cache_ first, then object.__getattribute__ raises. *)
  Definition l_other : method ldar unit := get (fun _ => None) l_set_cache.
End LazyDelta.
Arguments mk_ldar {R}. Arguments l_dstreams {R}. Arguments l_bstream {R}. Arguments l_bsize {R}.
Arguments l_target {R}. Arguments l_size {R}. Arguments l_br {R}.
