(** Model of pack index files, gitdb/pack.py:173-501: IndexWriter and PackIndexFile.
    Definitions only.  SHA-1 is a parameter.  A file is the byte string the memory map of
    its cursor shows (the map always covers the whole file from offset 0, line 266). *)
From Verif Require Import Py FunModel.

(** ** PackIndexFile *)

(** gitdb/pack.py:255-257 *)
Definition sha_list_offset : Z := 8 + 1024.
Definition index_v2_signature : bytes := [255; 116; 79; 99].
Definition index_version_default : Z := 2.

(** The attributes set by [_set_cache_]/[_initialize], gitdb/pack.py:268-382. *)
Record pidx := mk_pidx {
  ix_map : bytes;               (* self._cursor.map() *)
  ix_version : Z;
  ix_fanout : list Z;
  ix_crc_offset : Z;            (* _crc_list_offset *)
  ix_pack_offset : Z;
  ix_pack64_offset : Z }.

(** gitdb/pack.py:371-380 *)
Fixpoint read_fanout (n : nat) (d : bytes) (off : Z) : res (list Z) :=
  match n with
  | O => Ok []
  | S n' =>
      let! v := unpack_be 4 d off in
      let! l := read_fanout n' d (off + 4) in
      Ok (v :: l)
  end.

(** gitdb/pack.py:263-302 and 357-369.  (The repeated test of line 278 is dead code.  The
    check that the file fits into a map window, lines 284-287, is not modelled.) *)
Definition index_open (d : bytes) : res pidx :=
  let version := if beq (slice_to d 4) index_v2_signature then 2 else 1 in
  let! _ := (if version =? 2 then
               let! version_id := unpack_be 4 d 4 in
               py_assert (version_id =? version) (Ok tt)
             else Ok tt) in
  let! fanout := read_fanout 256 d (if version =? 2 then 8 else 0) in
  let! size := index fanout 255 in
  let crc := sha_list_offset + size * 20 in
  let po := crc + size * 4 in
  Ok (mk_pidx d version fanout crc po (po + size * 4)).

(** gitdb/pack.py:388-390 *)
Definition ix_size (ix : pidx) : res Z := index (ix_fanout ix) 255.

(** gitdb/pack.py:314-318 and 345-348 *)
Definition ix_sha (ix : pidx) (i : Z) : bytes :=
  let base := if ix_version ix =? 2 then sha_list_offset + i * 20 else 1024 + i * 24 + 4 in
  slice (ix_map ix) base (base + 20).
(** gitdb/pack.py:310-312 and 330-343 *)
Definition ix_offset (ix : pidx) (i : Z) : res Z :=
  if ix_version ix =? 2 then
    let! offset := unpack_be 4 (ix_map ix) (ix_pack_offset ix + i * 4) in
    if negb (Z.land offset 2147483648 =? 0) then
      unpack_be 8 (ix_map ix) (ix_pack64_offset ix + Z.land offset (Z.lnot 2147483648) * 8)
    else Ok offset
  else unpack_be 4 (ix_map ix) (1024 + i * 24).
(** gitdb/pack.py:320-322 and 350-352 *)
Definition ix_crc (ix : pidx) (i : Z) : res Z :=
  if ix_version ix =? 2 then unpack_be 4 (ix_map ix) (ix_crc_offset ix + i * 4) else Ok 0.
(** gitdb/pack.py:306-308 and 326-328.  Version 1 unpacks ">L20s" in one go, which needs 24
    bytes. *)
Definition ix_entry (ix : pidx) (i : Z) : res (Z * bytes * Z) :=
  if ix_version ix =? 2 then
    let! o := ix_offset ix i in let! c := ix_crc ix i in Ok (o, ix_sha ix i, c)
  else
    let off := 1024 + i * 24 in
    if off + 24 <=? len (ix_map ix) then
      let! o := unpack_be 4 (ix_map ix) off in Ok (o, slice (ix_map ix) (off + 4) (off + 24), 0)
    else Raise StructError.

(** gitdb/pack.py:396-402 *)
Definition packfile_checksum (ix : pidx) : bytes := slice (ix_map ix) (-40) (-20).
Definition indexfile_checksum (ix : pidx) : bytes := slice_from (ix_map ix) (-20).

(** Byte-swapped [array('I').frombytes(s)]: 4-byte big-endian values; a rest is a
    ValueError. *)
Fixpoint be32_array (s : bytes) : res (list Z) :=
  match s with
  | [] => Ok []
  | a :: b :: c :: d :: s' => let! l := be32_array s' in Ok (be_dec [a; b; c; d] :: l)
  | _ => Raise ValueError
  end.
Fixpoint collect_upto (n : nat) (i : Z) (get : Z -> res Z) : res (list Z) :=
  match n with
  | O => Ok []
  | S n' => let! x := get i in let! l := collect_upto n' (i + 1) get in Ok (x :: l)
  end.
(** gitdb/pack.py:404-418 *)
Definition ix_offsets (ix : pidx) : res (list Z) :=
  if ix_version ix =? 2 then
    be32_array (slice (ix_map ix) (ix_pack_offset ix) (ix_pack64_offset ix))
  else let! n := ix_size ix in collect_upto (Z.to_nat n) 0 (ix_offset ix).

(** Start of a bisection: gitdb/pack.py:426-431 and 457-463 *)
Definition bisect_bounds (fanout : list Z) (first_byte : Z) : res (Z * Z) :=
  let! lo := (if first_byte =? 0 then Ok 0 else index fanout (first_byte - 1)) in
  let! hi := index fanout first_byte in
  Ok (lo, hi).
(** Enough iterations for any interval: it at least halves each time. *)
Definition bisect_fuel (lo hi : Z) : nat := S (S (Z.to_nat (Z.log2 (hi - lo)))).

(** gitdb/pack.py:434-446 *)
Fixpoint bisect (fuel : nat) (get_sha : Z -> bytes) (sha : bytes) (lo hi : Z) : res (option Z) :=
  match fuel with
  | O => Diverge
  | S f =>
      if lo <? hi then
        let mid := (lo + hi) / 2 in
        let mid_sha := get_sha mid in
        if blt sha mid_sha then bisect f get_sha sha lo mid
        else if beq sha mid_sha then Ok (Some mid)
        else bisect f get_sha sha (mid + 1) hi
      else Ok None
  end.
(** gitdb/pack.py:420-446 *)
Definition sha_to_index (ix : pidx) (sha : bytes) : res (option Z) :=
  let! first_byte := index sha 0 in
  let! (lo, hi) := bisect_bounds (ix_fanout ix) first_byte in
  bisect (bisect_fuel lo hi) (ix_sha ix) sha lo hi.

(** gitdb/pack.py:469-482: the value of [lo] after the loop *)
Fixpoint bisect_low (fuel : nat) (get_sha : Z -> bytes) (sha : bytes) (lo hi : Z) : res Z :=
  match fuel with
  | O => Diverge
  | S f =>
      if lo <? hi then
        let mid := (lo + hi) / 2 in
        let mid_sha := get_sha mid in
        if blt sha mid_sha then bisect_low f get_sha sha lo mid
        else if beq sha mid_sha then Ok mid
        else bisect_low f get_sha sha (mid + 1) hi
      else Ok lo
  end.
(** gitdb/pack.py:448-495.  [if next_sha] is false for the empty slice. *)
Definition partial_sha_to_index (ix : pidx) (partial : bytes) (canonical_length : Z) : res (option Z) :=
  if len partial <? 2 then Raise ValueError
  else
    let! first_byte := index partial 0 in
    let! (lo, hi) := bisect_bounds (ix_fanout ix) first_byte in
    let filled_sha := partial ++ brepeat NULL_BYTE (20 - len partial) in
    let! lo := bisect_low (bisect_fuel lo hi) (ix_sha ix) filled_sha lo hi in
    let! size := ix_size ix in
    if lo <? size then
      let cur_sha := ix_sha ix lo in
      let! eq := is_equal_canonical_sha canonical_length partial cur_sha in
      if eq then
        let next_sha := if lo + 1 <? size then ix_sha ix (lo + 1) else [] in
        if negb (len next_sha =? 0) && beq next_sha cur_sha then Raise AmbiguousObjectName
        else Ok (Some lo)
      else Ok None
    else Ok None.

(** ** IndexWriter *)

(** One element of [_objs]: (binsha, crc, offset), gitdb/pack.py:183-185 *)
Definition ientry := (bytes * Z * Z)%type.
Definition e_sha (e : ientry) : bytes := fst (fst e).
Definition e_crc (e : ientry) : Z := snd (fst e).
Definition e_ofs (e : ientry) : Z := snd e.

(** list.sort(key=sha): stable. gitdb/pack.py:192 *)
Fixpoint insert_sorted (e : ientry) (l : list ientry) : list ientry :=
  match l with
  | [] => [e]
  | x :: l' => if blt (e_sha x) (e_sha e) then x :: insert_sorted e l' else e :: l
  end.
Fixpoint sort_entries (l : list ientry) : list ientry :=
  match l with [] => [] | e :: l' => insert_sorted e (sort_entries l') end.

(** [tmplist[k] += 1] *)
Fixpoint list_incr (l : list Z) (k : nat) : list Z :=
  match l, k with
  | [], _ => []
  | x :: l', O => x + 1 :: l'
  | x :: l', S k' => x :: list_incr l' k'
  end.
(** gitdb/pack.py:200-203; the first byte of an empty sha is an IndexError. *)
Fixpoint fanout_counts (l : list ientry) (tmp : list Z) : res (list Z) :=
  match l with
  | [] => Ok tmp
  | e :: l' =>
      let! b := index (e_sha e) 0 in
      if (0 <=? b) && (b <? len tmp) then fanout_counts l' (list_incr tmp (Z.to_nat b))
      else Raise IndexError
  end.
(** gitdb/pack.py:204-209: the bytes written, adding each value to the next slot *)
Fixpoint fanout_bytes (carry : Z) (tmp : list Z) : res bytes :=
  match tmp with
  | [] => Ok []
  | v :: tmp' =>
      let! b := pack_L (carry + v) in
      let! r := fanout_bytes (carry + v) tmp' in
      Ok (b ++ r)
  end.
(** [for x in l: sha_write(f(x))] *)
Fixpoint write_each {A} (f : A -> res bytes) (l : list A) : res bytes :=
  match l with
  | [] => Ok []
  | x :: l' => let! b := f x in let! r := write_each f l' in Ok (b ++ r)
  end.
(** gitdb/pack.py:221-230: the 32-bit table and the list of 64-bit offsets ([big] is
    tmplist) *)
Fixpoint offset_table (l : list ientry) (big : list Z) : res (bytes * list Z) :=
  match l with
  | [] => Ok ([], big)
  | e :: l' =>
      let ofs := e_ofs e in
      let big' := if 2147483647 <? ofs then big ++ [ofs] else big in
      let ofs := if 2147483647 <? ofs then 2147483648 + len big' - 1 else ofs in
      let! b := pack_L (Z.land ofs 4294967295) in
      let! (r, big'') := offset_table l' big' in
      Ok (b ++ r, big'')
  end.
(** gitdb/pack.py:187-241: everything handed to [write] on success, and the returned sha.
    (On an exception part of it has been written already; the partial output is not
    modelled.) *)
Definition index_write (sha1 : bytes -> bytes) (objs : list ientry) (pack_sha : bytes) : res (bytes * bytes) :=
  let objs := sort_entries objs in
  let! ver := pack_L index_version_default in
  let! tmp := fanout_counts objs (repeat 0 256) in
  let! fan := fanout_bytes 0 tmp in
  let shas := concat (map e_sha objs) in
  let! crcs := write_each (fun e => pack_L (Z.land (e_crc e) 4294967295)) objs in
  let! (o32, big) := offset_table objs [] in
  let! o64 := write_each pack_Q big in
  py_assert (len pack_sha =? 20)
    (let content := index_v2_signature ++ ver ++ fan ++ shas ++ crcs ++ o32 ++ o64 ++ pack_sha in
     let sha := sha1 content in
     Ok (content ++ sha, sha)).
