(** Model of the scalar routines of gitdb/fun.py, the sha conversions of gitdb/util.py and
    the OFS_DELTA offset decoding of gitdb/pack.py.  Definitions only. *)
From Verif Require Import Py.

(** ** Type tables: gitdb/fun.py:28-51 *)

(** Dictionary keys and values are [bytes] objects or [str] objects; in Python 3 they are
    never equal to each other. *)
Inductive pystr :=
| PBytes (b : bytes)
| PStr (s : bytes).      (* ASCII text *)

Definition pystr_eqb (a b : pystr) : bool :=
  match a, b with
  | PBytes x, PBytes y => beq x y
  | PStr x, PStr y => beq x y
  | _, _ => false
  end.

(** gitdb/fun.py:29-31 *)
Definition OFS_DELTA : Z := 6.
Definition REF_DELTA : Z := 7.
(** "OFS_DELTA" and "REF_DELTA" as text. *)
Definition str_ofs_delta : bytes := [79; 70; 83; 95; 68; 69; 76; 84; 65].
Definition str_ref_delta : bytes := [82; 69; 70; 95; 68; 69; 76; 84; 65].

(** gitdb/fun.py:33-42: [type_id_to_type_map[i]]. *)
Definition type_id_to_type (i : Z) : res pystr :=
  if i =? 0 then Ok (PBytes [])
  else if i =? 1 then Ok (PBytes str_commit_type)
  else if i =? 2 then Ok (PBytes str_tree_type)
  else if i =? 3 then Ok (PBytes str_blob_type)
  else if i =? 4 then Ok (PBytes str_tag_type)
  else if i =? 5 then Ok (PBytes [])
  else if i =? OFS_DELTA then Ok (PStr str_ofs_delta)
  else if i =? REF_DELTA then Ok (PStr str_ref_delta)
  else Raise KeyError.

(** gitdb/fun.py:44-51: [type_to_type_id_map[t]]. *)
Definition type_to_type_id_map : list (pystr * Z) :=
  [ (PBytes str_commit_type, 1); (PBytes str_tree_type, 2); (PBytes str_blob_type, 3);
    (PBytes str_tag_type, 4); (PStr str_ofs_delta, OFS_DELTA); (PStr str_ref_delta, REF_DELTA) ].
Fixpoint assoc_type (t : pystr) (m : list (pystr * Z)) : res Z :=
  match m with
  | [] => Raise KeyError
  | (k, v) :: m' => if pystr_eqb k t then Ok v else assoc_type t m'
  end.
Definition type_to_type_id (t : pystr) : res Z := assoc_type t type_to_type_id_map.

(** gitdb/base.py:20-62: OInfo(sha, type, size); [.type] is the stored name,
    [.type_id] maps it. *)
Record oinfo := mk_oinfo { oi_binsha : bytes; oi_type : pystr; oi_size : Z }.
Definition oinfo_type_id (o : oinfo) : res Z := type_to_type_id (oi_type o).
(** gitdb/base.py:65-99: OPackInfo(offset, type_id, size); [.type] maps the id. *)
Record opackinfo := mk_opackinfo { opi_offset : Z; opi_type_id : Z; opi_size : Z }.
Definition opackinfo_type (o : opackinfo) : res pystr := type_id_to_type (opi_type_id o).

(** ** Loose object headers *)

(** Interpreter difference that matters to gitdb/fun.py: on Python 3 indexing or iterating
    [bytes] gives ints, so [ord] on the item is a TypeError. *)
Inductive interp := Py2 | Py3.
Definition ord_item (it : interp) (b : Z) : res Z :=
  match it with Py2 => Ok b | Py3 => Raise TypeError end.

(** gitdb/fun.py:394-400: [b0, b1 = map(ord, m[:2])]; unpacking needs exactly two items. *)
Definition is_loose_object (it : interp) (m : bytes) : res bool :=
  match slice_to m 2 with
  | [] => Raise ValueError
  | [x] => let! _ := ord_item it x in Raise ValueError
  | x :: y :: _ =>
      let! b0 := ord_item it x in
      let! b1 := ord_item it y in
      let word := Z.shiftl b0 8 + b1 in
      Ok ((b0 =? 120) && (word mod 31 =? 0))
  end.

(** gitdb/fun.py:410-412: parsing of an inflated header [hdr] ([hdr.find] gives -1 when no
    NUL byte is present, and [hdr[:-1]] is then parsed).  The inflation of line 409 is in
    ReaderModel.v.  Also gitdb/stream.py:104-110 without the int conversion. *)
Definition parse_loose_header (hdr : bytes) : res (bytes * Z) :=
  match split BYTE_SPACE (slice_to hdr (find NULL_BYTE hdr)) with
  | [type_name; size] => let! n := py_int size in Ok (type_name, n)
  | _ => Raise ValueError
  end.

(** gitdb/fun.py:481-485: [('%s %i\0' % (force_text(type), size)).encode('ascii')].
    Simplified: the type name is given as its ASCII bytes. *)
Definition loose_object_header (type : bytes) (size : Z) : bytes :=
  type ++ [BYTE_SPACE] ++ fmt_i size ++ [NULL_BYTE].

(** ** Pack object headers *)

(** gitdb/fun.py:426-430.  [rest] is [data[i:]]; the loop leaves when the byte [c] read
    last has no high bit. *)
Fixpoint poh_loop (rest : bytes) (c size s i : Z) : res (Z * Z) :=
  if Z.land c 128 =? 0 then Ok (size, i)
  else match rest with
       | [] => Raise IndexError
       | c' :: rest' =>
           poh_loop rest' c' (size + Z.shiftl (Z.land c' 127) s) (s + 7) (i + 1)
       end.
(** gitdb/fun.py:415-433 *)
Definition pack_object_header_info (data : bytes) : res (Z * Z * Z) :=
  match data with
  | [] => Raise IndexError
  | c :: rest =>
      let type_id := Z.land (Z.shiftr c 4) 7 in
      let! (size, i) := poh_loop rest c (Z.land c 15) 4 1 in
      Ok (type_id, size, i)
  end.

(** [bytearray.append] raises ValueError outside 0..255. *)
Definition ba_append (hdr : bytes) (c : Z) : res bytes :=
  if (0 <=? c) && (c <? 256) then Ok (hdr ++ [c]) else Raise ValueError.
(** gitdb/fun.py:448-453; a negative size never becomes 0, so the loop does not end. *)
Fixpoint cph_loop (fuel : nat) (obj_size c : Z) (hdr : bytes) : res bytes :=
  if obj_size =? 0 then ba_append hdr c
  else match fuel with
       | O => Diverge
       | S f =>
           let! hdr := ba_append hdr (Z.lor c 128) in
           cph_loop f (Z.shiftr obj_size 7) (Z.land obj_size 127) hdr
       end.
(** gitdb/fun.py:436-455 *)
Definition create_pack_object_header (obj_type obj_size : Z) : res bytes :=
  let c := Z.lor (Z.shiftl obj_type 4) (Z.land obj_size 15) in
  cph_loop (S (Z.to_nat (Z.log2 obj_size))) (Z.shiftr obj_size 4) c [].

(** gitdb/fun.py:466-474.  [k] = l - i iterations are left; when they are used up without
    meeting a terminating byte, lines 476-477 raise. *)
Fixpoint msb_loop (k : nat) (data : bytes) (offset i size : Z) : res (Z * Z) :=
  match k with
  | O => Raise AssertionError
  | S k' =>
      let! c := index data (i + offset) in
      let size := Z.lor size (Z.shiftl (Z.land c 127) (i * 7)) in
      let i := i + 1 in
      if Z.land c 128 =? 0 then Ok (i + offset, size)
      else msb_loop k' data offset i size
  end.
(** gitdb/fun.py:458-478 *)
Definition msb_size (data : bytes) (offset : Z) : res (Z * Z) :=
  msb_loop (length data) data offset 0 0.

(** gitdb/pack.py:91-103: the base distance of an OFS_DELTA entry.  [data] starts at the
    entry, [data_offset] is where the distance starts; [rest] is [data[i:]]. *)
Fixpoint ofs_loop (rest : bytes) (c delta_offset i : Z) : res (Z * Z) :=
  if Z.land c 128 =? 0 then Ok (delta_offset, i)
  else match rest with
       | [] => Raise IndexError
       | c' :: rest' =>
           ofs_loop rest' c' (Z.shiftl (delta_offset + 1) 7 + Z.land c' 127) (i + 1)
       end.
Definition ofs_delta_info (data : bytes) (i : Z) : res (Z * Z) :=
  match slice_from data i with
  | [] => Raise IndexError
  | c :: rest => ofs_loop rest c (Z.land c 127) (i + 1)
  end.

(** ** Copying *)

(** gitdb/fun.py:509-533.  [read] is a stream's read method on a state [R]; [write] a
    writer on a state [W].  The loop is fuelled: it need not end when [read] returns data
    although nothing is wanted any more (size - dbw = 0 or negative). *)
Section Copy.
  Context {R W : Type}.
  Variable read : R -> Z -> res (bytes * R).
  Variable write : W -> bytes -> res (Z * W).

  Fixpoint stream_copy_loop (fuel : nat) (r : R) (w : W) (size chunk_size dbw : Z)
    : res (Z * R * W) :=
    match fuel with
    | O => Diverge
    | S f =>
        let cs := Z.min chunk_size (size - dbw) in
        let! (data, r) := read r cs in
        let data_len := len data in
        let dbw := dbw + data_len in
        let! (_, w) := write w data in
        if (data_len <? cs) || (dbw =? size) then Ok (dbw, r, w)
        else stream_copy_loop f r w size chunk_size dbw
    end.
  Definition stream_copy (fuel : nat) (r : R) (w : W) (size chunk_size : Z) :=
    stream_copy_loop fuel r w size chunk_size 0.

  (** gitdb/fun.py:488-506 *)
  Definition write_object (fuel : nat) (type : bytes) (size : Z) (r : R) (w : W)
    (chunk_size : Z) : res (Z * R * W) :=
    let! (n, w) := write w (loose_object_header type size) in
    let! (m, r, w) := stream_copy fuel r w size chunk_size in
    Ok (n + m, r, w).
End Copy.

(** ** Shas *)

(** gitdb/fun.py:681-696 *)
Definition is_equal_canonical_sha (canonical_length : Z) (mtch sha1 : bytes) : res bool :=
  let binary_length := canonical_length / 2 in
  if negb (beq (slice_to mtch binary_length) (slice_to sha1 binary_length)) then Ok false
  else if canonical_length - binary_length =? 0 then Ok true
  else
    let! a := index mtch (-1) in
    let! b := index sha1 (len mtch - 1) in
    Ok (Z.land (Z.lxor a b) 240 =? 0).

(** gitdb/util.py:219-223 *)
Definition to_hex_sha (sha : bytes) : bytes :=
  if len sha =? 40 then sha else bin_to_hex sha.
(** gitdb/util.py:226-229 *)
Definition to_bin_sha (sha : bytes) : res bytes :=
  if len sha =? 20 then Ok sha else hex_to_bin sha.
