(** Model of PackFile, PackIndexFile and PackEntity as objects whose attributes are set when
    first used: gitdb/util.py:237-266 (LazyMixin), gitdb/pack.py:244-418, 504-650, 655-912.
    Definitions only.  An attribute is [None] as long as it is not set.  [IndexModel.v] and
    [PackModel.v] model the same methods on files that have been opened; what they do with
    the data is taken from there.
    The files do not change; [D] is what mapping a file gives. *)
From Verif Require Import Py FunModel IndexModel ZlibModel ReaderModel DeltaReaderModel PackModel.

(** A method of an object with attributes [S]: what it returns or raises and the attributes
    afterwards. *)
Definition method (S A : Type) : Type := S -> res A * S.
Definition then_do {S A B} (m : method S A) (k : A -> method S B) : method S B :=
  fun s => match m s with
           | (Ok a, s) => k a s
           | (Raise x, s) => (Raise x, s)
           | (Diverge, s) => (Diverge, s)
           end.
Notation "'let?' x := m 'in' k" := (then_do m (fun x => k)) (at level 200, x pattern, right associativity).
Definition pure {S A} (r : res A) : method S A := fun s => (r, s).
Definition set {S} (f : S -> S) : method S unit := fun s => (Ok tt, f s).
(** gitdb/util.py:248-254: an attribute that is not there *)
Definition get {S A} (field : S -> option A) (set_cache : method S unit) : method S A :=
  fun s => match field s with
           | Some a => (Ok a, s)
           | None => (let? _ := set_cache in
                      fun s => (match field s with Some a => Ok a | None => Raise AttributeError end, s)) s
           end.
(** Using an attribute of the cursor, which is None after close(). *)
Definition used {A} (c : option A) : res A := match c with Some m => Ok m | None => Raise AttributeError end.

(** ** PackFile *)
(** gitdb/pack.py:518; the cursor is given by what it maps *)
Record pfile := mk_pfile { pf_cursor : option (option bytes); pf_version : option Z; pf_size : option Z }.
(** gitdb/pack.py:526-527 *)
Definition pf_new : pfile := mk_pfile None None None.
(** gitdb/pack.py:529-531 *)
Definition pf_close : method pfile unit := set (fun s => mk_pfile (Some None) (pf_version s) (pf_size s)).

Section PackFile.
  Variable D : res bytes.
  (** gitdb/pack.py:533-542 *)
  Definition pf_set_cache : method pfile unit :=
    let? d := pure D in
    let? _ := set (fun s => mk_pfile (Some (Some d)) (pf_version s) (pf_size s)) in
    let? (type_id, version, size) := pure (let! t := unpack_be 4 d 0 in let! v := unpack_be 4 d 4 in let! n := unpack_be 4 d 8 in Ok (t, v, n)) in
    let? _ := set (fun s => mk_pfile (pf_cursor s) (Some version) (Some size)) in
    pure (if type_id =? 1346454347 then Ok tt else Raise ParseError).
  (** gitdb/pack.py:568-574 *)
  Definition pf_get_size : method pfile Z := get pf_size pf_set_cache.
  Definition pf_get_version : method pfile Z := get pf_version pf_set_cache.
  (** A method that uses only the cursor: data (gitdb/pack.py:576-582), checksum (584-586),
      collect_streams (597-620), info and stream (626-638), stream_iter (544-566, 640-650).
      [f] is what it does with the data. *)
  Definition pf_on {A} (f : bytes -> res A) : method pfile A :=
    let? c := get pf_cursor pf_set_cache in pure (let! d := used c in f d).
End PackFile.

(** ** PackIndexFile *)
(** gitdb/pack.py:250-252.  The attributes entry, offset, sha and crc are functions of one
    version; they are set together, as are the three offsets of version 2. *)
Record ifile := mk_ifile {
  xf_cursor : option (option bytes); xf_version : option Z; xf_bound : option Z;
  xf_fanout : option (list Z); xf_places : option (Z * Z * Z) }.
(** gitdb/pack.py:259-261 *)
Definition xf_new : ifile := mk_ifile None None None None None.
(** gitdb/pack.py:263-265 *)
Definition xf_close : method ifile unit := set (fun s => mk_ifile (Some None) (xf_version s) (xf_bound s) (xf_fanout s) (xf_places s)).

Section IndexFile.
  Variable D : res bytes.
  (** gitdb/pack.py:272-281 (the limit on the size is not modelled) *)
  Definition xf_open : method ifile unit :=
    let? d := pure D in set (fun s => mk_ifile (Some (Some d)) (xf_version s) (xf_bound s) (xf_fanout s) (xf_places s)).
  (** self._cursor.map() *)
  Definition xf_map : method ifile bytes := let? c := get xf_cursor xf_open in pure (used c).
  (** gitdb/pack.py:282-302 with 357-380 *)
  Definition xf_set_cache : method ifile unit :=
    let? mmap := xf_map in
    let version := if beq (slice_to mmap 4) index_v2_signature then 2 else 1 in
    let? _ := set (fun s => mk_ifile (xf_cursor s) (Some version) (xf_bound s) (xf_fanout s) (xf_places s)) in
    let? _ := pure (if version =? 2 then
                      let! version_id := unpack_be 4 mmap 4 in py_assert (version_id =? version) (Ok tt)
                    else Ok tt) in
    let? _ := set (fun s => mk_ifile (xf_cursor s) (xf_version s) (Some version) (xf_fanout s) (xf_places s)) in
    let? fanout := pure (read_fanout 256 mmap (if version =? 2 then 8 else 0)) in
    let? _ := set (fun s => mk_ifile (xf_cursor s) (xf_version s) (xf_bound s) (Some fanout) (xf_places s)) in
    if version =? 2 then
      let? size := pure (index fanout 255) in
      let crc := sha_list_offset + size * 20 in
      let po := crc + size * 4 in
      set (fun s => mk_ifile (xf_cursor s) (xf_version s) (xf_bound s) (xf_fanout s) (Some (crc, po, po + size * 4)))
    else pure (Ok tt).
  (** gitdb/pack.py:385-390 *)
  Definition xf_get_version : method ifile Z := get xf_version xf_set_cache.
  Definition xf_get_size : method ifile Z := let? f := get xf_fanout xf_set_cache in pure (index f 255).
  (** gitdb/pack.py:314-318 and 345-348 *)
  Definition xf_sha (i : Z) : method ifile bytes :=
    let? v := get xf_bound xf_set_cache in
    let? m := xf_map in
    pure (Ok (ix_sha (mk_pidx m v [] 0 0 0) i)).
  (** gitdb/pack.py:310-312 and 330-343 *)
  Definition xf_offset (i : Z) : method ifile Z :=
    let? v := get xf_bound xf_set_cache in
    let? m := xf_map in
    if v =? 2 then
      let? (crc, po, po64) := get xf_places xf_set_cache in pure (ix_offset (mk_pidx m v [] crc po po64) i)
    else pure (ix_offset (mk_pidx m v [] 0 0 0) i).
  (** gitdb/pack.py:320-322 and 350-352 *)
  Definition xf_crc (i : Z) : method ifile Z :=
    let? v := get xf_bound xf_set_cache in
    if v =? 2 then
      let? m := xf_map in
      let? (crc, po, po64) := get xf_places xf_set_cache in pure (ix_crc (mk_pidx m v [] crc po po64) i)
    else pure (Ok 0).
  (** gitdb/pack.py:306-308 and 326-328 *)
  Definition xf_entry (i : Z) : method ifile (Z * bytes * Z) :=
    let? v := get xf_bound xf_set_cache in
    if v =? 2 then
      let? o := xf_offset i in let? s := xf_sha i in let? c := xf_crc i in pure (Ok (o, s, c))
    else let? m := xf_map in pure (ix_entry (mk_pidx m v [] 0 0 0) i).
  (** gitdb/pack.py:396-402 *)
  Definition xf_packfile_checksum : method ifile bytes :=
    let? m := xf_map in pure (Ok (packfile_checksum (mk_pidx m 0 [] 0 0 0))).
  Definition xf_indexfile_checksum : method ifile bytes :=
    let? m := xf_map in pure (Ok (indexfile_checksum (mk_pidx m 0 [] 0 0 0))).
  (** gitdb/pack.py:404-418 *)
  Fixpoint xf_collect (n : nat) (i : Z) : method ifile (list Z) :=
    match n with
    | O => pure (Ok [])
    | S n' => let? x := xf_offset i in let? l := xf_collect n' (i + 1) in pure (Ok (x :: l))
    end.
  Definition xf_offsets : method ifile (list Z) :=
    let? v := get xf_version xf_set_cache in
    if v =? 2 then
      let? m := xf_map in
      let? (crc, po, po64) := get xf_places xf_set_cache in pure (ix_offsets (mk_pidx m v [] crc po po64))
    else let? n := xf_get_size in xf_collect (Z.to_nat n) 0.
  (** gitdb/pack.py:420-446.  A closed cursor is noticed if there is an sha to look at. *)
  Definition xf_sha_to_index (sha : bytes) : method ifile (option Z) :=
    let? first_byte := pure (index sha 0) in
    let? v := get xf_bound xf_set_cache in
    let? f := get xf_fanout xf_set_cache in
    let? c := get xf_cursor xf_open in
    pure (match c with
          | Some m => sha_to_index (mk_pidx m v f 0 0 0) sha
          | None => let! (lo, hi) := bisect_bounds f first_byte in if lo <? hi then Raise AttributeError else Ok None
          end).
  (** gitdb/pack.py:448-495 *)
  Definition xf_partial_sha_to_index (partial : bytes) (canonical_length : Z) : method ifile (option Z) :=
    if len partial <? 2 then pure (Raise ValueError)
    else
      let? first_byte := pure (index partial 0) in
      let? v := get xf_bound xf_set_cache in
      let? f := get xf_fanout xf_set_cache in
      let? c := get xf_cursor xf_open in
      pure (match c with
            | Some m => partial_sha_to_index (mk_pidx m v f 0 0 0) partial canonical_length
            | None =>
                let! (lo, hi) := bisect_bounds f first_byte in
                let! size := index f 255 in
                if (lo <? hi) || (lo <? size) then Raise AttributeError else Ok None
            end).
End IndexFile.

(** ** PackEntity *)
(** gitdb/pack.py:660-663; _offset_map as the pairs it was made of *)
Record efile := mk_efile { ef_index : ifile; ef_pack : pfile; ef_map : option (list (Z * Z)) }.
(** gitdb/pack.py:668-673 *)
Definition ef_new : efile := mk_efile xf_new pf_new None.
Definition on_index {A} (m : method ifile A) : method efile A :=
  fun s => let (r, x) := m (ef_index s) in (r, mk_efile x (ef_pack s) (ef_map s)).
Definition on_pack {A} (m : method pfile A) : method efile A :=
  fun s => let (r, p) := m (ef_pack s) in (r, mk_efile (ef_index s) p (ef_map s)).
(** gitdb/pack.py:675-677 *)
Definition ef_close : method efile unit := let? _ := on_index xf_close in on_pack pf_close.

Section Entity.
  Context (K : zlib).
  Variable sha1 : bytes -> bytes.
  Variable pagesize : Z.
  (** What mapping the index file and the pack file gives. *)
  Variables DX DP : res bytes.
  (** gitdb/pack.py:679-700 *)
  Definition ef_set_cache : method efile unit :=
    let? l := on_index (xf_offsets DX) in
    let? d := on_pack (pf_on DP Ok) in
    let offsets_sorted := sort_z l in
    let? _ := pure (py_assert (negb (len offsets_sorted =? 0)) (Ok tt)) in
    set (fun s => mk_efile (ef_index s) (ef_pack s) (Some (combine offsets_sorted (slice_from offsets_sorted 1 ++ [len d - footer_size])))).
  (** gitdb/pack.py:702-707 *)
  Definition ef_sha_to_index (sha : bytes) : method efile Z :=
    let? i := on_index (xf_sha_to_index DX sha) in
    pure (match i with Some i => Ok i | None => Raise BadObject end).
  (** The index and the pack once their data is loaded.  (Version 1 does not use the three
      offsets.) *)
  Definition ef_view : method efile entity :=
    let? m := on_index (xf_map DX) in
    let? v := on_index (get xf_bound (xf_set_cache DX)) in
    let? f := on_index (get xf_fanout (xf_set_cache DX)) in
    let? (crc, po, po64) :=
      (if v =? 2 then on_index (get xf_places (xf_set_cache DX))
       else pure (let! n := index f 255 in Ok (sha_list_offset + n * 20, sha_list_offset + n * 24, sha_list_offset + n * 28))) in
    let? d := on_pack (pf_on DP Ok) in
    pure (Ok (mk_entity (mk_pidx m v f crc po po64) d)).
  (** gitdb/pack.py:717-757, for the object at index [i]: its offset is looked up, then the
      pack's cursor is used; what follows uses nothing that is not loaded by then.  (If
      the fan-out table cannot be read the code goes on without it as long as it meets no
      REF_DELTA; the model stops.) *)
  Definition ef_object {A} (object : entity -> bytes -> Z -> res A) (sha : option bytes) (i : Z) : method efile A :=
    let? sha := match sha with Some sha => pure (Ok sha) | None => on_index (xf_sha DX i) end in
    let? _ := on_index (xf_offset DX i) in
    let? _ := on_pack (pf_on DP Ok) in
    let? e := ef_view in
    pure (object e sha i).
  (** gitdb/pack.py:761-784 *)
  Definition ef_info (fuel : nat) (sha : bytes) : method efile oinfo :=
    let? i := ef_sha_to_index sha in ef_object (info_at K fuel) (Some sha) i.
  Definition ef_stream (fuel : nat) (sha : bytes) : method efile (ostream K) :=
    let? i := ef_sha_to_index sha in ef_object (stream_at K fuel) (Some sha) i.
  Definition ef_info_at_index (fuel : nat) (i : Z) : method efile oinfo := ef_object (info_at K fuel) None i.
  Definition ef_stream_at_index (fuel : nat) (i : Z) : method efile (ostream K) := ef_object (stream_at K fuel) None i.
  (** gitdb/pack.py:816-840 *)
  Definition ef_valid_crc (fuel : nat) (sha : bytes) : method efile bool :=
    let? v := on_index (xf_get_version DX) in
    if v <? 2 then pure (Raise UnsupportedOperation)
    else
      let? i := ef_sha_to_index sha in
      let? offset := on_index (xf_offset DX i) in
      let? pairs := get ef_map ef_set_cache in
      let? next := pure (dict_get offset pairs (Raise KeyError)) in
      let? crc_value := on_index (xf_crc DX i) in
      let? d := on_pack (pf_on DP Ok) in
      let? this := pure (crc_loop pagesize fuel d offset next 0) in
      pure (Ok (Z.land this 4294967295 =? crc_value)).
  (** gitdb/pack.py:841-849 *)
  Definition ef_valid_sha (fuel : nat) (sha : bytes) : method efile bool :=
    let? stream := ef_stream fuel sha in
    pure (let! (_, _, w) := write_object (os_read fuel) sha_write fuel (type_text (os_type stream)) (os_size stream)
                              stream [] (chunk_size pagesize) in
          py_assert (beq (sha1 w) sha) (Ok (beq (sha1 w) sha))).
  (** gitdb/pack.py:865-912 *)
  Definition ef_collect_at (fuel : nat) (offset : Z) : method efile (list (pobj K)) :=
    let? streams := on_pack (pf_on DP (fun d => collect_streams K fuel d offset)) in
    let? last := pure (index streams (-1)) in
    match po_delta last with
    | RefDelta _ => let? e := ef_view in pure (collect_streams_at_offset K fuel e offset)
    | _ => pure (Ok streams)
    end.
  Definition ef_collect (fuel : nat) (sha : bytes) : method efile (list (pobj K)) :=
    let? i := ef_sha_to_index sha in let? off := on_index (xf_offset DX i) in ef_collect_at fuel off.
End Entity.
