(** Moving objects from a LooseObjectDB into a pack: their streams are given to PackEntity.create
    (gitdb/pack.py:1006-1031, with the objects of gitdb/db/loose.py:164-166), after which the files of
    the loose objects can be removed. *)
From Verif Require Import Py FunModel ZlibModel ReaderModel PackModel OsModel LooseModel LooseSpec StreamSpec FunSpec PackSpec CreateModel RepackSpec.

Section Move.
  Context (K : zlib) (sha1 : bytes -> bytes) (pagesize : Z).
  Definition create_loose (fuel : nat) (db : ldb) (base : path) (level : Z) (shas : list bytes) : prog path :=
    do! os := streams K fuel db shas in
    create_pack K sha1 pagesize (read fuel) fuel base level (map (to_write K) os) None.
  (** The object (name, type, size, content) has a file: a complete zlib stream of its loose form. *)
  Definition has_file (L : zlib_laws K) (db : ldb) (s : world) (x : bytes * bytes * Z * bytes) : Prop :=
    let '(sha, t, n, c) := x in
    exists z form, contents s (object_file (l_root db) sha) = Some z /\ n = len c /\ loose_form t c form /\ zl_stream L z form /\
      ~ In 32 t /\ ~ In 0 t.
  (** The size that LooseObjectDB.stream reports is the right one. *)
  Definition size_right (O : os) (db : ldb) (s : world) (x : bytes * bytes * Z * bytes) : Prop :=
    forall f o, LooseSpec.yields O (LooseModel.stream K f db (sha_of x)) s (Ok o) -> ot_size o = snd (fst x).
End Move.
