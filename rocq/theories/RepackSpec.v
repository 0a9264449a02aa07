(** Packing the objects of a database: what a caller of PackEntity.create or write_pack does who
    takes the objects from there (as gitdb/test/test_pack.py:160-210 does with the streams of
    packs). *)
From Verif Require Import Py FunModel ZlibModel ReaderModel PackModel OsModel LooseModel LooseSpec StreamSpec FunSpec PackSpec.

(** The content of an object is delivered when its stream is read in chunks of [n] bytes: [k]
    reads, enough to see the end. *)
Definition chunk_reads (n : Z) (k : nat) : list rop := repeat (Read n) k.
Definition enough (n : Z) (k : nat) (content : bytes) : Prop := len content < Z.of_nat k * n.
Definition gives {R} (pagesize : Z) (rd : nat -> R -> Z -> res (bytes * R)) (rw : R -> res R) (r : R) (c : bytes) : Prop :=
  exists k, enough (chunk_size pagesize) k c /\
    evaluates (fun f => run_stream (rd f) rw r (chunk_reads (chunk_size pagesize) k)) (Ok (cursor c 0 (chunk_reads (chunk_size pagesize) k))).
(** An object to be written whose stream gives the bytes of [d], which are in memory. *)
Definition alike_given {R} pagesize rd rw (o : @wobj R) (d : @wobj bytes) : Prop :=
  wo_type o = wo_type d /\ wo_size o = wo_size d /\ wo_binsha o = wo_binsha d /\ gives pagesize rd rw (wo_stream o) (wo_stream d).

Section Loose.
  Context (K : zlib) (sha1 : bytes -> bytes) (pagesize : Z).
  (** The streams of the objects with these names, from a LooseObjectDB, in order. *)
  Fixpoint streams (fuel : nat) (db : ldb) (shas : list bytes) : prog (list (LooseModel.ostream (reader K))) :=
    match shas with
    | [] => ret []
    | sha :: l => do! o := LooseModel.stream K fuel db sha in do! os := streams fuel db l in ret (o :: os)
    end.
  (** An OStream as an object to be written: write_pack uses its type, size, binsha and stream
      (gitdb/pack.py:962-981). *)
  Definition to_write (o : LooseModel.ostream (reader K)) : wobj :=
    mk_wobj (PBytes (ot_type o)) (ot_size o) (ot_binsha o) (ot_stream o).
  Definition pack_loose (fuel : nat) (db : ldb) (level : Z) (shas : list bytes) : prog (bytes * bytes * bytes * bytes) :=
    do! os := streams fuel db shas in
    Ret (write_pack K sha1 pagesize (read fuel) fuel level (map to_write os) None).
  (** Objects (name, type, size, content), and as objects in memory to be written. *)
  Definition sha_of (x : bytes * bytes * Z * bytes) : bytes := fst (fst (fst x)).
  Definition in_memory (x : bytes * bytes * Z * bytes) : @wobj bytes :=
    let '(sha, t, n, c) := x in mk_wobj (PBytes t) n sha c.
  (** An object that is there and that DecompressMemMapReader reads correctly in chunks
      (StreamSpec.v, as for C38): in particular any object not longer than 8192 bytes. *)
  Definition kept (L : zlib_laws K) (db : ldb) (s : world) (x : bytes * bytes * Z * bytes) : Prop :=
    let '(sha, t, n, c) := x in
    exists z form k, contents s (object_file (l_root db) sha) = Some z /\ n = len c /\ loose_form t c form /\ zl_stream L z form /\
      ~ In 32 t /\ ~ In 0 t /\ len form - len c <= 8192 /\ (dense L z form \/ len z <= 8192) /\ enough (chunk_size pagesize) k c /\
      respects (dense L z form) (Z.to_nat (Z.min (len c) (8192 - (len form - len c)))) (length z) c 0 (chunk_reads (chunk_size pagesize) k).
End Loose.

Section Packed.
  Context (K : zlib) (sha1 : bytes -> bytes) (pagesize : Z).
  (** The same with the streams of a pack. *)
  Fixpoint pack_streams (fuel : nat) (e : entity) (shas : list bytes) : res (list (@wobj (PackModel.ostream K))) :=
    match shas with
    | [] => Ok []
    | sha :: l =>
        let! o := entity_stream K fuel e sha in
        let! os := pack_streams fuel e l in
        Ok (mk_wobj (os_type o) (os_size o) sha o :: os)
    end.
  (** An object of the pack whose stream has these data. *)
  Definition served (e : entity) (d : @wobj bytes) : Prop :=
    exists st, evaluates (fun f => entity_stream K f e (wo_binsha d)) (Ok st) /\ os_type st = wo_type d /\ os_size st = wo_size d /\
      gives pagesize os_read os_seek0 st (wo_stream d).
  Definition repack (fuel : nat) (e : entity) (level : Z) (shas : list bytes) : res (bytes * bytes * bytes * bytes) :=
    let! os := pack_streams fuel e shas in write_pack K sha1 pagesize (os_read fuel) fuel level os None.
End Packed.
