(** Nested calls of read and Python's limit for them. *)
From Verif Require Import Py FunModel FunSpec ZlibModel ReaderModel StreamSpec DepthModel.

(** [depth] calls are enough for these uses of a reader: the same outcome as without a limit. *)
Definition enough {K : zlib} (depth : nat) (r : reader K) (ops : list rop) : Prop :=
  evaluates (fun f => run_stream (read f) (fun r => seek r 0 0) r ops) (run_stream (limited_read depth) (fun r => seek r 0 0) r ops).
(** Some limit is enough for every object: the calls nest no deeper for larger data. *)
Definition bounded_depth : Prop :=
  exists depth, forall (K : zlib) (L : zlib_laws K) (z c rest : bytes), zl_stream L z c ->
    enough depth (reader_init K (z ++ rest) (Some (len c))) [Read (-1)].
