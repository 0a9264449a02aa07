(** C101: how deep the calls of DecompressMemMapReader.read nest. *)
From Coq Require Import ZifyBool ZifyNat.
From Verif Require Import Py PyFacts FunModel FunSpec ZlibModel ZlibProofs ReaderModel StreamSpec ReaderProofs StopSpec StopZlib StopProofs DepthModel DepthSpec DepthProofs DepthDeep.

(** Full statement: [bounded_depth].  Not so: for every limit there is a stream of an object of
    30 bytes and 5 for every 2 calls (2530 bytes for Python's 1000) with which read raises
    RecursionError; without the limit it returns. *)
Theorem C101_every_limit_refuted :
  forall depth, exists z c, len c = 30 + 5 * (Z.of_nat depth / 2) /\ zl_stream stored_laws z c /\ forall rest,
    limited_read depth (reader_init stored (z ++ rest) (Some (len c))) (-1) = Raise RecursionError /\
    exists out, evaluates (fun f => run_stream (read f) (fun r => seek r 0 0) (reader_init stored (z ++ rest) (Some (len c))) [Read (-1)]) (Ok out).
Proof. exact every_limit. Qed.
Print Assumptions C101_every_limit_refuted.
Theorem C101_refuted : ~ bounded_depth.
Proof. exact no_bound. Qed.
Print Assumptions C101_refuted.

(** What holds.  Whatever the bytes, as many calls are enough as the reader is told the content
    has bytes. *)
Theorem C101_size_partial :
  forall (K : zlib) (ok : zs K -> Prop) (m : bytes) (size : Z) (ops : list rop) (depth : nat),
  inflater K ok -> is_bytes m -> (1 <= depth)%nat -> size <= Z.of_nat depth -> enough depth (reader_init K m (Some size)) ops.
Proof. exact size_enough. Qed.
Print Assumptions C101_size_partial.

(** For a proper stream one call for every 8 bytes of it and two more are enough, also if the
    size is in the header (size None) or announced wrongly. *)
Theorem C101_stream_partial :
  forall (K : zlib) (L : zlib_laws K) (z c rest : bytes) (size : option Z) (ops : list rop) (depth : nat),
  zl_stream L z c -> len z <= 8 * (Z.of_nat depth - 2) -> enough depth (reader_init K (z ++ rest) size) ops.
Proof. exact stream_enough. Qed.
Print Assumptions C101_stream_partial.

(** Reading all at once, one call and one for every 8 bytes that the stream is longer than the
    content: a stream that is not longer takes one call. *)
Theorem C101_whole_partial :
  forall (K : zlib) (L : zlib_laws K) (z c rest : bytes) (depth : nat),
  zl_stream L z c -> len z <= len c + 8 * (Z.of_nat depth - 1) -> (1 <= depth)%nat -> enough depth (reader_init K (z ++ rest) (Some (len c))) [Read (-1)].
Proof. exact whole_enough. Qed.
Print Assumptions C101_whole_partial.

(** Objects of 30 and 35 bytes: the first needs 8 calls, and 7 are not enough.  The file of the object abc. *)
Definition raises {A} (r : res A) : bool := match r with Raise RecursionError => true | _ => false end.
Definition depth_file : bytes := s_compress [98; 108; 111; 98; 32; 51; 0; 97; 98; 99].
Example C101_example :
  len (deep_stream 0) = 96 /\
  run_stream (limited_read 8) (fun r => seek r 0 0) (reader_init stored (deep_stream 0) (Some 30)) [Read (-1)] = Ok [repeat 7 30] /\
  raises (limited_read 7 (reader_init stored (deep_stream 0) (Some 30)) (-1)) = true /\
  len (deep_stream 1) = 131 /\
  run_stream (limited_read 3) (fun r => seek r 0 0) (reader_init stored depth_file None) [Read 2; Rewind; Read (-1)] = Ok [[97; 98]; []; [97; 98; 99]] /\
  raises (limited_read 2 (reader_init stored depth_file None) 2) = true /\
  inflater stored (fun _ => True) /\ zl_stream stored_laws (deep_stream 0) (repeat 7 30).
Proof.
  do 6 (split; [vm_compute; reflexivity|]). split; [exact stored_inflater|exact (deep_ok 0)].
Qed.
