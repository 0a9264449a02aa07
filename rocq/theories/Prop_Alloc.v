(** C111: DeltaApplyReader with and without anonymous memory maps. *)
From Coq Require Import ZifyBool.
From Verif Require Import Py PyFacts FunModel FunSpec FunProofs DeltaModel DeltaSpec DeltaProofs
  DeltaReaderModel StreamSpec DeltaReaderProofs AllocModel AllocProofs Prop_Delta Prop_DeltaReader.

(** Full statement: whichever of its allocations get a memory map, a DeltaApplyReader behaves as if
    all did. *)

(** What works with maps works without, and shows the same at every sequence of reads and
    rewinds: for all streams, whether their deltas make sense or not. *)
Theorem C111_same_content_partial :
  forall (R : Type) (read : R -> Z -> res (bytes * R)) (maps : nat -> bool) (ds : list (R * Z)) (b : R) (bsize : Z) (st : dar),
  evaluates (fun f => dar_init read f ds b bsize) (Ok st) ->
  exists st', evaluates (fun f => dar_init_x read maps f ds b bsize) (Ok st') /\ dr_size st' = dr_size st /\
    forall ops, run_stream dar_read' dar_rewind st' ops = run_stream dar_read' dar_rewind st ops.
Proof. exact @alloc_same. Qed.
Print Assumptions C111_same_content_partial.
(** Every error but a ValueError is the same as well. *)
Theorem C111_same_errors_partial :
  forall (R : Type) (read : R -> Z -> res (bytes * R)) (maps : nat -> bool) (ds : list (R * Z)) (b : R) (bsize : Z) (e : exn),
  evaluates (fun f => dar_init read f ds b bsize) (Raise e) -> e <> ValueError ->
  evaluates (fun f => dar_init_x read maps f ds b bsize) (Raise e).
Proof. exact @alloc_raise. Qed.
Print Assumptions C111_same_errors_partial.
(** So every chain of well-formed deltas gives its object, as in C09. *)
Theorem C111_chain_partial :
  forall (R : Type) (read : R -> Z -> res (bytes * R)) (content : R -> bytes) (maps : nat -> bool),
  stream_reader read content ->
  forall (base : bytes) (ds : list bytes) (result : bytes) (streams : list (R * Z)) (bstream : R),
  delta_chain base ds result -> ds <> [] ->
  Forall2 (fun p d => content (fst p) = d /\ snd p = len d) streams ds -> content bstream = base ->
  exists st, evaluates (fun f => dar_init_x read maps f streams bstream (len base)) (Ok st) /\
    dr_size st = len result /\
    forall ops, run_stream dar_read' dar_rewind st ops = Ok (cursor result 0 ops).
Proof.
  intros R read content maps HR base ds result streams bstream H1 H2 H3 H4.
  destruct (C09_chunked_reads R read content HR base ds result streams bstream H1 H2 H3 H4) as (st & E & Hs & Hr).
  destruct (alloc_same read maps _ _ _ st E) as (st' & E' & Hs' & Hr').
  exists st'. split; [exact E'|]. split; [now rewrite Hs'|]. intros ops. now rewrite Hr'.
Qed.
Print Assumptions C111_chain_partial.
(** The difference: a delta that produces more than it announces is a ValueError of the map it is
    written to.  If there is no map for the target, it is an object: the first announced bytes of
    what the instructions produce.  So for every such delta, whatever the other allocations get. *)
Theorem C111_overlong_refuted :
  forall (R : Type) (read : R -> Z -> res (bytes * R)) (content : R -> bytes) (maps : nat -> bool),
  stream_reader read content -> maps 1%nat = false ->
  forall (base : bytes) (bstream r : R) (v1 v2 e : bytes) (s t : Z) (ops : list dop),
  content bstream = base -> content r = v1 ++ v2 ++ e -> varint v1 s -> varint v2 t ->
  len v1 + len v2 <= 512 -> ops_enc ops e -> Forall (op_inside s) ops ->
  0 < t < len (ops_bytes base ops) ->
  evaluates (fun f => dar_init read f [(r, len (content r))] bstream (len base)) (Raise ValueError) /\
  exists st, evaluates (fun f => dar_init_x read maps f [(r, len (content r))] bstream (len base)) (Ok st) /\
    dr_size st = t /\
    forall rops, run_stream dar_read' dar_rewind st rops = Ok (cursor (firstn (Z.to_nat t) (ops_bytes base ops)) 0 rops).
Proof.
  intros R read content maps HR Hm base bstream r v1 v2 e s t ops H1 H2 H3 H4 H5 H6 H7 H8. split.
  - now apply (C10_short_delta_partial R read content HR base bstream r v1 v2 e s t ops).
  - apply (single_delta_x read content (fun _ => True) (stream_is_once _ _ HR) maps base bstream r v1 v2 e s t ops);
      try easy; try (now left). lia.
Qed.
Print Assumptions C111_overlong_refuted.

(** The chain of C08 with maps for every other allocation; a delta over the base ab that announces
    one byte and inserts x, y; one with an instruction 0 is a ValueError either way; one that is cut in its
    header an AssertionError. *)
Example C111_example :
  (let! st := dar_init_x file_read Nat.even 50 [([7; 4; 144; 1; 145; 3; 3], 7); ([3; 7] ++ ex_delta, 10)] [97; 98; 99] 3 in
   run_stream dar_read' dar_rewind st [Read 1; Read 2; Read 9; Rewind; Read 0])
  = Ok [[98]; [121; 97]; [98]; []; [98; 121; 97; 98]] /\
  dar_init file_read 20 [([2; 1; 2; 120; 121], 5)] [97; 98] 2 = Raise ValueError /\
  (let! st := dar_init_x file_read (fun _ => false) 20 [([2; 1; 2; 120; 121], 5)] [97; 98] 2 in Ok (dr_size st, fst (dar_read st 0))) = Ok (1, [120]) /\
  dar_init_x file_read (fun _ => false) 20 [([2; 1; 0], 3)] [97; 98] 2 = Raise ValueError /\
  dar_init file_read 20 [([130], 1)] [97; 98] 2 = Raise AssertionError /\
  dar_init_x file_read (fun _ => false) 20 [([130], 1)] [97; 98] 2 = Raise AssertionError.
Proof. vm_compute. repeat split; reflexivity. Qed.
