(** C112: what a DeltaApplyReader answers, whatever it is asked first. *)
From Verif Require Import Py PyFacts FunModel FunSpec FunProofs DeltaModel DeltaSpec DeltaProofs
  DeltaReaderModel StreamSpec DeltaReaderProofs LazyModel LazyDeltaModel LazyDeltaSpec LazyDeltaProofs Prop_Delta.

(** Full statement: a DeltaApplyReader over deltas that produce an object answers every sequence of
    reads, rewinds and questions for the size as the object does, and AttributeError to every
    question for an attribute it does not have: [lanswers AttributeError AttributeError].
    False, see below.  What it answers: *)
Theorem C112_history_partial :
  forall (R : Type) (read : R -> Z -> res (bytes * R)) (content : R -> bytes),
  stream_reader read content ->
  forall (base : bytes) (ds : list bytes) (result : bytes) (streams : list (R * Z)) (bstream : R),
  delta_chain base ds result -> ds <> [] ->
  Forall2 (fun p d => content (fst p) = d /\ snd p = len d) streams ds -> content bstream = base ->
  exists N reader, ldar_init streams bstream (len base) = Ok reader /\
    forall fuel ops, (N <= fuel)%nat -> l_run read fuel ops reader = lanswers AssertionError AttributeError result 0 ops.
Proof. intros R read content HR. exact (lazy_history read content HR). Qed.
Print Assumptions C112_history_partial.

Lemma lanswers_no_other e1 e2 e3 e4 data : forall ops p, ~ In LOther ops -> lanswers e1 e2 data p ops = lanswers e3 e4 data p ops.
Proof.
  assert (forall ops p a b, ~ In LOther ops -> lanswers e1 a data p ops = lanswers e3 b data p ops) as H; [|intros; now apply H].
  induction ops as [|o ops IH]; intros p a b H; [easy|].
  assert (~ In LOther ops) by (intros X; apply H; now right).
  destruct o; cbn [lanswers]; try (f_equal; now apply IH). elim H. now left.
Qed.
(** As long as no missing attribute is asked for, the full statement holds. *)
Theorem C112_answers_partial :
  forall (R : Type) (read : R -> Z -> res (bytes * R)) (content : R -> bytes),
  stream_reader read content ->
  forall (base : bytes) (ds : list bytes) (result : bytes) (streams : list (R * Z)) (bstream : R),
  delta_chain base ds result -> ds <> [] ->
  Forall2 (fun p d => content (fst p) = d /\ snd p = len d) streams ds -> content bstream = base ->
  exists N reader, ldar_init streams bstream (len base) = Ok reader /\
    forall fuel ops, (N <= fuel)%nat -> ~ In LOther ops ->
      l_run read fuel ops reader = lanswers AttributeError AttributeError result 0 ops.
Proof.
  intros R read content HR base ds result streams bstream H1 H2 H3 H4.
  destruct (lazy_history read content HR base ds result streams bstream H1 H2 H3 H4) as (N & s & Hi & H).
  exists N, s. split; [exact Hi|]. intros fuel ops Hf Ho. rewrite H by exact Hf. now apply lanswers_no_other.
Qed.
Print Assumptions C112_answers_partial.

Lemma lanswers_last first data : forall ops p, ops <> [] -> last (lanswers AssertionError first data p (ops ++ [LOther])) ADone = AError AssertionError.
Proof.
  assert (forall ops p, last (lanswers AssertionError AssertionError data p (ops ++ [LOther])) ADone = AError AssertionError) as H.
  { induction ops as [|o ops IH]; intros p; [reflexivity|].
    assert (forall a p, last (a :: lanswers AssertionError AssertionError data p (ops ++ [LOther])) ADone = AError AssertionError) as G.
    { intros a q. rewrite <- (IH q). destruct (lanswers AssertionError AssertionError data q (ops ++ [LOther])) eqn:E; [|reflexivity].
      specialize (IH q). rewrite E in IH. discriminate. }
    destruct o; cbn [app lanswers]; apply G. }
  assert (forall ops a p, last (a :: lanswers AssertionError AssertionError data p (ops ++ [LOther])) ADone = AError AssertionError) as G.
  { intros ops a q. rewrite <- (H ops q). destruct (lanswers AssertionError AssertionError data q (ops ++ [LOther])) eqn:E; [|reflexivity].
    specialize (H ops q). rewrite E in H. discriminate. }
  intros [|o ops] p Hne; [easy|]. destruct o; cbn [app lanswers]; apply G.
Qed.
(** Once anything was asked, asking for a missing attribute applies the deltas again; their streams
    are at the end by then, and the answer is an AssertionError.  So after every sequence of
    operations, for every chain: hasattr(reader, "close") raises. *)
Theorem C112_missing_refuted :
  forall (R : Type) (read : R -> Z -> res (bytes * R)) (content : R -> bytes),
  stream_reader read content ->
  forall (base : bytes) (ds : list bytes) (result : bytes) (streams : list (R * Z)) (bstream : R),
  delta_chain base ds result -> ds <> [] ->
  Forall2 (fun p d => content (fst p) = d /\ snd p = len d) streams ds -> content bstream = base ->
  exists N reader, ldar_init streams bstream (len base) = Ok reader /\
    forall fuel ops, (N <= fuel)%nat -> ops <> [] ->
      last (l_run read fuel (ops ++ [LOther]) reader) ADone = AError AssertionError.
Proof.
  intros R read content HR base ds result streams bstream H1 H2 H3 H4.
  destruct (lazy_history read content HR base ds result streams bstream H1 H2 H3 H4) as (N & s & Hi & H).
  exists N, s. split; [exact Hi|]. intros fuel ops Hf Ho. rewrite H by exact Hf. now apply lanswers_last.
Qed.
Print Assumptions C112_missing_refuted.

(** The chain of C08: a missing attribute first, then the size, reads, a rewind, and missing
    attributes in between. *)
Example C112_example :
  stream_reader file_read (fun r => r) /\
  delta_chain [97; 98; 99] [[7; 4; 144; 1; 145; 3; 3]; [3; 7] ++ ex_delta] [98; 121; 97; 98] /\
  forall ops, ops = [LOther; LSize; LRead 3; LOther; LRead 9; LRewind; LRead 0; LOther] ->
  l_run file_read 50 ops (mk_ldar [([7; 4; 144; 1; 145; 3; 3], 7); ([3; 7] ++ ex_delta, 10)] [97; 98; 99] 3 None None 0)
  = [AError AttributeError; ANum 4; ABytes [98; 121; 97]; AError AssertionError; ABytes [98]; ADone; ABytes [98; 121; 97; 98]; AError AssertionError].
Proof.
  split; [apply full_is_stream_reader, file_read_full|]. split; [exact ex_chain|]. intros ops ->. vm_compute. reflexivity.
Qed.
