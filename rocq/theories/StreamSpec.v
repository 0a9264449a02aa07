(** What readers promise, seen by their caller. *)
From Verif Require Import Py FunSpec.

(** Enough for the copy loops of the library: a positive request gets exactly that many
    bytes as long as there are any; a request for nothing is only made of an exhausted
    stream.  Files and in-memory streams satisfy it, and so does a reader that treats a
    non-positive count as "everything". *)
Definition stream_reader {R} (read : R -> Z -> res (bytes * R)) (content : R -> bytes) : Prop :=
  forall r n, 0 < n \/ (n = 0 /\ content r = []) -> exists r',
    read r n = Ok (firstn (Z.to_nat n) (content r), r') /\
    content r' = skipn (Z.to_nat n) (content r).

(** A cursor over a byte string, as of a file opened for reading: [read n] with n >= 1
    delivers the next n bytes (or what is left), with n < 1 everything that is left. *)
Inductive rop := Read (n : Z) | Rewind.
Fixpoint cursor (data : bytes) (pos : nat) (ops : list rop) : list bytes :=
  match ops with
  | [] => []
  | Read n :: ops' =>
      let d := if n <? 1 then skipn pos data else firstn (Z.to_nat n) (skipn pos data) in
      d :: cursor data (pos + length d) ops'
  | Rewind :: ops' => [] :: cursor data 0 ops'
  end.

(** Driving a stream object through a list of operations; the result of a rewind is
    recorded as the empty string. *)
Section Run.
  Context {S : Type} (read : S -> Z -> res (bytes * S)) (rewind : S -> res S).
  Fixpoint run_stream (s : S) (ops : list rop) : res (list bytes) :=
    match ops with
    | [] => Ok []
    | Read n :: ops' => let! (d, s) := read s n in let! l := run_stream s ops' in Ok (d :: l)
    | Rewind :: ops' => let! s := rewind s in let! l := run_stream s ops' in Ok ([] :: l)
    end.
End Run.

(** What a stream delivered ([outs], one entry per operation) is contiguous: every read
    delivers bytes immediately following those delivered before (since the last rewind). *)
Fixpoint contiguous (data : bytes) (pos : nat) (ops : list rop) (outs : list bytes) : Prop :=
  match ops, outs with
  | [], [] => True
  | Read _ :: ops', o :: outs' =>
      o = firstn (length o) (skipn pos data) /\ contiguous data (pos + length o) ops' outs'
  | Rewind :: ops', o :: outs' => o = [] /\ contiguous data 0 ops' outs'
  | _, _ => False
  end.
(** No read delivers more than it was asked for. *)
Definition within_request (ops : list rop) (outs : list bytes) : Prop :=
  Forall2 (fun op o => match op with Read n => 1 <= n -> len o <= n | Rewind => True end) ops outs.

(** A restriction on how a stream may be used whose first B bytes come from a buffer and whose
    compressed form has w bytes.  A read of k bytes at [pos] stays in the buffer, or asks for
    at least w bytes beyond the buffer, or begins after the buffer in a stream that is read
    evenly.  No rewind happens before position B. *)
Definition allowed (even : Prop) (B w pos k : nat) : Prop :=
  (pos + k <= Nat.max pos B)%nat \/ (w + (B - pos) <= k)%nat \/ (even /\ (B <= pos)%nat).
Fixpoint respects (even : Prop) (B w : nat) (data : bytes) (pos : nat) (ops : list rop) : Prop :=
  match ops with
  | [] => True
  | Read n :: ops' =>
      let d := if n <? 1 then skipn pos data else firstn (Z.to_nat n) (skipn pos data) in
      allowed even B w pos (length d) /\ respects even B w data (pos + length d) ops'
  | Rewind :: ops' => (B <= pos)%nat /\ respects even B w data 0 ops'
  end.

(** [run_stream] that also gives the stream object in the end, and the position then. *)
Section RunState.
  Context {S : Type} (read : S -> Z -> res (bytes * S)) (rewind : S -> res S).
  Fixpoint run_state (s : S) (ops : list rop) : res (list bytes * S) :=
    match ops with
    | [] => Ok ([], s)
    | Read n :: ops' =>
        let! (d, s) := read s n in let! (l, s) := run_state s ops' in Ok (d :: l, s)
    | Rewind :: ops' =>
        let! s := rewind s in let! (l, s) := run_state s ops' in Ok ([] :: l, s)
    end.
End RunState.
Fixpoint position (pos : nat) (ops : list rop) (outs : list bytes) : nat :=
  match ops, outs with
  | Read _ :: ops', o :: outs' => position (pos + length o) ops' outs'
  | Rewind :: ops', _ :: outs' => position 0 ops' outs'
  | _, _ => pos
  end.

(** Reads of data of which the first B bytes are in a buffer: each read continues where the
    last one ended; it gives what it was asked for (as far as there is any), unless it crosses
    the end of the buffer; then it may lack as many bytes as came from the buffer, or give all
    that is left. *)
Definition asked (n left : Z) : Z := if n <? 1 then left else Z.min n left.
Definition crossing_length (B total pos q k : Z) : Prop :=
  if (pos <? B) && (B <? pos + q) then k = q \/ k = q - (B - pos) \/ k = total - pos else k = q.
Fixpoint reads_like (B : Z) (data : bytes) (pos : Z) (ns : list Z) (outs : list bytes) : Prop :=
  match ns, outs with
  | [], [] => True
  | n :: ns, o :: outs =>
      o = firstn (length o) (skipn (Z.to_nat pos) data) /\ crossing_length B (len data) pos (asked n (len data - pos)) (len o) /\
      reads_like B data (pos + len o) ns outs
  | _, _ => False
  end.
