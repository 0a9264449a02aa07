(** A second executable implementation of the zlib interface, for examples and witnesses that
    need streams shorter than their content: run lengths.  It models no code of /repo.
    A stream is a list of pairs (count, byte) and a final 0. *)
From Verif Require Import Py PyFacts ZlibModel.

Inductive rphase := RCount | RByte (n : Z) | RRun (n b : Z) | RDone.
(** Phase, unconsumed_tail, unused_data. *)
Record rstate := mk_rle { rl_ph : rphase; rl_tail : bytes; rl_unused : bytes }.
(** Output of a run as far as there is room. *)
Definition emit (ph : rphase) (room : Z) : rphase * bytes * Z :=
  match ph with
  | RRun n b => if room <? n then (RRun (n - room) b, repeat b (Z.to_nat room), 0)
                else (RCount, repeat b (Z.to_nat n), room - n)
  | _ => (ph, [], room)
  end.
(** Goes on while there is input, unless the stream is finished or output finds no room. *)
Fixpoint rl_go (ph : rphase) (inp : bytes) (room : Z) : rphase * bytes * bytes :=
  let '(ph, o, room) := emit ph room in
  match ph, inp with
  | RCount, c :: inp' => let '(ph, o', over) := rl_go (if c =? 0 then RDone else RByte c) inp' room in (ph, o ++ o', over)
  | RByte n, b :: inp' => let '(ph, o', over) := rl_go (RRun n b) inp' room in (ph, o ++ o', over)
  | _, _ => (ph, o, inp)
  end.
Definition rl_decompress (st : rstate) (inp : bytes) (n : Z) : res (bytes * rstate) :=
  let '(ph, out, over) := rl_go (rl_ph st) inp n in
  Ok (out, match ph with
           | RDone => mk_rle ph (match rl_tail st with [] => [] | _ => over end) (rl_unused st ++ over)
           | _ => mk_rle ph over (rl_unused st)
           end).
Fixpoint rl_encode (d : bytes) : bytes :=
  match d with
  | [] => [0]
  | b :: d' =>
      match rl_encode d' with
      | n :: c :: t => if (c =? b) && (n <? 255) && (0 <? n) then n + 1 :: c :: t else 1 :: b :: n :: c :: t
      | e => 1 :: b :: e
      end
  end.
Definition rle : zlib :=
  mk_zlib rstate (mk_rle RCount [] []) rl_decompress rl_tail rl_unused
    bytes (fun _ => []) (fun c d => ([], c ++ d)) rl_encode.

(** What is still to come: input and output. *)
Inductive rl_at : rphase -> bytes -> bytes -> Prop :=
| a_done : rl_at RDone [] []
| a_end z d : rl_at RDone z d -> rl_at RCount (0 :: z) d
| a_count c z d : 0 < c < 256 -> rl_at (RByte c) z d -> rl_at RCount (c :: z) d
| a_byte n b z d : is_byte b -> 0 < n -> rl_at (RRun n b) z d -> rl_at (RByte n) (b :: z) d
| a_run n b z d : is_byte b -> 0 < n -> rl_at RCount z d -> rl_at (RRun n b) z (repeat b (Z.to_nat n) ++ d).
