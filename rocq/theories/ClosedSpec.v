(** What closing is to do with a stream, stated without its code. *)
From Verif Require Import Py StreamSpec ZlibModel ReaderModel ClosedModel.

(** The results of operations, those that raise included; the caller goes on after them. *)
Fixpoint outcomes {K} (fuel : nat) (o : ostream K) (ops : list rop) : list (res bytes) :=
  match ops with
  | [] => []
  | Read n :: ops' => let (d, o) := ostream_read fuel o n in d :: outcomes fuel o ops'
  | Rewind :: ops' => Ok [] :: outcomes fuel (ostream_rewind o) ops'
  end.

(** A stream whose data are gone except for those in its buffer: [data] before position
    [held].  A read that ends there is as ever; any other one fails, and so do all reads
    after it and all reads after a rewind (the header would have to be read again). *)
Definition gone (ops : list rop) : list (res bytes) :=
  map (fun op => match op with Read _ => Raise ValueError | Rewind => Ok [] end) ops.
Fixpoint closed_cursor (data : bytes) (held pos : nat) (ops : list rop) : list (res bytes) :=
  match ops with
  | [] => []
  | Read n :: ops' =>
      let d := if n <? 1 then skipn pos data else firstn (Z.to_nat n) (skipn pos data) in
      if (length d =? 0)%nat || (pos + length d <=? held)%nat then Ok d :: closed_cursor data held (pos + length d) ops'
      else gone ops
  | Rewind :: ops' => Ok [] :: gone ops'
  end.
