(** What seek(0) leaves behind in the stream of a small loose object.

    All of such an object is inflated with its header and kept; what has not been read yet is
    not thrown away by seek(0), and stands before the header when that is looked for again. *)
From Verif Require Import Py FunSpec StreamSpec.

(** The bytes kept after the operations [ops], when [left] was kept before and [pos] was the
    position: a read keeps what follows it, seek(0) changes nothing. *)
Fixpoint kept (c : bytes) (pos : nat) (left : bytes) (ops : list rop) : bytes :=
  match ops with
  | [] => left
  | Read n :: ops' =>
      let d := if n <? 1 then skipn pos c else firstn (Z.to_nat n) (skipn pos c) in
      let pos := (pos + length d)%nat in
      kept c pos (skipn pos c) ops'
  | Rewind :: ops' => kept c 0 left ops'
  end.
(** Whenever seek(0) is called the bytes kept contain neither a space nor a null byte. *)
Fixpoint clean_seeks (c : bytes) (pos : nat) (left : bytes) (ops : list rop) : Prop :=
  match ops with
  | [] => True
  | Read n :: ops' =>
      let d := if n <? 1 then skipn pos c else firstn (Z.to_nat n) (skipn pos c) in
      let pos := (pos + length d)%nat in
      clean_seeks c pos (skipn pos c) ops'
  | Rewind :: ops' => ~ In 32 left /\ ~ In 0 left /\ clean_seeks c 0 left ops'
  end.
(** The bytes kept spoil the header that follows them: up to the null byte there is not
    exactly one space. *)
Definition spoils (left : bytes) : Prop :=
  (~ In 0 left /\ In 32 left) \/
  (exists x y, left = x ++ 0 :: y /\ ~ In 0 x /\ count_occ Z.eq_dec x 32 <> 1%nat).

(** [d] does not begin with an object header: up to the first null byte - or, without one, up
    to the last byte - there is not exactly one space. *)
Definition no_header (d : bytes) : Prop :=
  (exists x y, d = x ++ 0 :: y /\ ~ In 0 x /\ count_occ Z.eq_dec x 32 <> 1%nat) \/
  (~ In 0 d /\ count_occ Z.eq_dec (removelast d) 32 <> 1%nat).
