(** What DeltaApplyReader shows for deltas whose headers are wrong: two sheets of equal size are
    written on in turn and never wiped. *)
From Verif Require Import Py FunSpec DeltaSpec.

(** A delta with well-formed instructions that stay inside the source size of its header; the
    sizes in the header need not be right.  [t]: the target size announced. *)
Definition delta_of (d : bytes) (t : Z) (ops : list dop) : Prop :=
  exists v1 v2 e s, d = v1 ++ v2 ++ e /\ varint v1 s /\ varint v2 t /\ len v1 + len v2 <= 512 /\
    ops_enc ops e /\ Forall (op_inside s) ops.

Definition over (new old : bytes) : bytes := new ++ skipn (length new) old.
Definition blank (n : Z) : bytes := repeat 0 (Z.to_nat n).

(** The sheet written last and the other one, after the deltas [l] (latest first), on sheets of
    [m] bytes. *)
Fixpoint sheets (m : Z) (base : bytes) (l : list (list dop)) : bytes * bytes :=
  match l with
  | [] => (over base (blank m), blank m)
  | ops :: l' => let (a, b) := sheets m base l' in (over (ops_bytes a ops) b, a)
  end.
(** Nothing is written beyond the end of a sheet. *)
Fixpoint fits (m : Z) (base : bytes) (l : list (list dop)) : Prop :=
  match l with
  | [] => True
  | ops :: l' => fits m base l' /\ len (ops_bytes (fst (sheets m base l')) ops) <= m
  end.
(** The largest size that is announced *)
Definition widest (n : Z) (ts : list Z) : Z := fold_right Z.max n ts.
