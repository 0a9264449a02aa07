(** What deltas mean, written down from git's pack format documentation. *)
From Verif Require Import Py FunSpec DeltaModel.

Inductive dop :=
| Copy (off size : Z)       (* take [size] bytes of the source at [off] *)
| Insert (data : bytes).    (* take these bytes *)

Definition op_bytes (src : bytes) (op : dop) : bytes :=
  match op with
  | Copy off size => firstn (Z.to_nat size) (skipn (Z.to_nat off) src)
  | Insert d => d
  end.
Definition ops_bytes (src : bytes) (ops : list dop) : bytes := concat (map (op_bytes src) ops).

(** The instruction stays inside a source of [n] bytes. *)
Definition op_inside (n : Z) (op : dop) : Prop :=
  match op with Copy off size => 0 <= off /\ off + size <= n | Insert _ => True end.

(** Copy: the command byte has bit 7 set and one bit for each of 4 offset and 3 size bytes
    (little-endian) that is present; an absent byte is 0; size 0 means 0x10000.
    Insert: the command byte is the number of bytes, 1..127. *)
Definition flag (present : bool) (v : Z) : Z := if present then v else 0.
Definition arg (present : bool) (b : Z) : bytes := if present then [b] else [].
Definition absent_zero (present : bool) (b : Z) : Prop := present = false -> b = 0.
Inductive op_enc : dop -> bytes -> Prop :=
| enc_insert d : 1 <= len d <= 127 -> is_bytes d -> op_enc (Insert d) (len d :: d)
| enc_copy f0 f1 f2 f3 f4 f5 f6 o0 o1 o2 o3 s0 s1 s2 :
    is_bytes [o0; o1; o2; o3; s0; s1; s2] ->
    absent_zero f0 o0 -> absent_zero f1 o1 -> absent_zero f2 o2 -> absent_zero f3 o3 ->
    absent_zero f4 s0 -> absent_zero f5 s1 -> absent_zero f6 s2 ->
    op_enc
      (Copy (o0 + 256 * o1 + 65536 * o2 + 16777216 * o3)
            (if s0 + 256 * s1 + 65536 * s2 =? 0 then 65536 else s0 + 256 * s1 + 65536 * s2))
      ((128 + flag f0 1 + flag f1 2 + flag f2 4 + flag f3 8 + flag f4 16 + flag f5 32 + flag f6 64)
         :: arg f0 o0 ++ arg f1 o1 ++ arg f2 o2 ++ arg f3 o3 ++ arg f4 s0 ++ arg f5 s1 ++ arg f6 s2).
Inductive ops_enc : list dop -> bytes -> Prop :=
| enc_nil : ops_enc [] []
| enc_cons op ops b bs : op_enc op b -> ops_enc ops bs -> ops_enc (op :: ops) (b ++ bs).

(** [d] is a delta that turns [src] into [tgt].  (The two sizes together must fit into the
    512 bytes DeltaApplyReader looks at; git needs at most 20.) *)
Definition is_delta (src d tgt : bytes) : Prop :=
  exists v1 v2 ops e,
    d = v1 ++ v2 ++ e /\ varint v1 (len src) /\ varint v2 (len tgt) /\
    len v1 + len v2 <= 512 /\
    ops_enc ops e /\ Forall (op_inside (len src)) ops /\ tgt = ops_bytes src ops.

(** Deltas, latest first, leading from [base] to [result]. *)
Inductive delta_chain (base : bytes) : list bytes -> bytes -> Prop :=
| chain_nil : delta_chain base [] base
| chain_cons d ds mid tgt : delta_chain base ds mid -> is_delta mid d tgt ->
    delta_chain base (d :: ds) tgt.

(** A writer that accepts everything; [out] is what it received. *)
Definition accepting {W} (write : W -> bytes -> res W) (out : W -> bytes) : Prop :=
  forall w d, exists w', write w d = Ok w' /\ out w' = out w ++ d.
Definition collect (w d : bytes) : res bytes := Ok (w ++ d).

(** A chunk that can be applied to a base of [n] bytes. *)
Definition chunk_ok (n : Z) (d : chunk) : Prop :=
  0 < c_ts d /\
  match c_data d with
  | None => 0 <= c_so d /\ c_so d + c_ts d <= n
  | Some b => c_ts d <= len b
  end.
(** Chunks that tile the target from [t] on. *)
Fixpoint contiguous (n t : Z) (l : list chunk) : Prop :=
  match l with
  | [] => True
  | d :: l' => c_to d = t /\ chunk_ok n d /\ contiguous n (t + c_ts d) l'
  end.
