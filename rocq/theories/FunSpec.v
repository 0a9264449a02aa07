(** Specifications of the byte formats, written down from git's documentation and not from
    the model: little-endian base-128 sizes, pack object headers, OFS_DELTA distances,
    decimal numbers, hex prefixes. *)
From Verif Require Import Py.

(** A size as in delta headers: groups of 7 bits, least significant first, high bit set on
    all but the last byte. *)
Inductive varint : bytes -> Z -> Prop :=
| varint_last b : 0 <= b < 128 -> varint [b] b
| varint_more b bs n : 128 <= b < 256 -> varint bs n -> varint (b :: bs) ((b - 128) + 128 * n).

(** Header of a pack entry (git's pack-format: 1-bit continuation, 3-bit type, 4-bit size,
    then 7-bit groups, least significant first). *)
Inductive pack_header (t : Z) : bytes -> Z -> Prop :=
| ph_short n : 0 <= n < 16 -> pack_header t [16 * t + n] n
| ph_long lo bs hi : 0 <= lo < 16 -> varint bs hi ->
    pack_header t ((128 + 16 * t + lo) :: bs) (lo + 16 * hi).

(** Distance to the base of an OFS_DELTA entry: "n bytes with MSB set in all but the last
    one.  The offset is then the number constructed by concatenating the lower 7 bit of
    each byte, and for n >= 2 adding 2^7 + 2^14 + ... + 2^(7*(n-1)) to the result." *)
Fixpoint concat7 (acc : Z) (bs : bytes) : Z :=
  match bs with [] => acc | b :: bs' => concat7 (128 * acc + b mod 128) bs' end.
(** 2^7 + ... + 2^(7*(n-1)) for a list of n bytes *)
Fixpoint geo7 (k : nat) : Z :=
  match k with O => 0 | S O => 0 | S (S _ as k') => 2 ^ (7 * Z.of_nat k') + geo7 k' end.
Definition ofs_distance (bs : bytes) (n : Z) : Prop :=
  exists init last, bs = init ++ [last] /\ Forall (fun b => 128 <= b < 256) init /\
    0 <= last < 128 /\ n = concat7 0 bs + geo7 (length bs).

(** Decimal digits, most significant first, without superfluous leading zeros. *)
Fixpoint dec_value (acc : Z) (ds : bytes) : Z :=
  match ds with [] => acc | d :: ds' => dec_value (10 * acc + (d - 48)) ds' end.
Definition decimal (ds : bytes) (n : Z) : Prop :=
  ds <> [] /\ Forall (fun d => 48 <= d <= 57) ds /\ dec_value 0 ds = n /\
  (hd 0 ds = 48 -> ds = [48]).

(** An abbreviated object name: lower-case hex digits; its binary form pads an odd number
    of digits with a 0 digit. *)
Definition lower_hex (h : bytes) : Prop :=
  Forall (fun c => 48 <= c <= 57 \/ 97 <= c <= 102) h.
Definition pad_even (h : bytes) : bytes := if Z.even (len h) then h else h ++ [48].

(** Streams as seen by a caller: [content r] are the bytes still to come. *)
Definition full_reader {R} (read : R -> Z -> res (bytes * R)) (content : R -> bytes) : Prop :=
  forall r n, 0 <= n -> exists r',
    read r n = Ok (firstn (Z.to_nat n) (content r), r') /\
    content r' = skipn (Z.to_nat n) (content r).
(** A reader that may deliver less than asked for, but not nothing before the end. *)
Definition partial_reader {R} (read : R -> Z -> res (bytes * R)) (content : R -> bytes) : Prop :=
  forall r n, 0 <= n -> exists d r',
    read r n = Ok (d, r') /\ content r = d ++ content r' /\ len d <= n /\
    (0 < n -> d = [] -> content r = []).
(** A writer that accepts everything: [out w] are the bytes it has received. *)
Definition accepting_writer {W} (write : W -> bytes -> res (Z * W)) (out : W -> bytes) : Prop :=
  forall w d, exists w', write w d = Ok (len d, w') /\ out w' = out w ++ d.

(** A fuelled run that ends with [v] for all large enough fuels. *)
Definition evaluates {A} (r : nat -> res A) (v : res A) : Prop :=
  exists f0, forall f, (f0 <= f)%nat -> r f = v.
