(** What ends: calls that come to a result or an exception, whatever the bytes of the files. *)
From Verif Require Import Py FunModel FunSpec IndexSpec ZlibModel PackSpec.

(** With enough fuel always the same outcome, and not the one of running out of it. *)
Definition stops {A} (r : nat -> res A) : Prop := exists v, v <> Diverge /\ evaluates r v.

(** What is needed of zlib, for streams that are right and others: a call of decompress on an
    object that was fed bytes before returns at most as many bytes as it was asked for, or
    raises. *)
Definition inflater (K : zlib) (ok : zs K -> Prop) : Prop :=
  ok (zs_new K) /\
  forall st inp n, ok st -> is_bytes inp -> 0 < n ->
    zs_decompress K st inp n <> Diverge /\
    forall out st', zs_decompress K st inp n = Ok (out, st') -> ok st' /\ is_bytes out /\ len out <= n.

(** Entries of a pack by their first bytes; nothing is said about what follows. *)
Definition ref_at (pack : bytes) (off : Z) (s : bytes) : Prop :=
  exists pre hdr n more, pack = pre ++ hdr ++ s ++ more /\ len pre = off /\ pack_header 7 hdr n.
Definition ofs_at (pack : bytes) (off n : Z) : Prop :=
  exists pre hdr size bs more, pack = pre ++ hdr ++ bs ++ more /\ len pre = off /\ pack_header 6 hdr size /\ ofs_distance bs n.
(** Where an object's chain leads.  The code follows OFS_DELTA entries backwards; once it has
    met a REF_DELTA entry, whose base is looked up by name, it takes the distance of an OFS_DELTA
    entry for an offset (see C35), and 12 instead of the offset 0. *)
Definition place (p : Z) : Z := if p =? 0 then 12 else p.
Inductive chain_ends (pack : bytes) (shas : list bytes) (offs : list Z) : bool -> Z -> Prop :=
| chain_end after off :
    (forall n, ofs_at pack off n -> chain_ends pack shas offs after (if after then place n else off - n)) ->
    (forall s p, ref_at pack off s -> found_at shas offs s p -> chain_ends pack shas offs true (place p)) ->
    chain_ends pack shas offs after off.
