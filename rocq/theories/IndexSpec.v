(** Pack index files as git's documentation lays them out (gitformat-pack, "pack-*.idx
    files have the following format"), and what looking things up in them means. *)
From Coq Require Import Sorting.Sorted.
From Verif Require Import Py FunSpec IndexModel.

Definition table (n : nat) (l : list Z) : bytes := concat (map (be_enc n) l).

(** "N-th entry of this table records the number of objects ... the first byte of whose
    object name is less than or equal to N" *)
Definition fanout_of (shas : list bytes) : list Z :=
  map (fun b => len (filter (fun s => hd 0 s <=? Z.of_nat b) shas)) (seq 0 256).

(** Original (version 1) pack-*.idx files: fanout, then 4-byte offset and name of each
    object. *)
Definition v1_file (shas : list bytes) (offs : list Z) (trailer : bytes) : bytes :=
  table 4 (fanout_of shas) ++
  concat (map (fun p => be_enc 4 (snd p) ++ fst p) (combine shas offs)) ++ trailer.
(** Version 2: magic, version, fanout, names, CRCs, 4-byte offsets, 8-byte offsets. *)
Definition v2_file (shas : list bytes) (crcs raw : list Z) (big : list Z) (trailer : bytes) : bytes :=
  [255; 116; 79; 99] ++ be_enc 4 2 ++ table 4 (fanout_of shas) ++ concat shas ++
  table 4 crcs ++ table 4 raw ++ table 8 big ++ trailer.
(** "large offsets are encoded as an index into the next table with the msbit set" *)
Definition raw_offset (big : list Z) (raw o : Z) : Prop :=
  (0 <= raw < 2 ^ 31 /\ o = raw) \/
  (exists k, raw = 2 ^ 31 + Z.of_nat k /\ (Z.of_nat k < 2 ^ 31) /\ nth_error big k = Some o).

(** Names are 20 bytes, in order. *)
Definition sha_ok (s : bytes) : Prop := len s = 20 /\ is_bytes s.
Definition sha_le (a b : bytes) : Prop := blt b a = false.
Definition sha_lt (a b : bytes) : Prop := blt a b = true.
Definition sorted_shas (l : list bytes) : Prop := Forall sha_ok l /\ StronglySorted sha_le l.
Definition strictly_sorted_shas (l : list bytes) : Prop := Forall sha_ok l /\ StronglySorted sha_lt l.

(** The contents of an index file: names, offsets and (version 2) checksums, in table order.
    The counts fit the 4-byte fields; the magic number of version 2 "is an unreasonable
    fanout[0] value", so a version 1 file has fewer than 0xff744f63 objects. *)
Inductive index_file : Z -> list bytes -> list Z -> list Z -> bytes -> Prop :=
| idx_v1 shas offs trailer :
    Forall sha_ok shas -> length offs = length shas -> Forall (fun o => 0 <= o < 2 ^ 32) offs ->
    len shas < 4285812579 ->
    index_file 1 shas (map (fun _ => 0) shas) offs (v1_file shas offs trailer)
| idx_v2 shas crcs offs raw big trailer :
    Forall sha_ok shas -> length crcs = length shas -> Forall (fun c => 0 <= c < 2 ^ 32) crcs ->
    Forall2 (raw_offset big) raw offs -> length offs = length shas ->
    Forall (fun o => 0 <= o < 2 ^ 64) big -> len shas < 2 ^ 32 ->
    index_file 2 shas crcs offs (v2_file shas crcs raw big trailer).

(** Position of the first element with a property. *)
Fixpoint first_index {A} (f : A -> bool) (l : list A) : option Z :=
  match l with
  | [] => None
  | x :: l' => if f x then Some 0 else option_map Z.succ (first_index f l')
  end.

(** What the index object answers, entry by entry. *)
Definition reads_as (ix : pidx) (v : Z) (shas : list bytes) (crcs offs : list Z) : Prop :=
  ix_version ix = v /\ ix_size ix = Ok (len shas) /\
  forall i s c o, 0 <= i ->
    index shas i = Ok s -> index crcs i = Ok c -> index offs i = Ok o ->
    ix_sha ix i = s /\ ix_crc ix i = Ok c /\ ix_offset ix i = Ok o /\ ix_entry ix i = Ok (o, s, c).

(** Offsets that need the 8-byte table. *)
Definition is_large (o : Z) : bool := 2147483647 <? o.
