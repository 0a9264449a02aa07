(** Properties of text and bytes: C92 and C93. *)
From Coq Require Import ZifyBool ZifyNat.
From Verif Require Import Py PyFacts FunModel FunSpec FunProofs ZlibModel ZlibProofs ReaderModel PackModel IndexSpec Prop_Index Prop_Pack OsModel LooseModel PackDbModel Prop_PackDb CompoundModel GitModel GitSpec Prop_Git GitAbbrModel GitAbbrSpec GitAbbrProofs TextModel TextSpec TextProofs.

(** ** C92 *)
(** Bytes become the text they are the UTF-8 form of, or raise ValueError. *)
Theorem C92_text_of_bytes : forall b, is_bytes b ->
  (forall t, force_text (VBytes b) = Ok t <-> utf8 t b) /\
  ((exists t, utf8 t b) \/ force_text (VBytes b) = Raise ValueError).
Proof.
  intros b Hb. split; [intros t; now apply decode_iff|]. destruct (decode_total (length b) b (le_n _)) as [(t & H)|H]; [left; exists t; now apply decode_iff|now right].
Qed.
Print Assumptions C92_text_of_bytes.
(** Text becomes its UTF-8 form, unless there are surrogates in it. *)
Theorem C92_bytes_of_text : forall t, is_text t ->
  (forall b, force_bytes (VStr t) = Ok (VBytes b) <-> utf8 t b) /\
  (Forall scalar t -> exists b, force_bytes (VStr t) = Ok (VBytes b)) /\ (~ Forall scalar t -> force_bytes (VStr t) = Raise ValueError).
Proof.
  intros t Ht. cbn [force_bytes]. assert (H1 : forall b, (let! b := utf8_encode t in Ok (VBytes b)) = Ok (VBytes b) <-> utf8 t b).
  { intros b. rewrite <- (encode_iff t Ht). destruct (utf8_encode t); cbn [bind]; split; intros H; congruence. }
  split; [exact H1|]. split.
  - intros Hs. destruct (scalars_utf8 t Hs) as (b & Hb). exists b. now apply H1.
  - intros Hn. destruct (encode_total t Ht) as [(b & E)| ->]; [|easy]. elim Hn. apply (utf8_scalars t b). now apply encode_iff.
Qed.
Print Assumptions C92_bytes_of_text.
(** There and back again. *)
Theorem C92_round_trip : forall b t, (is_bytes b -> force_text (VBytes b) = Ok t -> force_bytes (VStr t) = Ok (VBytes b)) /\
  (is_text t -> force_bytes (VStr t) = Ok (VBytes b) -> force_text (VBytes b) = Ok t) /\
  force_bytes (VBytes b) = Ok (VBytes b) /\ force_text (VStr t) = Ok t.
Proof.
  intros b t. split; [|split; [|now split]].
  - intros Hb H. apply C92_text_of_bytes in H; [|easy]. apply C92_bytes_of_text; [now apply utf8_bytes in H|easy].
  - intros Ht H. apply C92_bytes_of_text in H; [|easy]. apply C92_text_of_bytes; [now apply utf8_bytes in H|easy].
Qed.
Print Assumptions C92_round_trip.
(** The header of a loose object: type names as bytes or text that are ASCII give the header
    the other properties are about, others raise ValueError. *)
Theorem C92_header : forall (type : value) (t : text) (size : Z),
  match type with VStr s => t = s | VBytes b | VBuffer b => is_bytes b /\ utf8 t b | VOther => False end -> is_text t ->
  (ascii t -> loose_header_of type size = Ok (loose_object_header t size)) /\ (~ ascii t -> loose_header_of type size = Raise ValueError).
Proof.
  intros type t size Hv Ht. apply force_text_value in Hv. split; [intros Ha; exact (header_ok type t size Hv Ha)|now apply header_bad].
Qed.
Print Assumptions C92_header.
(** Abbreviated names can be given as bytes or as text. *)
Theorem C92_digits : forall (F : fs) (fuel : nat) (d : db) (digits : bytes) (v : value), any_hex digits ->
  v = VBytes digits \/ v = VStr digits \/ v = VBuffer digits -> db_partial_of F fuel v d = db_partial F fuel digits d.
Proof. intros F fuel d digits v Hd Hv. now apply partial_of. Qed.
Print Assumptions C92_digits.
(** U+20AC, U+E9, U+1D11E; a surrogate; an overlong form, a truncated one; a type name that is
    not ASCII; the digits 0d0 of a loose object. *)
Example C92_example :
  force_bytes (VStr [8364; 233; 119070]) = Ok (VBytes [226; 130; 172; 195; 169; 240; 157; 132; 158]) /\
  force_text (VBytes [226; 130; 172; 195; 169; 240; 157; 132; 158]) = Ok [8364; 233; 119070] /\
  force_bytes (VStr [97; 55357]) = Raise ValueError /\ force_text (VBytes [192; 175]) = Raise ValueError /\ force_text (VBytes [97; 226; 130]) = Raise ValueError /\
  loose_header_of (VBytes str_blob_type) 12 = Ok [98; 108; 111; 98; 32; 49; 50; 0] /\ loose_header_of (VStr [98; 233]) 12 = Raise ValueError /\
  fst (db_partial_of ex_F 9 (VBytes [48; 100; 48]) (gitdb p_a)) = Ok n1 /\ fst (db_partial_of ex_F 9 (VStr [48; 100; 48]) (gitdb p_a)) = Ok n1.
Proof. repeat (split; [by_vm|]). by_vm. Qed.

(** ** C93 *)
(** A name that is not found is shown as the repr of a bytes object. *)
Theorem C93_name_refuted : forall sha, sha_ok sha -> bad_object_message (ByName sha) = Ok (str_bad_object ++ [98; 39] ++ bin_to_hex sha ++ [39]).
Proof. intros sha [Hl Hb]. unfold bad_object_message, bad_object_arg. cbn [bind]. apply text_bytes; [easy|lia]. Qed.
Print Assumptions C93_name_refuted.
(** An abbreviated name given to a LooseObjectDB as text: the text of the exception cannot be
    made, the attempt raises TypeError. *)
Theorem C93_loose_abbreviation_refuted : forall digits, len digits <> 40 -> bad_object_message (LoosePart (VStr digits)) = Raise TypeError.
Proof. intros digits Hl. unfold bad_object_message, bad_object_arg. cbn [bind]. now apply text_str. Qed.
Print Assumptions C93_loose_abbreviation_refuted.
(** Given as bytes the hexadecimal form of the digits is shown. *)
Theorem C93_loose_bytes_refuted : forall digits, is_bytes digits -> len digits <> 40 ->
  bad_object_message (LoosePart (VBytes digits)) = Ok (str_bad_object ++ [98; 39] ++ bin_to_hex digits ++ [39]).
Proof. intros digits Hb Hl. unfold bad_object_message, bad_object_arg. cbn [bind]. now apply text_bytes. Qed.
Print Assumptions C93_loose_bytes_refuted.
(** 40 bytes are taken for digits, whatever they are, and shown as a literal of Python
    ([literal]): b, quotes, printable characters and escapes. *)
Theorem C93_forty_bytes_refuted : forall b l, is_bytes b -> len b = 40 -> l = LoosePart (VBytes b) \/ l = ByPath (VBytes b) \/ l = PackedPart b \/ l = ByName b ->
  exists q t, (q = 39 \/ (q = 34 /\ In 39 b /\ ~ In 34 b)) /\ bad_object_message l = Ok (str_bad_object ++ [98; q] ++ t ++ [q]) /\ literal q t b.
Proof. intros b l Hb Hl [-> |[-> |[-> | ->]]]; unfold bad_object_message, bad_object_arg; cbn [bind]; now apply text_forty. Qed.
Print Assumptions C93_forty_bytes_refuted.
(** An abbreviated name that is not found in a PackedDB: all of its bytes are shown, also the
    half of the last one that was not asked for. *)
Theorem C93_packed_abbreviation_refuted : forall partial, is_bytes partial -> len partial <> 40 ->
  bad_object_message (PackedPart partial) = Ok (str_bad_object ++ [98; 39] ++ bin_to_hex partial ++ [39]).
Proof. intros partial Hb Hl. unfold bad_object_message, bad_object_arg. cbn [bind]. now apply text_bytes. Qed.
Print Assumptions C93_packed_abbreviation_refuted.
(** An abbreviated name given to a CompoundDB: in lower case, as the repr of a bytes object,
    and with a 0 at the end if the number of digits is odd. *)
Theorem C93_compound_abbreviation_refuted : forall digits v, any_hex digits -> len digits < 79 -> v = VBytes digits \/ v = VStr digits \/ v = VBuffer digits ->
  bad_object_message (CompoundPart v) = Ok (str_bad_object ++ [98; 39] ++ (if Z.even (len digits) then lower digits else lower digits ++ [48]) ++ [39]).
Proof. intros digits v Hd Hl Hv. rewrite (compound_text v digits Hv Hd Hl). unfold pad_even. now rewrite lower_len. Qed.
Print Assumptions C93_compound_abbreviation_refuted.
(** Right is the text for a full name given as text to readable_db_object_path. *)
Theorem C93_path_partial : forall hexsha, len hexsha = 40 -> bad_object_message (ByPath (VStr hexsha)) = Ok (str_bad_object ++ hexsha).
Proof. intros hexsha Hl. unfold bad_object_message, bad_object_arg. cbn [bind]. now apply text_hex_str. Qed.
Print Assumptions C93_path_partial.
Example C93_example :
  bad_object_message (ByName (repeat 171 20)) = Ok ([66; 97; 100; 79; 98; 106; 101; 99; 116; 58; 32; 98; 39] ++ concat (repeat [97; 98] 20) ++ [39]) /\
  bad_object_message (LoosePart (VStr [97; 98; 99])) = Raise TypeError /\
  bad_object_message (LoosePart (VBytes [97; 98; 99])) = Ok [66; 97; 100; 79; 98; 106; 101; 99; 116; 58; 32; 98; 39; 54; 49; 54; 50; 54; 51; 39] /\
  bad_object_message (CompoundPart (VStr [97; 66; 99])) = Ok [66; 97; 100; 79; 98; 106; 101; 99; 116; 58; 32; 98; 39; 97; 98; 99; 48; 39] /\
  bad_object_message (PackedPart [171; 192]) = Ok [66; 97; 100; 79; 98; 106; 101; 99; 116; 58; 32; 98; 39; 97; 98; 99; 48; 39] /\
  bad_object_message (LoosePart (VBytes (repeat 97 36 ++ [39; 10; 127; 92]))) =
    Ok ([66; 97; 100; 79; 98; 106; 101; 99; 116; 58; 32; 98; 34] ++ repeat 97 36 ++ [39; 92; 110; 92; 120; 55; 102; 92; 92; 34]) /\
  any_hex [97; 66; 99] /\ sha_ok (repeat 171 20).
Proof. repeat (split; [by_vm|]). split; [repeat constructor; lia|]. split; [easy|]. repeat constructor; lia. Qed.
