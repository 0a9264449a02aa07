(** Names of objects, as people may write them. *)
From Verif Require Import Py FunModel TextModel.

(** A digit of base 16 and its value. *)
Definition digit (c n : Z) : Prop :=
  (48 <= c <= 57 /\ n = c - 48) \/ (97 <= c <= 102 /\ n = c - 97 + 10) \/ (65 <= c <= 70 /\ n = c - 65 + 10).
(** Digits spell bytes: two for each, the higher one first. *)
Inductive spells : list Z -> bytes -> Prop :=
| sp_nil : spells [] []
| sp_cons a x b y h s : digit a x -> digit b y -> spells h s -> spells (a :: b :: h) (16 * x + y :: s).
(** The characters or bytes of a value. *)
Definition letters (v : value) (l : list Z) : Prop := v = VBytes l \/ v = VBuffer l \/ v = VStr l.
(** [v] is a way to write the name [sha]: 40 digits, or the 20 bytes themselves, not as text. *)
Definition names (v : value) (sha : bytes) : Prop :=
  len sha = 20 /\ is_bytes sha /\
  (v = VBytes sha \/ v = VBuffer sha \/ exists h, letters v h /\ spells h sha).
