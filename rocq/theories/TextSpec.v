(** Unicode and what the texts of exceptions should say. *)
From Verif Require Import Py FunModel TextModel.

(** Code points that have an encoding form (Unicode scalar values). *)
Definition scalar (c : Z) : Prop := 0 <= c < 55296 \/ 57344 <= c < 1114112.
(** The encoding form UTF-8, RFC 3629: lead byte by length, then six bits per byte. *)
Inductive utf8_of : Z -> bytes -> Prop :=
| u1 c : 0 <= c < 128 -> utf8_of c [c]
| u2 x y : 0 <= x < 32 -> 0 <= y < 64 -> 128 <= 64 * x + y -> utf8_of (64 * x + y) [192 + x; 128 + y]
| u3 x y z : 0 <= x < 16 -> 0 <= y < 64 -> 0 <= z < 64 -> 2048 <= 4096 * x + 64 * y + z -> utf8_of (4096 * x + 64 * y + z) [224 + x; 128 + y; 128 + z]
| u4 x y z w : 0 <= x < 8 -> 0 <= y < 64 -> 0 <= z < 64 -> 0 <= w < 64 -> 65536 <= 262144 * x + 4096 * y + 64 * z + w ->
    utf8_of (262144 * x + 4096 * y + 64 * z + w) [240 + x; 128 + y; 128 + z; 128 + w].
Inductive utf8 : text -> bytes -> Prop :=
| un : utf8 [] []
| uc c t f b : scalar c -> utf8_of c f -> utf8 t b -> utf8 (c :: t) (f ++ b).

Definition ascii (t : text) : Prop := Forall (fun c => 0 <= c < 128) t.
Definition is_text (t : text) : Prop := Forall (fun c => 0 <= c < 1114112) t.

(** What stands between the quotes q of a bytes literal of Python, and the bytes it means:
    printable ASCII characters, and escapes. *)
Definition hex_char (c v : Z) : Prop := (48 <= c <= 57 /\ v = c - 48) \/ (97 <= c <= 102 /\ v = c - 87).
Inductive literal (q : Z) : text -> bytes -> Prop :=
| lit_nil : literal q [] []
| lit_plain c t b : 32 <= c <= 126 -> c <> q -> c <> 92 -> literal q t b -> literal q (c :: t) (c :: b)
| lit_quote c t b : c = q \/ c = 92 -> literal q t b -> literal q (92 :: c :: t) (c :: b)
| lit_letter l c t b : In (l, c) [(116, 9); (110, 10); (114, 13)] -> literal q t b -> literal q (92 :: l :: t) (c :: b)
| lit_hex x y h l t b : hex_char x h -> hex_char y l -> literal q t b -> literal q (92 :: 120 :: x :: y :: t) (16 * h + l :: b).
