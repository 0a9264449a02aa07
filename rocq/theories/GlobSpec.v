(** Patterns of file names, as a relation: fnmatch(3) without escapes and named classes. *)
From Verif Require Import Py.

(** what begins with a range like a-z *)
Definition range_first (s : bytes) : Prop := exists a b t, s = a :: 45 :: b :: t.
(** the characters a bracket expression stands for *)
Inductive in_set (c : Z) : bytes -> Prop :=
| set_range a b s : a <= c <= b -> in_set c (a :: 45 :: b :: s)
| set_range_later a b s : in_set c s -> in_set c (a :: 45 :: b :: s)
| set_char s : ~ range_first (c :: s) -> in_set c (c :: s)
| set_char_later a s : ~ range_first (a :: s) -> in_set c s -> in_set c (a :: s).
(** "!" at the start negates; the first character (after it) may be "]". *)
Definition bang (neg : bool) : bytes := if neg then [33] else [].
Definition set_body (neg : bool) (f : Z) (rest : bytes) : Prop := (neg = false -> f <> 33) /\ ~ In 93 rest.
Definition unclosed (p : bytes) : Prop := forall neg f rest p', set_body neg f rest -> p <> bang neg ++ f :: rest ++ 93 :: p'.
(** [shell p s]: the pattern [p] stands for the name [s]. *)
Inductive shell : bytes -> bytes -> Prop :=
| shell_end : shell [] []
| shell_star p x s : shell p s -> shell (42 :: p) (x ++ s)
| shell_any p c s : shell p s -> shell (63 :: p) (c :: s)
| shell_set neg f rest p c s : set_body neg f rest -> (in_set c (f :: rest) <-> neg = false) -> shell p s -> shell (91 :: bang neg ++ f :: rest ++ 93 :: p) (c :: s)
| shell_unclosed p s : unclosed p -> shell p s -> shell (91 :: p) (91 :: s)
| shell_char c p s : c <> 42 -> c <> 63 -> c <> 91 -> shell p s -> shell (c :: p) (c :: s).
