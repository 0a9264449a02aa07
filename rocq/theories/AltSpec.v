(** What git reads in objects/info/alternates (git's documentation, gitrepository-layout, and its
    parser): one path per line, lines end with a line feed and nothing else; lines that begin
    with # are comments; a line that begins with a double quote is a string quoted as in C. *)
From Coq Require Import Relations.
From Verif Require Import Py FunModel ZlibModel ReaderModel PackModel OsModel LooseModel PackDbModel CompoundModel GitModel GitSpec.

(** A line of the file, without the line feed. *)
Definition nl_line (text line : list Z) : Prop :=
  exists a b, text = a ++ line ++ b /\ (a = [] \/ exists a', a = a' ++ [10]) /\ (b = [] \/ exists b', b = 10 :: b') /\ ~ In 10 line.
(** What stands between the quotes, and the path it means.  (Octal escapes from 128 on, which are
    single bytes of a UTF-8 sequence, are left out.) *)
Inductive c_quoted : list Z -> list Z -> Prop :=
| cq_end : c_quoted [] []
| cq_char c q p : c <> 34 -> c <> 92 -> c_quoted q p -> c_quoted (c :: q) (c :: p)
| cq_escape e c q p : In (e, c) [(97, 7); (98, 8); (102, 12); (110, 10); (114, 13); (116, 9); (118, 11); (92, 92); (34, 34)] ->
    c_quoted q p -> c_quoted (92 :: e :: q) (c :: p)
| cq_octal a b c q p : 0 <= a <= 1 -> 0 <= b <= 7 -> 0 <= c <= 7 -> c_quoted q p -> c_quoted (92 :: 48 + a :: 48 + b :: 48 + c :: q) (64 * a + 8 * b + c :: p).
(** The path that a line means. *)
Inductive git_entry : list Z -> list Z -> Prop :=
| ge_plain c l : c <> 35 -> c <> 34 -> git_entry (c :: l) (c :: l)
| ge_quoted q p : c_quoted q p -> git_entry (34 :: q ++ [34]) p.
Definition git_lists (text p : list Z) : Prop := exists line, nl_line text line /\ git_entry line p.
(** The next repositories as git sees them (paths that are absolute; see C77 for the others). *)
Definition git_next (F : fs) (r p : list Z) : Prop :=
  (exists R text, f_repo F r = Some R /\ r_alt R = Some (Ok text) /\ git_lists text p) /\ usable F p.
Definition git_reaches (F : fs) : list Z -> list Z -> Prop := clos_refl_trans _ (git_next F).

(** Characters that mean nothing to git, but something to Python: white space around the path,
    and what str.splitlines takes for the end of a line. *)
Definition odd_path (p : list Z) : Prop :=
  (exists c p', p = c :: p' /\ white c) \/ (exists c p', p = p' ++ [c] /\ white c) \/ exists c, In c p /\ line_break c.
(** A line without such characters and without quotes: a path or a comment. *)
Definition plain_line (line : list Z) : Prop := line = [] \/ (~ odd_path line /\ forall l, line <> 34 :: l).
