(** Model of how a PackedDB finds its files: glob.glob(os.path.join(root, "pack-*.pack")),
    gitdb/db/pack.py:149, and the two file names of a PackEntity, gitdb/pack.py:666-670.
    os.path, glob and fnmatch are those of Python 3.11 on posix.  Definitions only.

    Simplifications: the file system does not change meanwhile; links are not followed; a
    bracket expression whose first range is empty (like "[z-a!b]") is not treated specially. *)
From Verif Require Import Py.

Definition str := list Z.
(** What is there: the entries of the directory at a path, each with whether it is a
    directory (None: the directory cannot be listed), and whether there is something at a
    path.  The empty path stands for the current directory. *)
Record tree := mk_tree { t_list : str -> option (list (str * bool)); t_exists : str -> bool; t_isdir : str -> bool }.

(** ** os.path *)
Definition slash : Z := 47.
(** up to and including the last slash, and what follows *)
Fixpoint at_last_slash (p : str) : str * str :=
  match p with
  | [] => ([], [])
  | c :: p' =>
      match at_last_slash p' with
      | ([], t) => if c =? slash then ([c], t) else ([], c :: t)
      | (h, t) => (c :: h, t)
      end
  end.
Fixpoint drop_slashes (p : str) : str :=
  match p with [] => [] | c :: p' => if c =? slash then drop_slashes p' else p end.
(** os.path.split *)
Definition path_split (p : str) : str * str :=
  let (h, t) := at_last_slash p in
  (if forallb (Z.eqb slash) h then h else rev (drop_slashes (rev h)), t).
(** os.path.join of two *)
Definition path_join (a b : str) : str :=
  match b with
  | c :: _ => if c =? slash then b
              else match a with [] => b | _ => if last a 0 =? slash then a ++ b else a ++ slash :: b end
  | [] => match a with [] => b | _ => if last a 0 =? slash then a else a ++ [slash] end
  end.
Definition rfind (c : Z) (p : str) : Z :=
  let k := find c (rev p) in if k <? 0 then -1 else len p - 1 - k.
Definition dot : Z := 46.
(** os.path.splitext *)
Definition splitext (p : str) : str * str :=
  let sep := rfind slash p in
  let d := rfind dot p in
  if (sep <? d) && existsb (fun c => negb (c =? dot)) (slice p (sep + 1) d) then (slice_to p d, slice_from p d)
  else (p, []).

(** ** fnmatch *)
Inductive tok := Star | Any | Lit (c : Z) | Class (neg : bool) (ranges : list (Z * Z)).
(** Up to the closing bracket: the first character may be "!" and the one after that "]". *)
Fixpoint until_bracket (p : str) : option (str * str) :=
  match p with
  | [] => None
  | c :: p' => if c =? 93 then Some ([], p') else option_map (fun q => (c :: fst q, snd q)) (until_bracket p')
  end.
Definition skip_char (c : Z) (k : str -> option (str * str)) (p : str) : option (str * str) :=
  match p with
  | x :: p' => if x =? c then option_map (fun q => (x :: fst q, snd q)) (k p') else k p
  | [] => k p
  end.
Definition bracket (p : str) : option (str * str) := skip_char 33 (skip_char 93 until_bracket) p.
(** characters and ranges; "-" at the end stands for itself *)
Fixpoint ranges (s : str) : list (Z * Z) :=
  match s with
  | [] => []
  | a :: s1 =>
      match s1 with
      | m :: b :: s2 => if m =? 45 then (a, b) :: ranges s2 else (a, a) :: ranges s1
      | _ => (a, a) :: ranges s1
      end
  end.
Definition char_class (s : str) : tok :=
  match s with
  | c :: s' => if c =? 33 then Class true (ranges s') else Class false (ranges s)
  | [] => Class false []
  end.
(** fnmatch.translate *)
Fixpoint translate (fuel : nat) (p : str) : list tok :=
  match fuel, p with
  | S f, c :: p' =>
      if c =? 42 then Star :: translate f p'
      else if c =? 63 then Any :: translate f p'
      else if c =? 91 then
        match bracket p' with
        | Some (s, p2) => char_class s :: translate f p2
        | None => Lit c :: translate f p'
        end
      else Lit c :: translate f p'
  | _, _ => []
  end.
Definition matches_one (t : tok) (c : Z) : bool :=
  match t with
  | Star => true
  | Any => true
  | Lit x => c =? x
  | Class neg rs => xorb neg (existsb (fun r => (fst r <=? c) && (c <=? snd r)) rs)
  end.
Fixpoint matches (ts : list tok) (s : str) : bool :=
  match ts with
  | [] => match s with [] => true | _ => false end
  | t :: ts' =>
      match t with
      | Star => (fix any (s : str) : bool :=
                   matches ts' s || match s with [] => false | _ :: s' => any s' end) s
      | _ => match s with [] => false | c :: s' => matches_one t c && matches ts' s' end
      end
  end.
Definition fnmatch (s p : str) : bool := matches (translate (length p) p) s.

(** ** glob *)
(** has_magic *)
Definition has_magic (p : str) : bool := existsb (fun c => (c =? 42) || (c =? 63) || (c =? 91)) p.
Definition is_hidden (p : str) : bool := match p with c :: _ => c =? dot | [] => false end.
(** _listdir: a directory that cannot be listed has no entries. *)
Definition entries (T : tree) (d : str) (dironly : bool) : list str :=
  match t_list T d with
  | Some l => map fst (filter (fun e => negb dironly || snd e) l)
  | None => []
  end.
(** _glob1 *)
Definition glob1 (T : tree) (d p : str) (dironly : bool) : list str :=
  filter (fun n => fnmatch n p) (filter (fun n => is_hidden p || negb (is_hidden n)) (entries T d dironly)).
(** _glob0 *)
Definition glob0 (T : tree) (d n : str) : list str :=
  match n with
  | [] => if t_isdir T d then [n] else []
  | _ => if t_exists T (path_join d n) then [n] else []
  end.
(** _iglob, not recursive *)
Fixpoint iglob (fuel : nat) (T : tree) (p : str) (dironly : bool) : list str :=
  match fuel with
  | O => []
  | S f =>
      let (d, b) := path_split p in
      if negb (has_magic p) then
        match b with
        | [] => if t_isdir T d then [p] else []
        | _ => if t_exists T p then [p] else []
        end
      else if match d with [] => true | _ => false end then glob1 T d b dironly
      else
        let dirs := if negb (beq d p) && has_magic d then iglob f T d true else [d] in
        flat_map (fun d' => map (path_join d') (if has_magic b then glob1 T d' b dironly else glob0 T d' b)) dirs
  end.
Definition glob (T : tree) (p : str) : list str := iglob (S (length p)) T p false.

(** "pack-*.pack" *)
Definition pack_pattern : str := [112; 97; 99; 107; 45; 42; 46; 112; 97; 99; 107].
(** gitdb/db/pack.py:149 *)
Definition pack_files (T : tree) (root : str) : list str := glob T (path_join root pack_pattern).
(** gitdb/pack.py:666-670: the path of the index and that of the pack *)
Definition entity_files (p : str) : str * str :=
  let base := fst (splitext p) in (base ++ [46; 105; 100; 120], base ++ [46; 112; 97; 99; 107]).
