(** Model of GitDB (gitdb/db/git.py) and ReferenceDB (gitdb/db/ref.py).  Definitions only.
    What a call finds on disk is one state of the file system that does not change during
    the call.  A path is a string, a list of code points; text files are decoded already.
    The members of a GitDB are those of the classes named in gitdb/db/git.py:31-33, those of
    a ReferenceDB are GitDB instances (gitdb/db/ref.py:36-39). *)
From Verif Require Import Py FunModel ZlibModel ReaderModel PackModel OsModel LooseModel MemModel PackDbModel CompoundModel.

(** ** What is on disk *)
(** An objects directory: the directory "pack", if there is one; the loose objects, each with
    what opening and mapping its file gives; the text of info/alternates if there is such a
    file, or what reading it raises (ValueError if it is not UTF-8). *)
Record repo := mk_repo { r_pack : option dir; r_loose : list (bytes * res bytes); r_alt : option (res (list Z)) }.
(** All directories by path, and the order in which a set is iterated.  The empty path stands
    for the current directory, although os.path.exists("") is false. *)
Record fs := mk_fs { f_repo : list Z -> option repo; f_order : list bytes -> list bytes }.
Definition pack_env (F : fs) (root : list Z) : env :=
  mk_env (match f_repo F root with Some r => r_pack r | None => None end) (f_order F).

(** str.splitlines: the characters at which it splits, gitdb/db/ref.py:46 *)
Definition is_break (c : Z) : bool := existsb (Z.eqb c) [10; 11; 12; 13; 28; 29; 30; 133; 8232; 8233].
Fixpoint split_from (line text : list Z) : list (list Z) :=
  match text with
  | [] => match line with [] => [] | _ => [line] end
  | c :: text' =>
      if is_break c then
        line :: match text' with
                | c' :: text'' => if (c =? 13) && (c' =? 10) then split_from [] text'' else split_from [] text'
                | [] => []
                end
      else split_from (line ++ [c]) text'
  end.
Definition splitlines (text : list Z) : list (list Z) := split_from [] text.
(** str.strip: white space characters *)
Definition is_space (c : Z) : bool :=
  existsb (Z.eqb c) [9; 10; 11; 12; 13; 28; 29; 30; 31; 32; 133; 160; 5760; 8232; 8233; 8239; 8287; 12288] || ((8192 <=? c) && (c <=? 8202)).
Fixpoint lstrip (l : list Z) : list Z :=
  match l with [] => [] | c :: l' => if is_space c then lstrip l' else l end.
Definition strip (l : list Z) : list Z := rev (lstrip (rev (lstrip l))).

(** gitdb/db/ref.py:43-49: the lines of the alternates file; any OSError gives no lines. *)
Definition ref_paths (F : fs) (root : list Z) : res (list (list Z)) :=
  match f_repo F root with
  | None => Ok []
  | Some r =>
      match r_alt r with
      | None => Ok []
      | Some (Ok text) => Ok (map strip (splitlines text))
      | Some (Raise e) => if is_oserror e then Ok [] else Raise e
      | Some Diverge => Diverge
      end
  end.

(** ** Databases *)
(** A PackedDB, a LooseObjectDB with the objects whose path it remembers, a GitDB and a
    ReferenceDB with their members if these have been set up.  The path is that of the
    objects directory each belongs to. *)
Inductive db :=
| Packed (root : list Z) (s : pdb)
| Loose (root : list Z) (known : list bytes)
| Git (root : list Z) (dbs : option (compound db))
| Ref (root : list Z) (dbs : option (compound db)).
Definition db_root (d : db) : list Z :=
  match d with Packed r _ => r | Loose r _ => r | Git r _ => r | Ref r _ => r end.
Definition is_loose (d : db) : bool := match d with Loose _ _ => true | _ => false end.

(** gitdb/db/git.py:46-58: for "pack", "" and "info/alternates" *)
Definition git_members (F : fs) (root : list Z) : list db :=
  match f_repo F root with
  | None => []
  | Some r =>
      match r_pack r with Some _ => [Packed root packed_init] | None => [] end ++
      match root with [] => [] | _ => [Loose root []] end ++
      match r_alt r with Some _ => [Ref root None] | None => [] end
  end.
(** gitdb/db/git.py:45-69: what is raised, and _dbs afterwards *)
Definition git_load (F : fs) (root : list Z) : res unit * list db :=
  let dbs := git_members F root in
  (match dbs with
   | [] => Raise InvalidDBRoot
   | _ => if existsb is_loose dbs then Ok tt else Raise AssertionError
   end, dbs).

(** gitdb/db/ref.py:54-61.  del(self._dbs[i]) for the databases of a copy of the list with
    the path to remove. *)
Fixpoint remove_at {A} (i : nat) (l : list A) : option (list A) :=
  match i, l with
  | _, [] => None
  | O, _ :: l' => Some l'
  | S i, x :: l' => option_map (cons x) (remove_at i l')
  end.
Fixpoint del_loop (p : list Z) (i : nat) (copy dbs : list db) : res unit * list db :=
  match copy with
  | [] => (Ok tt, dbs)
  | d :: copy' =>
      if beq (db_root d) p then
        match remove_at i dbs with
        | Some dbs => del_loop p (S i) copy' dbs
        | None => (Raise IndexError, dbs)
        end
      else del_loop p (S i) copy' dbs
  end.
Fixpoint remove_dbs (gone : list (list Z)) (dbs : list db) : res unit * list db :=
  match gone with
  | [] => (Ok tt, dbs)
  | p :: gone' =>
      match del_loop p 0 dbs dbs with
      | (Ok _, dbs) => remove_dbs gone' dbs
      | (r, dbs) => (r, dbs)
      end
  end.
(** gitdb/db/ref.py:65: sorted by the first place in the file *)
Fixpoint place (p : list Z) (l : list (list Z)) : Z :=
  match l with [] => 0 | q :: l' => if beq q p then 0 else 1 + place p l' end.
Fixpoint insert_path (paths : list (list Z)) (p : list Z) (l : list (list Z)) : list (list Z) :=
  match l with
  | [] => [p]
  | q :: l' => if place p paths <=? place q paths then p :: l else q :: insert_path paths p l'
  end.
Fixpoint sort_paths (paths l : list (list Z)) : list (list Z) :=
  match l with [] => [] | p :: l' => insert_path paths p (sort_paths paths l') end.
(** gitdb/db/ref.py:66-77: GitDB(path) with databases(), which sets up its members; an
    exception leaves the path out. *)
Fixpoint add_dbs (F : fs) (new : list (list Z)) (dbs : list db) : list db :=
  match new with
  | [] => dbs
  | p :: new' =>
      match git_load F p with
      | (Ok _, l) => add_dbs F new' (dbs ++ [Git p (Some (mk_compound l []))])
      | _ => add_dbs F new' dbs
      end
  end.
(** gitdb/db/ref.py:51-77, with the lines [paths] read from the file *)
Definition ref_refresh (F : fs) (paths : list (list Z)) (dbs : list db) : res unit * list db :=
  let ref_paths_set := dedup paths in
  let cur_ref_paths_set := dedup (map db_root dbs) in
  match remove_dbs (f_order F (filter (fun p => negb (mem p ref_paths_set)) cur_ref_paths_set)) dbs with
  | (Ok _, dbs) =>
      let added_paths := sort_paths paths (f_order F (filter (fun p => negb (mem p cur_ref_paths_set)) ref_paths_set)) in
      (Ok tt, add_dbs F added_paths dbs)
  | (r, dbs) => (r, dbs)
  end.
(** gitdb/db/ref.py:27-29: what is raised, and _dbs afterwards *)
Definition ref_load (F : fs) (root : list Z) : res unit * list db :=
  match ref_paths F root with
  | Ok paths => ref_refresh F paths []
  | Raise x => (Raise x, [])
  | Diverge => (Diverge, [])
  end.

(** gitdb/util.py:237-266: using _dbs for the first time sets up the members.  The attribute
    stays set if that raises. *)
Definition with_dbs {A} (ld : res unit * list db) (dbs : option (compound db)) (k : compound db -> res A * compound db) : res A * compound db :=
  match dbs with
  | Some c => k c
  | None =>
      match ld with
      | (Ok _, l) => k (mk_compound l [])
      | (Raise x, l) => (Raise x, mk_compound l [])
      | (Diverge, l) => (Diverge, mk_compound l [])
      end
  end.
Definition in_git {A} (root : list Z) (p : res A * compound db) : res A * db := (fst p, Git root (Some (snd p))).
Definition in_ref {A} (root : list Z) (p : res A * compound db) : res A * db := (fst p, Ref root (Some (snd p))).
Definition in_packed {A} (root : list Z) (p : res A * pdb) : res A * db := (fst p, Packed root (snd p)).

(** gitdb/db/loose.py:92-106,168-175 *)
Definition loose_names (F : fs) (root : list Z) : list bytes :=
  match f_repo F root with Some r => map fst (r_loose r) | None => [] end.
Definition loose_has (F : fs) (root : list Z) (sha : bytes) (known : list bytes) : bool * list bytes :=
  if mem sha known then (true, known)
  else if mem sha (loose_names F root) then (true, sha :: known)
  else (false, known).
(** gitdb/db/loose.py:127-146 *)
Definition loose_map (F : fs) (root : list Z) (sha : bytes) : res bytes :=
  match f_repo F root with
  | None => Raise BadObject
  | Some r => match file_named sha (r_loose r) with
              | Raise e => Raise (if is_oserror e then BadObject else e)
              | c => c
              end
  end.

(** The methods.  [fuel] bounds how deep databases are nested; a database that refers to
    itself through alternates files has no bound. *)
Section Methods.
  Context (K : zlib) (F : fs).
  (** has_object: gitdb/db/pack.py:89-95, gitdb/db/loose.py:168-175, gitdb/db/base.py:201-207 *)
  Fixpoint db_has (fuel : nat) (sha : bytes) (d : db) : res bool * db :=
    match d, fuel with
    | Packed root s, _ => in_packed root (PackDbModel.has_object (pack_env F root) sha s)
    | Loose root known, _ => let (b, known) := loose_has F root sha known in (Ok b, Loose root known)
    | Git root dbs, S fuel => in_git root (with_dbs (git_load F root) dbs (c_has (db_has fuel) sha))
    | Ref root dbs, S fuel => in_ref root (with_dbs (ref_load F root) dbs (c_has (db_has fuel) sha))
    | _, O => (Diverge, d)
    end.
  (** info: gitdb/db/pack.py:97-99, gitdb/db/loose.py:154-162, gitdb/db/base.py:209-210 *)
  Fixpoint db_info (fuel : nat) (sha : bytes) (d : db) : res oinfo * db :=
    match d, fuel with
    | Packed root s, _ => in_packed root (PackDbModel.info K fuel (pack_env F root) sha s)
    | Loose root known, _ =>
        ((let! m := loose_map F root sha in let! (typ, size) := loose_object_header_info K m in Ok (mk_oinfo sha (PBytes typ) size)), d)
    | Git root dbs, S fuel => in_git root (with_dbs (git_load F root) dbs (c_ask (db_has fuel) (db_info fuel) sha))
    | Ref root dbs, S fuel => in_ref root (with_dbs (ref_load F root) dbs (c_ask (db_has fuel) (db_info fuel) sha))
    | _, O => (Diverge, d)
    end.
  (** sha_iter, run to its end: gitdb/db/pack.py:105-112, gitdb/db/loose.py:253-266 (files with
      proper names), gitdb/db/base.py:219-220 *)
  Fixpoint db_iter (fuel : nat) (d : db) : res (list bytes) * db :=
    match d, fuel with
    | Packed root s, _ => in_packed root (PackDbModel.sha_iter (pack_env F root) s)
    | Loose root known, _ => (Ok (loose_names F root), d)
    | Git root dbs, S fuel => in_git root (with_dbs (git_load F root) dbs (c_iter (db_iter fuel)))
    | Ref root dbs, S fuel => in_ref root (with_dbs (ref_load F root) dbs (c_iter (db_iter fuel)))
    | _, O => (Diverge, d)
    end.
  (** size: gitdb/db/pack.py:114-116, gitdb/db/loose.py:268-269, gitdb/db/base.py:215-217 *)
  Fixpoint db_size (fuel : nat) (d : db) : res Z * db :=
    match d, fuel with
    | Packed root s, _ => in_packed root (PackDbModel.size (pack_env F root) s)
    | Loose root known, _ => (Ok (len (loose_names F root)), d)
    | Git root dbs, S fuel => in_git root (with_dbs (git_load F root) dbs (c_size (db_size fuel)))
    | Ref root dbs, S fuel => in_ref root (with_dbs (ref_load F root) dbs (c_size (db_size fuel)))
    | _, O => (Diverge, d)
    end.
  (** update_cache: gitdb/db/pack.py:132-175, gitdb/db/base.py:230-239, gitdb/db/ref.py:79-82.
      A LooseObjectDB is not a CachingDB.  The alternates file is read before _dbs is used. *)
  Fixpoint db_update (fuel : nat) (force : bool) (d : db) : res bool * db :=
    match d, fuel with
    | Packed root s, _ => in_packed root (PackDbModel.update_cache (pack_env F root) force s)
    | Loose root known, _ => (Ok false, d)
    | Git root dbs, S fuel => in_git root (with_dbs (git_load F root) dbs (c_update (db_update fuel force)))
    | Ref root dbs, S fuel =>
        match ref_paths F root with
        | Ok paths =>
            in_ref root (with_dbs (ref_load F root) dbs (fun c =>
              match ref_refresh F paths (c_dbs c) with
              | (Ok _, l) => c_update (db_update fuel force) (mk_compound l (c_cache c))
              | (Raise x, l) => (Raise x, mk_compound l (c_cache c))
              | (Diverge, l) => (Diverge, mk_compound l (c_cache c))
              end))
        | Raise x => (Raise x, d)
        | Diverge => (Diverge, d)
        end
    | _, O => (Diverge, d)
    end.
End Methods.
(** gitdb/db/git.py:40-42 *)
Definition gitdb (root : list Z) : db := Git root None.
