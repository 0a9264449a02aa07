(** What GitDB.store has to do, and what a GitDB has to answer while objects are stored. *)
From Coq Require Import Permutation.
From Verif Require Import Py FunModel FunSpec IndexSpec ZlibModel ReaderModel PackModel PackSpec OsModel LooseModel LooseSpec PackDbModel PackDbSpec CreateSpec
  CompoundModel GitModel GitSpec GitStoreModel.

(** ** The repositories in a file system *)
(** Where the objects directories are and which of them have a directory "pack", by path; how
    the alternates file is decoded; the time stamps of the pack directories; the order in
    which sets are iterated. *)
Record disk := mk_disk {
  k_place : list Z -> option (path * bool); k_decode : bytes -> res (list Z); k_time : path -> Z; k_order : list bytes -> list bytes }.
Definition pack_dir (p : path) : path := p ++ [[112; 97; 99; 107]].
Definition alternates_file (p : path) : path := p ++ [[105; 110; 102; 111]; [97; 108; 116; 101; 114; 110; 97; 116; 101; 115]].
(** Empty files cannot be mapped. *)
Definition mapped (d : bytes) : res bytes := match d with [] => Raise ValueError | _ => Ok d end.
(** The loose objects: the files named like objects. *)
Definition loose_at (p : path) (s : world) : list (bytes * res bytes) :=
  flat_map (fun e => match hex_to_bin (basename (dirname (fst e)) ++ basename (fst e)) with
                     | Ok sha => if path_eqb (fst e) (object_file p sha) && (len sha =? 20) then [(sha, mapped (w_data s (snd e)))] else []
                     | _ => []
                     end) (w_files s).
Definition repo_at (D : disk) (p : path) (packs : bool) (s : world) : repo :=
  mk_repo (if packs then Some (dir_at (pack_dir p) (k_time D p) s) else None) (loose_at p s)
    (option_map (k_decode D) (contents s (alternates_file p))).
Definition fs_at (D : disk) (s : world) : fs :=
  mk_fs (fun r => option_map (fun x => repo_at D (fst x) (snd x) s) (k_place D r)) (k_order D).
Definition at_of (D : disk) (r : list Z) : path := match k_place D r with Some (p, _) => p | None => [] end.

(** ** A GitDB in use while objects are stored *)
Section Use.
  Context (K : zlib) (sha1 : bytes -> bytes) (pagesize : Z) {R : Type} (read : R -> Z -> res (bytes * R)) (O : os) (D : disk).
  (** What is noted: a question, its answer and the files at that time; what was given and
      given back by a store that succeeded, with the files before and after. *)
  Inductive note := Asked (s : world) (o : gop) (a : ganswer) | Stored (s : world) (i i' : istream R) (s' : world).
  (** May be stored: the name, if it is given, is a sha. *)
  Definition named (i : istream R) : Prop := forall sha, is_binsha i = Some sha -> sha_ok sha.
  (** Questions to a database and stores through it that succeed or raise; stores by others,
      into any repository, that may be interrupted. *)
  Inductive history (fuel : nat) : db -> world -> list note -> db -> world -> Prop :=
  | h_end d s : history fuel d s [] d s
  | h_ask d s o a d1 l d2 s2 : g_proper o -> g_do (fs_at D s) K fuel o d = (a, d1) ->
      history fuel d1 s l d2 s2 -> history fuel d s (Asked s o a :: l) d2 s2
  | h_store n d s i p d1 i' s1 l d2 s2 : named i -> git_store K sha1 pagesize read (at_of D) (fs_at D s) n d i = (p, d1) -> runs O p s (Ok i') s1 ->
      history fuel d1 s1 l d2 s2 -> history fuel d s (Stored s i i' s1 :: l) d2 s2
  | h_fail n d s i p d1 x s1 l d2 s2 : named i -> git_store K sha1 pagesize read (at_of D) (fs_at D s) n d i = (p, d1) -> runs O p s (Raise x) s1 ->
      history fuel d1 s1 l d2 s2 -> history fuel d s l d2 s2
  | h_other n q root b noatime d s i s1 l d2 s2 : named i -> k_place D q = Some (root, b) ->
      stops O (LooseModel.store K sha1 pagesize read n (loose_init root noatime) None i) s s1 ->
      history fuel d s1 l d2 s2 -> history fuel d s l d2 s2.
End Use.
Arguments Asked {R}. Arguments Stored {R}.
