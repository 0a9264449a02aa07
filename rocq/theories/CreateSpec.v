(** What creating a pack in a directory may do, and what a scanner of the directory sees. *)
From Verif Require Import Py FunModel FunSpec IndexModel ZlibModel ReaderModel PackModel OsModel PackDbModel PackDbSpec.

(** What one process is asked to write. *)
Record job (R : Type) := mk_job { j_level : Z; j_objs : list (wobj (R := R)); j_count : option Z }.
Arguments mk_job {R}. Arguments j_level {R}. Arguments j_objs {R}. Arguments j_count {R}.

(** Files that create makes for itself: "pack" or "index" and eight characters. *)
Definition scratch (base t : path) : Prop :=
  exists pre suf, (pre = [112; 97; 99; 107] \/ pre = [105; 110; 100; 101; 120]) /\ tmp_suffix suf /\ t = base ++ [pre ++ suf].
(** Files a scanner of the directory looks at: "pack-" anything ".pack", and the index files. *)
Definition scanned (base p : path) : Prop :=
  exists name idx, pack_and_index name idx /\ (p = base ++ [name] \/ p = base ++ [idx]).

(** Names as git wants them, and as the code makes them. *)
Definition git_names (psha : bytes) (name idx : bytes) : Prop :=
  name = [112; 97; 99; 107; 45] ++ bin_to_hex psha ++ [46; 112; 97; 99; 107] /\
  idx = [112; 97; 99; 107; 45] ++ bin_to_hex psha ++ [46; 105; 100; 120].
Definition actual_names (psha : bytes) (name idx : bytes) : Prop :=
  name = [112; 97; 99; 107; 45; 98; 39] ++ bin_to_hex psha ++ [39; 46; 112; 97; 99; 107] /\
  idx = [112; 97; 99; 107; 45; 98; 39] ++ bin_to_hex psha ++ [39; 46; 105; 100; 120].

(** The directory as a database over it finds it (with this time stamp). *)
Definition dir_at (base : path) (mtime : Z) (s : world) : dir :=
  mk_dir mtime (map (fun e => (basename (fst e), Ok (w_data s (snd e))))
                  (filter (fun e => path_eqb (fst e) (base ++ [basename (fst e)])) (w_files s))).
(** A place where new files can be made and renamed. *)
Definition room (O : os) (base : path) (s : world) : Prop :=
  windows O = false /\ is_dir s base = true /\ forall n, is_dir s (base ++ [n]) = false.

Section Jobs.
  Context (K : zlib) (sha1 : bytes -> bytes) (pagesize : Z) {R : Type} (oread : R -> Z -> res (bytes * R)) (fuel : nat).
  (** The files of a job: where they go, and what is in them. *)
  Definition made (base : path) (j : job R) (pp ip : path) (pack idx : bytes) : Prop :=
    exists psha isha name iname,
      write_pack K sha1 pagesize oread fuel (j_level j) (j_objs j) (j_count j) = Ok (pack, psha, idx, isha) /\
      actual_names psha name iname /\ pp = base ++ [name] /\ ip = base ++ [iname].
  (** The pack file pp is a complete new one; so is the index file ip, and its pack is there. *)
  Definition new_pack (base : path) (js : list (job R)) (s : world) (pp : path) : Prop :=
    exists j ip pack idx, In j js /\ made base j pp ip pack idx /\ contents s pp = Some pack.
  Definition new_index (base : path) (js : list (job R)) (s : world) (ip : path) : Prop :=
    exists j pp pack idx, In j js /\ made base j pp ip pack idx /\ contents s ip = Some idx /\ new_pack base js s pp.
  (** What a process that has come to the end (or not) may have done: its files are there; or
      it raised what write_pack raises on its own, unless the system failed it. *)
  Definition outcome (O : os) (base : path) (js : list (job R)) (s0 : world) (j : job R) (s : world) (q : prog path) : Prop :=
    match q with
    | Ret (Ok pp) => exists ip pack idx, made base j pp ip pack idx /\ new_pack base js s pp /\ new_index base js s ip
    | Ret (Raise e) => room O base s0 ->
        write_pack K sha1 pagesize oread fuel (j_level j) (j_objs j) (j_count j) = Raise e \/ exists k, may_fail O k = true
    | Ret Diverge => write_pack K sha1 pagesize oread fuel (j_level j) (j_objs j) (j_count j) = Diverge
    | Call _ _ => True
    end.
End Jobs.
Definition returned {A} (q : prog A) : Prop := exists a, q = Ret (Ok a).
