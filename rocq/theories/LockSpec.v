(** Several users of LockedFD instances on one file. *)
From Verif Require Import Py OsModel LockModel.

(** What a user does with an instance, in any order and any number of times. *)
Inductive uop := UOpen (write : bool) | UWrite (d : bytes) | UCommit | URollback | UDel.
(** An instance, what has been written through it since it was opened (as the system
    reported), and the call in progress, if any. *)
Record user := mk_user {
  u_lock : lockedfd; u_written : bytes;
  u_run : option (uop * prog (lockedfd * bytes * res unit)) }.
Definition u_do (win : bool) (l : lockedfd) (written : bytes) (op : uop) : prog (lockedfd * bytes * res unit) :=
  match op with
  | UOpen write => do! (l', r) := lf_open l write in
                   ret (l', match r with Ok _ => [] | _ => written end, let! _ := r in Ok tt)
  | UWrite d => do! r := lf_os_write l d in
                ret (l, match r with Ok n => written ++ firstn (Z.to_nat n) d | _ => written end, let! _ := r in Ok tt)
  | UCommit => do! (l', r) := lf_commit win l in ret (l', written, r)
  | URollback => do! (l', r) := lf_rollback win l in ret (l', written, r)
  | UDel => do! (l', r) := lf_del win l in ret (l', written, r)
  end.
(** One step of a user: to start a call, a system call, or the end of the call. *)
Inductive ustep (O : os) : user -> world -> user -> world -> Prop :=
| us_start l w op s : ustep O (mk_user l w None) s (mk_user l w (Some (op, u_do (windows O) l w op))) s
| us_call l w op p s p' s' : step O p s p' s' -> ustep O (mk_user l w (Some (op, p))) s (mk_user l w (Some (op, p'))) s'
| us_end l w op l' w' r s : ustep O (mk_user l w (Some (op, Ret (Ok (l', w', r))))) s (mk_user l' w' None) s.
(** Any interleaving; a user who crashes just makes no more steps. *)
Inductive usteps (O : os) : list user -> world -> list user -> world -> Prop :=
| uss_refl us s : usteps O us s us s
| uss_step us1 u us2 s u' s' us' s'' : ustep O u s u' s' -> usteps O (us1 ++ u' :: us2) s' us' s'' ->
    usteps O (us1 ++ u :: us2) s us' s''.
Definition newcomer (file : path) (u : user) : Prop := u = mk_user (lf_init file) [] None.

(** Between a successful open and the following call of commit, rollback or __del__. *)
Definition has_open (u : user) : Prop :=
  lf_fd (u_lock u) <> None /\
  match u_run u with
  | None | Some (UWrite _, _) | Some (UOpen _, _) => True
  | Some (_, _) => False
  end.
Definition committing (u : user) : Prop := exists p, u_run u = Some (UCommit, p).
