(** Model of LockedFD, gitdb/util.py:269-396. *)
From Verif Require Import Py OsModel.

(** gitdb/util.py:285-291: _filepath, _fd, _write *)
Record lockedfd := mk_lockedfd { lf_path : path; lf_fd : option ino; lf_write : option bool }.
Definition lf_init (p : path) : lockedfd := mk_lockedfd p None None.
(** gitdb/util.py:298-299 *)
Definition dot_lock : bytes := [46; 108; 111; 99; 107].
Definition lockfilepath (p : path) : path := dirname p ++ [basename p ++ dot_lock].

(** The methods give back the instance as it is afterwards, and what they return or raise. *)

(** gitdb/util.py:301-351 (the FDStream around the descriptor is left out). *)
Definition lf_open (l : lockedfd) (write : bool) : prog (lockedfd * res ino) :=
  match lf_write l with
  | Some _ => ret (l, Raise AssertionError)
  | None =>
      let l := mk_lockedfd (lf_path l) (lf_fd l) (Some write) in
      let lock := lockfilepath (lf_path l) in
      after (do! fd := sysr (OpenNew lock) in
             if negb write then do! _ := sysr (Close fd) in ret None else ret (Some fd))
        (fun r => match r with
          | Raise _ => ret (l, Raise OSError)
          | Diverge => Ret Diverge
          | Ok (Some fd) => ret (mk_lockedfd (lf_path l) (Some fd) (lf_write l), Ok fd)
          | Ok None =>
              after (sysr (OpenRead false (lf_path l))) (fun r => match r with
                | Ok fd => ret (mk_lockedfd (lf_path l) (Some fd) (lf_write l), Ok fd)
                | Raise e => after (sysr (Remove lock)) (fun r' => match r' with
                               | Ok _ => ret (l, Raise e)
                               | Raise e' => ret (l, Raise e')
                               | Diverge => Ret Diverge
                               end)
                | Diverge => Ret Diverge
                end)
          end)
  end.

(** gitdb/util.py:366-394 *)
Definition lf_end_writing (win : bool) (l : lockedfd) (successful : bool) : prog (lockedfd * res unit) :=
  match lf_write l with
  | None => ret (l, Raise AssertionError)
  | Some write =>
      match lf_fd l with
      | None => ret (l, Ok tt)
      | Some fd =>
          after (sysr (Close fd)) (fun r => match r with
            | Raise e => ret (l, Raise e)
            | Diverge => Ret Diverge
            | Ok _ =>
                let l := mk_lockedfd (lf_path l) None (lf_write l) in
                let lockfile := lockfilepath (lf_path l) in
                after (if write && successful then
                         do! _ := (if win then
                                     do! there := sysv (Isfile (lf_path l)) in
                                     if there then sysr (Remove (lf_path l)) else ret tt
                                   else ret tt) in
                         do! _ := sysr (Rename lockfile (lf_path l)) in
                         sysr (Chmod (lf_path l))
                       else sysr (Remove lockfile))
                  (fun r => match r with Diverge => Ret Diverge | _ => ret (l, r) end)
            end)
      end
  end.
(** gitdb/util.py:353-364 *)
Definition lf_commit (win : bool) (l : lockedfd) : prog (lockedfd * res unit) := lf_end_writing win l true.
Definition lf_rollback (win : bool) (l : lockedfd) : prog (lockedfd * res unit) := lf_end_writing win l false.
(** gitdb/util.py:293-296: __del__; an exception in it is ignored. *)
Definition lf_del (win : bool) (l : lockedfd) : prog (lockedfd * res unit) :=
  match lf_fd l with
  | None => ret (l, Ok tt)
  | Some _ => do! (l, _) := lf_rollback win l in ret (l, Ok tt)
  end.
(** os.write(fd, d) by the user, on the descriptor that open gave; it is not possible on a
    descriptor opened for reading. *)
Definition lf_os_write (l : lockedfd) (d : bytes) : prog (res Z) :=
  match lf_fd l, lf_write l with
  | Some fd, Some true => after (sysr (Write fd d)) (fun r => match r with Diverge => Ret Diverge | _ => ret r end)
  | _, _ => ret (Raise OSError)
  end.
