(** Property C94 of properties.jsonl, storing and locking: which exceptions there can be. *)
From Verif Require Import Py PyFacts FunModel FunSpec FunProofs IndexSpec ZlibModel ZlibProofs ReaderModel StreamSpec PackSpec
  OsModel OsProofs LooseModel LooseTop LockModel LockSpec LockTop SystemErrors Prop_Pack.
From Verif Require Import Prop_Index.
From Verif Require Prop_Loose Prop_Lock.

(** LooseObjectDB.store raises what the system raises (OSError and its subclasses) or what
    reading from the given stream raises, nothing else. *)
Theorem C94_store :
  forall (O : os) (K : zlib) (sha1 : bytes -> bytes) (pagesize : Z) (R : Type) (rd : R -> Z -> res (bytes * R)) (fuel : nat) (db : ldb) (i : istream R) (s s' : world) (x : exn),
  (forall d, is_bytes (sha1 d)) -> (forall b, is_binsha i = Some b -> is_bytes b /\ b <> []) ->
  runs O (LooseModel.store K sha1 pagesize rd fuel db None i) s (Raise x) s' ->
  x = OSError \/ x = FileNotFound \/ x = PermissionError \/ exists r n, rd r n = Raise x.
Proof.
  intros O K sha1 pagesize R rd fuel db i s s' x Hs Hi H. destruct (store_errs O K sha1 pagesize rd Hs fuel db i Hi s _ s' H) as [[H1|[H1|H1]]|H1]; auto.
Qed.
Print Assumptions C94_store.
(** A full disk; a directory that does not exist; a stream that cannot be read. *)
Example C94_store_example :
  fst (run_plan false [None; None; Some 2] (Prop_Loose.ex_store Prop_Loose.ex_i1) Prop_Loose.ex_w0) = Raise OSError /\
  fst (run_plan false [] (Prop_Loose.ex_store Prop_Loose.ex_i1) (no_files [])) = Raise FileNotFound /\
  fst (run_plan false [] (LooseModel.store stored toy_sha 1 (fun _ _ => Raise TypeError) 20 Prop_Loose.ex_db None
    (mk_istream None str_blob_type 6 tt)) Prop_Loose.ex_w0) = Raise TypeError.
Proof. repeat split; Prop_Loose.by_vm. Qed.

(** An open, commit or rollback of a LockedFD that is used as its documentation says raises
    what the system raises, nothing else; used otherwise it raises AssertionError and does
    nothing. *)
Theorem C94_lock :
  forall (O : os) (l l' : lockedfd) (s s' : world) (x : exn),
  (forall write, runs O (lf_open l write) s (Ok (l', Raise x)) s' ->
     match lf_write l with None => x = OSError \/ x = FileNotFound \/ x = PermissionError | Some _ => x = AssertionError /\ l' = l /\ s' = s end) /\
  (forall win, runs O (lf_commit win l) s (Ok (l', Raise x)) s' \/ runs O (lf_rollback win l) s (Ok (l', Raise x)) s' ->
     match lf_write l with Some _ => x = OSError \/ x = FileNotFound \/ x = PermissionError | None => x = AssertionError /\ l' = l /\ s' = s end).
Proof.
  intros O l l' s s' x. split.
  - intros write H. destruct (lf_write l) as [b|] eqn:E.
    + unfold lf_open in H. rewrite E in H. apply runs_ret in H as [[= -> ->] ->]. easy.
    + destruct (open_errs O l write E s _ s' H) as [H1|[]]. exact H1.
  - intros win H. destruct (lf_write l) as [b|] eqn:E.
    + assert (Hl : lf_write l <> None) by (rewrite E; discriminate).
      destruct H as [H|H]; [destruct (end_errs O win l true Hl s _ s' H) as [H1|[]]|destruct (end_errs O win l false Hl s _ s' H) as [H1|[]]]; exact H1.
    + unfold lf_commit, lf_rollback, lf_end_writing in H. rewrite E in H. destruct H as [H|H]; apply runs_ret in H as [[= -> ->] ->]; easy.
Qed.
Print Assumptions C94_lock.
(** The lock is held by another; the file to read does not exist; commit of one not opened. *)
Example C94_lock_example :
  fst (run_plan false [] (lf_open (lf_init Prop_Lock.ex_file) false) Prop_Lock.ex_w1) = Ok (mk_lockedfd Prop_Lock.ex_file None (Some false), Raise OSError) /\
  fst (run_plan false [] (lf_open (lf_init [[114]; [103]]) false) Prop_Lock.ex_world) = Ok (mk_lockedfd [[114]; [103]] None (Some false), Raise FileNotFound) /\
  fst (run_plan false [] (lf_commit false (lf_init Prop_Lock.ex_file)) Prop_Lock.ex_world) = Ok (lf_init Prop_Lock.ex_file, Raise AssertionError).
Proof. repeat split; Prop_Loose.by_vm. Qed.
