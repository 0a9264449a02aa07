(** Properties C56-C58 and C73 of properties.jsonl: LockedFD, over every behaviour of the
    system allowed by OsModel.v and every interleaving of any number of users. *)
From Verif Require Import Py PyFacts OsModel OsProofs LooseTop LockModel LockSpec LockProofs LockTop LockFail.

(** ** For the examples *)
Lemma plan_runs O A (p : prog A) plan s r : (plan <> [] -> may_fail O KShort = true) -> plan_ok (windows O) plan p s = true ->
  fst (run_plan (windows O) plan p s) = r -> runs O p s r (snd (run_plan (windows O) plan p s)).
Proof. intros H1 H2 <-. now apply run_plan_runs. Qed.
Definition ex_file : path := [[114]; [102]].
Definition ex_old : bytes := [1; 2].
Definition ex_new : bytes := [7; 8; 9].
(** The file with some content, in an existing directory. *)
Definition ex_world : world := mk_world [(ex_file, 0%nat)] [[[114]]] (fun _ => ex_old) 1%nat.
Definition ex_user : user := mk_user (lf_init ex_file) [] None.
Lemma ex_wf : wf ex_world.
Proof.
  split.
  - repeat constructor. intros [].
  - intros p i H. unfold lookup in H. cbn [ex_world w_files assoc] in H. destruct (path_eq_dec ex_file p); [|discriminate]. injection H as <-. repeat constructor.
  - intros p q i H1 H2. unfold lookup in H1, H2. cbn [ex_world w_files assoc] in H1, H2.
    destruct (path_eq_dec ex_file p); [|discriminate]. destruct (path_eq_dec ex_file q); [|discriminate]. congruence.
Qed.
(** After open for writing and one write. *)
Definition ex_opened : lockedfd := mk_lockedfd ex_file (Some 1%nat) (Some true).
Definition ex_w1 : world := snd (run_plan false [] (u_do false (lf_init ex_file) [] (UOpen true)) ex_world).
Definition ex_w2 : world := snd (run_plan false [] (u_do false ex_opened [] (UWrite ex_new)) ex_w1).
Lemma ex_writing us1 us2 : usteps calm (us1 ++ ex_user :: us2) ex_world (us1 ++ mk_user ex_opened ex_new None :: us2) ex_w2.
Proof.
  eapply (whole_call calm us1 us2 _ _ (UOpen true)).
  { unfold ex_user. apply (plan_runs calm _ _ []); [easy|vm_compute; reflexivity|vm_compute; reflexivity]. }
  eapply (whole_call calm us1 us2 _ _ (UWrite ex_new)); [|apply uss_refl].
  apply (plan_runs calm _ _ []); [easy|vm_compute; reflexivity|vm_compute; reflexivity].
Qed.

(** ** C56 *)
Theorem C56_mutual_exclusion :
  forall (O : os) (file : path) (us us' : list user) (s s' : world), wf s -> Forall (newcomer file) us -> usteps O us s us' s' ->
  forall n m u v, nth_error us' n = Some u -> nth_error us' m = Some v -> has_open u -> has_open v -> n = m.
Proof. intros O file us us' s s' Hw Hn Hs n m u v. exact (exclusive O file us s us' s' n m u v Hw Hn Hs). Qed.
Print Assumptions C56_mutual_exclusion.
(** Two users, of which the second has the file open; when the first tries, it gets an
    exception, and only the second has it open still. *)
Example C56_example :
  let us := [mk_user (mk_lockedfd ex_file None (Some true)) [] None; mk_user ex_opened ex_new None] in
  Forall (newcomer ex_file) [ex_user; ex_user] /\ wf ex_world /\ usteps calm [ex_user; ex_user] ex_world us ex_w2 /\
  nth_error us 1 = Some (mk_user ex_opened ex_new None) /\ has_open (mk_user ex_opened ex_new None).
Proof.
  split; [now repeat constructor|]. split; [exact ex_wf|]. split; [|easy].
  assert (H : usteps calm [ex_user; mk_user ex_opened ex_new None] ex_w2 [mk_user (mk_lockedfd ex_file None (Some true)) [] None; mk_user ex_opened ex_new None] ex_w2).
  { eapply (whole_call calm [] [mk_user ex_opened ex_new None] _ _ (UOpen true)).
    { apply (plan_runs calm _ _ []); [easy|vm_compute; reflexivity|vm_compute; reflexivity]. }
    change (snd (run_plan (windows calm) [] (u_do (windows calm) (lf_init ex_file) [] (UOpen true)) ex_w2)) with ex_w2. apply uss_refl. }
  pose proof (ex_writing [ex_user] []) as H0. cbn [app] in H0.
  revert H0. generalize [ex_user; mk_user ex_opened ex_new None], ex_w2, H. clear H. intros us2 w2 H H0.
  induction H0; [easy|]. eapply uss_step; [eassumption|]. now apply IHusteps.
Qed.

(** ** C57 *)
(** Full statement: see properties.jsonl.  It is false in two ways when a system call fails
    at the end of commit.  First, when the rename fails: the lock file stays, and rollback
    does nothing any more, since the descriptor has been forgotten already.  Here the rename
    fails since the path is a directory. *)
Theorem C57_lock_stays_refuted :
  exists (file : path) (s0 : world) l1 fd s1 l2 e s2,
    wf s0 /\ contents s0 (lockfilepath file) = None /\
    runs calm (lf_open (lf_init file) true) s0 (Ok (l1, Ok fd)) s1 /\
    runs calm (lf_commit false l1) s1 (Ok (l2, Raise e)) s2 /\
    runs calm (lf_rollback false l2) s2 (Ok (l2, Ok tt)) s2 /\
    contents s2 (lockfilepath file) <> None /\
    runs calm (lf_open (lf_init file) true) s2 (Ok (mk_lockedfd file None (Some true), Raise OSError)) s2.
Proof.
  set (s0 := no_files [[[114]]; ex_file]). exists ex_file, s0, (mk_lockedfd ex_file (Some 0%nat) (Some true)), 0%nat.
  exists (snd (run_plan (windows calm) [] (lf_open (lf_init ex_file) true) s0)), (mk_lockedfd ex_file None (Some true)), OSError.
  exists (snd (run_plan (windows calm) [] (lf_commit false (mk_lockedfd ex_file (Some 0%nat) (Some true))) (snd (run_plan (windows calm) [] (lf_open (lf_init ex_file) true) s0)))).
  split; [apply wf_empty|]. split; [reflexivity|].
  split; [apply plan_runs; [easy|vm_compute; reflexivity|vm_compute; reflexivity]|].
  split; [apply plan_runs; [easy|vm_compute; reflexivity|vm_compute; reflexivity]|].
  split; [constructor|]. split; [vm_compute; discriminate|].
  match goal with |- runs _ _ ?s _ _ => change (runs calm (lf_open (lf_init ex_file) true) s (Ok (mk_lockedfd ex_file None (Some true), Raise OSError)) (snd (run_plan (windows calm) [] (lf_open (lf_init ex_file) true) s))) end.
  apply plan_runs; [easy|vm_compute; reflexivity|vm_compute; reflexivity].
Qed.
Print Assumptions C57_lock_stays_refuted.
(** Second, when chmod fails: commit raises although the file has been replaced. *)
Theorem C57_raising_commit_refuted :
  exists (O : os) (file : path) (s0 : world) us s1 l1 w1 l2 e s2,
    windows O = false /\ wf s0 /\ usteps O [mk_user (lf_init file) [] None] s0 us s1 /\ us = [mk_user l1 w1 None] /\
    runs O (lf_commit (windows O) l1) s1 (Ok (l2, Raise e)) s2 /\ contents s2 file <> contents s1 file.
Proof.
  set (P := mk_os (fun k => match k with KChmod => true | _ => false end) false).
  exists P, ex_file, ex_world, [mk_user ex_opened ex_new None], ex_w2, ex_opened, ex_new, (mk_lockedfd ex_file None (Some true)), PermissionError.
  exists (link (unlink ex_w2 (lockfilepath ex_file)) ex_file 1%nat).
  split; [reflexivity|]. split; [exact ex_wf|]. split; [|split; [reflexivity|split; [|vm_compute; discriminate]]].
  - eapply (whole_call P [] [] _ _ (UOpen true)).
    { apply (plan_runs P _ _ []); [easy|vm_compute; reflexivity|vm_compute; reflexivity]. }
    eapply (whole_call P [] [] _ _ (UWrite ex_new)); [|apply uss_refl].
    apply (plan_runs P _ _ []); [easy|vm_compute; reflexivity|vm_compute; reflexivity].
  - eapply steps_one. { eexists. split; [right; split; reflexivity|reflexivity]. } cbv beta iota.
    eapply steps_one. { eexists. split; [|reflexivity]. right. cbn [sys]. replace (lookup ex_w2 (lockfilepath (lf_path ex_opened))) with (Some 1%nat) by (vm_compute; reflexivity).
      split; reflexivity. } cbv beta iota.
    eapply steps_one. { eexists. split; [left; split; [reflexivity|split; reflexivity]|reflexivity]. } apply steps_refl.
Qed.
Print Assumptions C57_raising_commit_refuted.
(** Both in general.  Whenever commit raises because the rename failed (not close or chmod): nothing
    is undone, the lock file stays with what was written, commit, rollback and the destructor of
    the instance do nothing any more, and everybody else's open raises. *)
Theorem C57_every_lock_stays_refuted :
  forall (O : os) (file : path) (us us1 us2 : list user) (s0 s s' : world) l w l' e, windows O = false ->
  wf s0 -> Forall (newcomer file) us -> usteps O us s0 (us1 ++ mk_user l w None :: us2) s -> lf_fd l <> None -> lf_write l = Some true ->
  may_fail O KClose = false -> may_fail O KChmod = false -> runs O (lf_commit (windows O) l) s (Ok (l', Raise e)) s' ->
  s' = s /\ contents s' (lockfilepath file) = Some w /\
  lf_commit (windows O) l' = ret (l', Ok tt) /\ lf_rollback (windows O) l' = ret (l', Ok tt) /\ lf_del (windows O) l' = ret (l', Ok tt) /\
  forall write r s'', runs O (lf_open (lf_init file) write) s' r s'' -> r = Ok (mk_lockedfd file None (Some write), Raise OSError) /\ s'' = s'.
Proof. intros O file us us1 us2 s0 s s' l w l' e Hwin Hw Hn. exact (commit_fails O Hwin file us s0 Hw Hn us1 us2 l w s l' e s'). Qed.
Print Assumptions C57_every_lock_stays_refuted.
(** Wherever chmod may fail, every commit that gets so far can raise with the file replaced. *)
Theorem C57_every_raising_commit_refuted :
  forall (O : os) (file : path) (us us1 us2 : list user) (s0 s : world) l w, windows O = false ->
  wf s0 -> Forall (newcomer file) us -> usteps O us s0 (us1 ++ mk_user l w None :: us2) s -> lf_fd l <> None -> lf_write l = Some true ->
  may_fail O KChmod = true -> is_dir s file = false -> is_dir s (dirname file) = true ->
  exists l' s', runs O (lf_commit (windows O) l) s (Ok (l', Raise PermissionError)) s' /\ contents s' file = Some w.
Proof. intros O file us us1 us2 s0 s l w Hwin Hw Hn. exact (commit_chmod O Hwin file us s0 Hw Hn us1 us2 l w s). Qed.
Print Assumptions C57_every_raising_commit_refuted.
Example C57_every_example : forall k0, In k0 [KRename; KChmod] ->
  let P := mk_os (fun k => match k, k0 with KRename, KRename | KChmod, KChmod => true | _, _ => false end) false in
  wf ex_world /\ Forall (newcomer ex_file) [ex_user] /\ usteps P [ex_user] ex_world [mk_user ex_opened ex_new None] ex_w2 /\
  may_fail P KClose = false /\ is_dir ex_w2 ex_file = false /\ is_dir ex_w2 (dirname ex_file) = true /\
  (k0 = KRename -> may_fail P KChmod = false /\ runs P (lf_commit (windows P) ex_opened) ex_w2 (Ok (mk_lockedfd ex_file None (Some true), Raise OSError)) ex_w2) /\
  (k0 = KChmod -> may_fail P KChmod = true).
Proof.
  intros k0 Hk P. split; [exact ex_wf|]. split; [now repeat constructor|]. split.
  { eapply (whole_call P [] [] _ _ (UOpen true)).
    { apply (plan_runs P _ _ []); [easy|vm_compute; reflexivity|vm_compute; reflexivity]. }
    eapply (whole_call P [] [] _ _ (UWrite ex_new)); [|apply uss_refl].
    apply (plan_runs P _ _ []); [easy|vm_compute; reflexivity|vm_compute; reflexivity]. }
  split; [reflexivity|]. split; [reflexivity|]. split; [reflexivity|].
  split; intros ->; [|reflexivity]. split; [reflexivity|].
  eapply steps_one. { eexists. split; [right; split; reflexivity|reflexivity]. } cbv beta iota.
  eapply steps_one. { eexists. split; [left; split; [reflexivity|split; reflexivity]|reflexivity]. } apply steps_refl.
Qed.
(** At every moment of every interleaving, whatever fails: a step changes no other file than
    the lock file and the file itself, the latter only in a call of commit, from its old
    content to what was written, in one step that also removes the lock file.  A crash is
    the absence of further steps. *)
Theorem C57_only_commits_partial :
  forall (O : os) (file : path) (us us1 us2 : list user) (u u' : user) (s0 s s' : world), windows O = false ->
  wf s0 -> Forall (newcomer file) us -> usteps O us s0 (us1 ++ u :: us2) s -> ustep O u s u' s' ->
  (forall p, p <> file -> p <> lockfilepath file -> contents s' p = contents s p) /\
  (contents s' file = contents s file \/
   (committing u /\ contents s' file = Some (u_written u) /\ contents s' (lockfilepath file) = None)).
Proof.
  intros O file us us1 us2 u u' s0 s s' Hwin Hw Hn Hs H1. destruct (only_commits O file us s0 us1 u us2 s u' s' Hw Hn Hs H1) as [H2 H3].
  split; [intros p Hp Hq; now apply H2|]. destruct H3 as [H3|[H3|(_ & H3 & _)]]; [now left|now right|congruence].
Qed.
Print Assumptions C57_only_commits_partial.
(** A call of commit or rollback on an open instance.  When it returns, the lock file is
    gone, and the file has what was written (after commit of an instance opened for writing)
    or what it had.  When it raises, the file has what it had, provided chmod does not fail. *)
Theorem C57_commit_rollback_partial :
  forall (O : os) (file : path) (us us1 us2 : list user) (s0 s s' : world) l w l' r (commit : bool), windows O = false ->
  wf s0 -> Forall (newcomer file) us -> usteps O us s0 (us1 ++ mk_user l w None :: us2) s -> lf_fd l <> None ->
  runs O ((if commit then lf_commit else lf_rollback) (windows O) l) s (Ok (l', r)) s' ->
  (forall p, p <> file -> p <> lockfilepath file -> contents s' p = contents s p) /\
  (r = Ok tt -> contents s' (lockfilepath file) = None /\
                contents s' file = if commit then match lf_write l with Some true => Some w | _ => contents s file end else contents s file) /\
  (r <> Ok tt -> commit = false \/ may_fail O KChmod = false -> contents s' file = contents s file).
Proof.
  intros O file us us1 us2 s0 s s' l w l' r commit Hwin Hw Hn Hu Hf Hrun.
  assert (H : runs O (lf_end_writing (windows O) l commit) s (Ok (l', r)) s') by now destruct commit.
  destruct (end_result O file us s0 Hw Hn us1 us2 l w s commit l' r s' Hu Hwin Hf H) as (H1 & H2 & H3 & H4).
  split; [intros p Hp Hq; now apply H1|]. split.
  - intros Hr. destruct (H3 Hr) as (H5 & H6 & _). split; [easy|]. destruct commit.
    + destruct (lf_write l) as [[]|]; [now apply H6| |]; now destruct H2 as [|[? ?]].
    + destruct (lf_write l) as [[]|]; now destruct H2 as [|[? ?]].
  - intros Hr [-> |Hk]; [|now apply H4]. destruct H2 as [|[H5 _]]; [easy|]. now destruct (lf_write l) as [[]|].
Qed.
Print Assumptions C57_commit_rollback_partial.
(** They return if nothing goes wrong. *)
Theorem C57_succeeds :
  forall (O : os) (file : path) (us us1 us2 : list user) (s0 s s' : world) l w l' r (commit : bool), windows O = false ->
  wf s0 -> Forall (newcomer file) us -> usteps O us s0 (us1 ++ mk_user l w None :: us2) s -> lf_fd l <> None ->
  (forall k, may_fail O k = false) -> is_dir s file = false -> is_dir s (dirname file) = true ->
  runs O ((if commit then lf_commit else lf_rollback) (windows O) l) s (Ok (l', r)) s' -> r = Ok tt.
Proof.
  intros O file us us1 us2 s0 s s' l w l' r commit Hwin Hw Hn Hu Hf HO H1 H2 H.
  apply (end_succeeds O file us s0 Hw Hn us1 us2 l w s commit l' r s' Hu Hwin Hf HO H1 H2). now destruct commit.
Qed.
Print Assumptions C57_succeeds.
(** Once one of them has returned, both can be called again: nothing happens, not even a
    system call. *)
Theorem C57_again :
  forall (O : os) (file : path) (us us1 us2 : list user) (s0 s s' : world) l w l' (commit : bool), windows O = false ->
  wf s0 -> Forall (newcomer file) us -> usteps O us s0 (us1 ++ mk_user l w None :: us2) s -> lf_fd l <> None ->
  runs O ((if commit then lf_commit else lf_rollback) (windows O) l) s (Ok (l', Ok tt)) s' ->
  lf_commit (windows O) l' = ret (l', Ok tt) /\ lf_rollback (windows O) l' = ret (l', Ok tt).
Proof.
  intros O file us us1 us2 s0 s s' l w l' commit Hwin Hw Hn Hu Hf Hrun.
  assert (H : runs O (lf_end_writing (windows O) l commit) s (Ok (l', Ok tt)) s') by now destruct commit.
  destruct (end_result O file us s0 Hw Hn us1 us2 l w s commit l' _ s' Hu Hwin Hf H) as (_ & _ & H3 & _).
  destruct (H3 eq_refl) as (_ & _ & H4 & H5). destruct (one_inv O file us s0 Hw Hn us1 us2 l w s Hu) as (_ & g & _ & Hi).
  assert (lf_write l' <> None). { rewrite H5. destruct (lf_fd l); [|easy]. now destruct g as [|]. }
  split; now apply end_again.
Qed.
Print Assumptions C57_again.
(** An instance is opened once, and only then committed or rolled back: other calls raise
    AssertionError and do nothing, not even a system call. *)
Theorem C57_once :
  forall (O : os) (file : path) (l l' : lockedfd) (r : res ino) (s s' : world) (write write' win : bool),
  (runs O (lf_open l write) s (Ok (l', r)) s' -> lf_open l' write' = ret (l', Raise AssertionError)) /\
  (forall l2 b s2 r2 s3, runs O (lf_open l write) s (Ok (l', r)) s' -> runs O ((if b : bool then lf_commit else lf_rollback) win l') s2 (Ok (l2, r2)) s3 ->
     lf_open l2 write' = ret (l2, Raise AssertionError)) /\
  lf_commit win (lf_init file) = ret (lf_init file, Raise AssertionError) /\ lf_rollback win (lf_init file) = ret (lf_init file, Raise AssertionError).
Proof.
  intros O file l l' r s s' write write' win. assert (Ho : forall l, lf_write l <> None -> lf_open l write' = ret (l, Raise AssertionError)).
  { intros k H. unfold lf_open. now destruct (lf_write k). }
  split; [intros H; apply Ho; now apply open_once in H|]. split; [|easy].
  intros l2 b s2 r2 s3 H H'. apply Ho. assert (H2 : runs O (lf_end_writing win l' b) s2 (Ok (l2, r2)) s3) by now destruct b. apply end_write in H2 as ->. now apply open_once in H.
Qed.
Print Assumptions C57_once.
(** A call of open changes no file but the lock file.  When it returns, the lock file is
    there, new and empty; when it raises, the lock file is there only if it was before,
    provided the system lets it be removed. *)
Theorem C57_open :
  forall (O : os) (file : path) (us us1 us2 : list user) (s0 s s' : world) l w l' r (write : bool),
  wf s0 -> Forall (newcomer file) us -> usteps O us s0 (us1 ++ mk_user l w None :: us2) s ->
  runs O (lf_open l write) s (Ok (l', r)) s' ->
  (forall p, p <> lockfilepath file -> contents s' p = contents s p) /\
  match r with
  | Ok fd => contents s (lockfilepath file) = None /\ contents s' (lockfilepath file) = Some [] /\
             lf_fd l' = Some fd /\ lookup s' (if write then lockfilepath file else file) = Some fd
  | _ => may_fail O KClose = false -> may_fail O KRemove = false -> contents s' (lockfilepath file) = contents s (lockfilepath file)
  end.
Proof.
  intros O file us us1 us2 s0 s s' l w l' r write Hw Hn Hu Hrun.
  destruct (open_result O file us s0 Hw Hn us1 us2 l w s write l' r s' Hu Hrun) as [H1 H2]. split; [easy|]. destruct r as [fd| |]; try easy.
  destruct H2 as (H2 & _ & H4 & H5 & H6). split; [easy|]. split; [easy|]. split; [easy|]. now destruct write.
Qed.
Print Assumptions C57_open.
(** open, write, commit: the file has what was written. *)
Example C57_example :
  newcomer ex_file ex_user /\ usteps calm [ex_user] ex_world [mk_user ex_opened ex_new None] ex_w2 /\ lf_fd ex_opened <> None /\
  contents ex_w2 ex_file = Some ex_old /\ contents ex_w2 (lockfilepath ex_file) = Some ex_new /\
  is_dir ex_w2 ex_file = false /\ is_dir ex_w2 (dirname ex_file) = true /\
  exists s', runs calm (lf_commit false ex_opened) ex_w2 (Ok (mk_lockedfd ex_file None (Some true), Ok tt)) s' /\
    contents s' ex_file = Some ex_new /\ contents s' (lockfilepath ex_file) = None.
Proof.
  split; [easy|]. split; [apply (ex_writing [] [])|]. split; [easy|]. split; [reflexivity|]. split; [reflexivity|]. split; [reflexivity|]. split; [reflexivity|].
  exists (snd (run_plan (windows calm) [] (lf_commit false ex_opened) ex_w2)).
  split; [apply plan_runs; [easy|vm_compute; reflexivity|vm_compute; reflexivity]|split; vm_compute; reflexivity].
Qed.

(** ** C58 *)
(** Full statement: with the Windows code path too, the file is there at every crash point
    of commit if it was before.  False: commit removes it before the rename. *)
Theorem C58_file_missing_refuted :
  exists (O : os) (file : path) (s0 s s' : world) l w,
    windows O = true /\ (forall k, may_fail O k = false) /\ wf s0 /\
    usteps O [mk_user (lf_init file) [] None] s0 [mk_user l w None] s /\ contents s file <> None /\
    stops O (lf_commit (windows O) l) s s' /\ contents s' file = None.
Proof.
  set (P := mk_os (fun _ => false) true).
  set (w1 := snd (run_plan (windows P) [] (u_do (windows P) (lf_init ex_file) [] (UOpen true)) ex_world)).
  set (w2 := snd (run_plan (windows P) [] (u_do (windows P) ex_opened [] (UWrite ex_new)) w1)).
  exists P, ex_file, ex_world, w2, (unlink w2 ex_file), ex_opened, ex_new.
  split; [reflexivity|]. split; [reflexivity|]. split; [exact ex_wf|]. split.
  { eapply (whole_call P [] [] _ _ (UOpen true)).
    { apply (plan_runs P _ _ []); [easy|vm_compute; reflexivity|vm_compute; reflexivity]. }
    eapply (whole_call P [] [] _ _ (UWrite ex_new)); [|apply uss_refl].
    apply (plan_runs P _ _ []); [easy|vm_compute; reflexivity|vm_compute; reflexivity]. }
  split; [vm_compute; discriminate|]. split; [|vm_compute; reflexivity].
  eexists. eapply steps_one. { eexists. split; [right; split; reflexivity|reflexivity]. } cbv beta iota.
  eapply steps_one. { eexists. split; [split; reflexivity|reflexivity]. }
  replace (is_file w2 (lf_path (mk_lockedfd (lf_path ex_opened) None (lf_write ex_opened)))) with true by (vm_compute; reflexivity).
  eapply steps_one. { eexists. split; [right; split; reflexivity|reflexivity]. } apply steps_refl.
Qed.
Print Assumptions C58_file_missing_refuted.
(** In general: every commit over an existing file that succeeds passes such a moment. *)
Theorem C58_every_commit_refuted :
  forall (O : os) (file : path) (fd : ino) (s s' : world) (l' : lockedfd),
  let commit := lf_commit (windows O) (mk_lockedfd file (Some fd) (Some true)) in
  windows O = true -> contents s file <> None -> runs O commit s (Ok (l', Ok tt)) s' ->
  exists p s1, steps O commit s p s1 /\ steps O p s1 (Ret (Ok (l', Ok tt))) s' /\ contents s1 file = None.
Proof. intros O file fd s s' l'. exact (windows_gap O file fd s l' s'). Qed.
Print Assumptions C58_every_commit_refuted.
(** Such a commit. *)
Example C58_example :
  let P := mk_os (fun _ => false) true in
  let s := mk_world [(lockfilepath ex_file, 1%nat); (ex_file, 0%nat)] [[[114]]] (fun i => if Nat.eqb i 1 then ex_new else ex_old) 2%nat in
  exists l' s', runs P (lf_commit true (mk_lockedfd ex_file (Some 1%nat) (Some true))) s (Ok (l', Ok tt)) s' /\
    contents s ex_file = Some ex_old /\ contents s' ex_file = Some ex_new.
Proof.
  intros P s. eexists _, (snd (run_plan true [] (lf_commit true (mk_lockedfd ex_file (Some 1%nat) (Some true))) s)).
  split; [apply (plan_runs P _ _ []); [easy|vm_compute; reflexivity|vm_compute; reflexivity]|]. split; vm_compute; reflexivity.
Qed.
(** What holds: apart from this moment the same as C57; in the window the written data is
    still in the lock file. *)
Theorem C58_steps_partial :
  forall (O : os) (file : path) (us us1 us2 : list user) (u u' : user) (s0 s s' : world),
  wf s0 -> Forall (newcomer file) us -> usteps O us s0 (us1 ++ u :: us2) s -> ustep O u s u' s' ->
  (forall p, p <> file -> p <> lockfilepath file -> contents s' p = contents s p) /\
  (contents s' file = contents s file \/
   (committing u /\ (contents s' file = None /\ contents s' (lockfilepath file) = Some (u_written u) \/ contents s' file = Some (u_written u)))).
Proof.
  intros O file us us1 us2 u u' s0 s s' Hw Hn Hs H1. destruct (only_commits O file us s0 us1 u us2 s u' s' Hw Hn Hs H1) as [H2 H3].
  split; [intros p Hp Hq; now apply H2|]. destruct H3 as [H3|[(H3 & H4 & _)|(H3 & _ & H4)]]; [now left| |]; right; (split; [easy|]); [now right|now left].
Qed.
Print Assumptions C58_steps_partial.

(** ** C73 *)
Theorem C73_nobody_else :
  forall (O : os) (file : path) (us us1 us2 : list user) (u u' v : user) (s0 s s' : world),
  wf s0 -> Forall (newcomer file) us -> usteps O us s0 (us1 ++ u :: us2) s -> ustep O u s u' s' ->
  In v (us1 ++ us2) -> has_open v -> contents s' file = contents s file.
Proof. intros O file us us1 us2 u u' v s0 s s'. exact (fun Hw Hn Hs H1 => nobody_else O file us s0 us1 u us2 s u' s' v Hw Hn Hs H1). Qed.
Print Assumptions C73_nobody_else.
(** A reader has the file open while another user tries to. *)
Example C73_example :
  let reader := mk_user (mk_lockedfd ex_file (Some 0%nat) (Some false)) [] None in
  exists s, usteps calm [ex_user; ex_user] ex_world [ex_user; reader] s /\ has_open reader /\
    ustep calm ex_user s (mk_user (lf_init ex_file) [] (Some (UOpen true, u_do false (lf_init ex_file) [] (UOpen true)))) s.
Proof.
  exists (snd (run_plan false [] (u_do false (lf_init ex_file) [] (UOpen false)) ex_world)). split; [|split; [easy|constructor]].
  eapply (whole_call calm [ex_user] [] _ _ (UOpen false)); [|apply uss_refl].
  apply (plan_runs calm _ _ []); [easy|vm_compute; reflexivity|vm_compute; reflexivity].
Qed.

(** The file that keeps others out is the one git uses: the name with ".lock" appended. *)
Theorem C56_lock_file :
  forall (O : os) (file : path) (us us' : list user) (u : user) (s0 s : world),
  wf s0 -> Forall (newcomer file) us -> usteps O us s0 us' s -> In u us' -> has_open u ->
  contents s (dirname file ++ [basename file ++ [46; 108; 111; 99; 107]]) <> None.
Proof. intros O file us us' u s0 s. exact (open_locked O file us us' u s0 s). Qed.
Print Assumptions C56_lock_file.
Example C56_lock_example : contents ex_w2 [[114]; [102; 46; 108; 111; 99; 107]] = Some ex_new /\ has_open (mk_user ex_opened ex_new None).
Proof. split; [vm_compute; reflexivity|easy]. Qed.
