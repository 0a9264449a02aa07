(** What LockedFD.commit leaves when a system call at its end fails. *)
From Verif Require Import Py PyFacts OsModel OsProofs LockModel LockSpec LockProofs LooseProofs LooseTop LockTop StoreShort.

Section Fail.
  Context (O : os) (Hwin : windows O = false) (file : path) (us0 : list user) (s0 : world) (Hw0 : wf s0) (Hnew : Forall (newcomer file) us0).
  Notation lock := (lockfilepath file).

  Lemma commit_fails us1 us2 l w s l' e s' : usteps O us0 s0 (us1 ++ mk_user l w None :: us2) s -> lf_fd l <> None -> lf_write l = Some true ->
    may_fail O KClose = false -> may_fail O KChmod = false -> runs O (lf_commit (windows O) l) s (Ok (l', Raise e)) s' ->
    s' = s /\ contents s' lock = Some w /\
    lf_commit (windows O) l' = ret (l', Ok tt) /\ lf_rollback (windows O) l' = ret (l', Ok tt) /\ lf_del (windows O) l' = ret (l', Ok tt) /\
    forall write r s'', runs O (lf_open (lf_init file) write) s' r s'' -> r = Ok (mk_lockedfd file None (Some write), Raise OSError) /\ s'' = s'.
  Proof.
    intros Hu Hf Ew Hc Hch Hrun. destruct (one_inv O file us0 s0 Hw0 Hnew us1 us2 l w s Hu) as (Hw & g & Hp & Hi). destruct (lf_fd l) as [fd|] eqn:Ef; [|easy]. clear Hf.
    destruct g as [fd0|]; [|easy]. destruct Hi as (Hl & Hd & _). destruct (Hd Ew) as [-> Hdat]. unfold lf_commit, lf_end_writing in Hrun. rewrite Ef, Ew, Hwin in Hrun.
    apply runs_after in Hrun as (r1 & s1 & H1 & H2). apply runs_sysr in H1. cbn [sys] in H1.
    destruct H1 as [(Hk & _)|[-> ->]]; [congruence|]. rewrite Hp in H2. cbn [lf_path andb] in H2.
    assert (Hs : s' = s /\ l' = mk_lockedfd file None (Some true)).
    { apply runs_after in H2 as (r1 & s1 & H1 & H2). apply runs_bind in H1 as (r2 & s2 & H1 & H3). apply runs_ret in H1 as [-> ->].
      apply runs_bind in H3 as (r2 & s2 & H1 & H3). apply runs_sysr in H1. cbn [sys] in H1. rewrite Hl, Hwin in H1. cbn [andb] in H1.
      assert (Hgo : (exists e', r2 = Raise e') -> s2 = s -> s' = s /\ l' = mk_lockedfd file None (Some true)).
      { intros [e' ->] ->. destruct H3 as [-> ->]. apply runs_ret in H2 as [E ->]. injection E as E _. now subst. }
      destruct H1 as [(_ & E1 & E2)|H1]; [apply Hgo; [rewrite E1; now eexists|exact E2]|].
      destruct (is_dir s file); [destruct H1 as [E1 E2]; apply Hgo; [rewrite E1; now eexists|exact E2]|].
      destruct (is_dir s (dirname file)); [|destruct H1 as [E1 E2]; apply Hgo; [rewrite E1; now eexists|exact E2]].
      destruct H1 as [-> ->]. exfalso. apply runs_sysr in H3. cbn [sys] in H3.
      destruct H3 as [(Hk & _)|H3]; [congruence|]. replace (path_exists (link (unlink s lock) file fd0) file) with true in H3.
      - destruct H3 as [-> ->]. apply runs_ret in H2 as [E _]. discriminate.
      - symmetry. apply orb_true_iff. left. destruct (is_file _ file) eqn:E; [reflexivity|]. apply is_file_lookup in E. rewrite lookup_link in E. now destruct (path_eq_dec file file). }
    destruct Hs as [-> ->]. split; [reflexivity|]. split; [unfold contents; rewrite Hl; cbn; f_equal; exact Hdat|].
    do 3 (split; [reflexivity|]). intros write r s'' Ho. unfold lf_open in Ho. cbn [lf_write lf_init lf_path lf_fd] in Ho.
    apply runs_after in Ho as (r1 & s1 & H1 & H3). apply runs_bind in H1 as (r3 & s3 & H1 & H4). apply runs_sysr in H1. cbn [sys] in H1.
    assert (E : r3 = Raise OSError /\ s3 = s).
    { destruct H1 as [(_ & E)|H1]; [easy|]. replace (path_exists s lock) with true in H1; [easy|]. symmetry. apply orb_true_iff. left.
      destruct (is_file s lock) eqn:E; [reflexivity|]. apply is_file_lookup in E. congruence. }
    destruct E as [-> ->]. destruct H4 as [-> ->]. apply runs_ret in H3 as [-> ->]. easy.
  Qed.

  Lemma commit_chmod us1 us2 l w s : usteps O us0 s0 (us1 ++ mk_user l w None :: us2) s -> lf_fd l <> None -> lf_write l = Some true ->
    may_fail O KChmod = true -> is_dir s file = false -> is_dir s (dirname file) = true ->
    exists l' s', runs O (lf_commit (windows O) l) s (Ok (l', Raise PermissionError)) s' /\ contents s' file = Some w.
  Proof.
    intros Hu Hf Ew Hch Hd1 Hd2. destruct (one_inv O file us0 s0 Hw0 Hnew us1 us2 l w s Hu) as (Hw & g & Hp & Hi). destruct (lf_fd l) as [fd|] eqn:Ef; [|easy]. clear Hf.
    destruct g as [fd0|]; [|easy]. destruct Hi as (Hl & Hd & _). destruct (Hd Ew) as [-> Hdat].
    exists (mk_lockedfd file None (Some true)), (link (unlink s lock) file fd0). split.
    - unfold lf_commit, lf_end_writing. rewrite Ef, Ew, Hwin, Hp. cbn [lf_path andb sysr after pbind ret].
      apply (run_call _ _ _ _ _ _ (Ok tt) s); [now right|]. cbn [after].
      apply (run_call _ _ _ _ _ _ (Ok tt) (link (unlink s lock) file fd0)).
      { right. rewrite Hl, Hd1, Hd2, Hwin. easy. }
      cbn [after]. apply (run_call _ _ _ _ _ _ (Raise PermissionError) (link (unlink s lock) file fd0)); [left; easy|]. cbn [after]. apply steps_refl.
    - unfold contents. rewrite lookup_link. destruct (path_eq_dec file file); [|easy]. cbn. f_equal. exact Hdat.
  Qed.
End Fail.
