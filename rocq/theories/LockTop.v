(** A call of a LockedFD instance that no other instance interrupts. *)
From Coq Require Import ZifyBool ZifyNat.
From Verif Require Import Py PyFacts OsModel OsProofs LooseTop LockModel LockSpec LockProofs.

Lemma runs_sysr O A (c : call (res A)) s r s' : runs O (sysr c) s r s' -> sys O c s r s'.
Proof.
  intros H. inversion H as [|? ? ? ? ? ? H1 H2]; subst. destruct H1 as (a & Hs & ->). now apply runs_ret in H2 as [-> ->].
Qed.
Lemma runs_sysv O A (c : call A) s r s' : runs O (sysv c) s r s' -> exists a, r = Ok a /\ sys O c s a s'.
Proof.
  intros H. inversion H as [|? ? ? ? ? ? H1 H2]; subst. destruct H1 as (a & Hs & ->). apply runs_ret in H2 as [-> ->]. now exists a.
Qed.

Section One.
  Context (O : os) (file : path).
  Notation lock := (lockfilepath file).
  Context (us0 : list user) (s0 : world) (Hw0 : wf s0) (Hnew : Forall (newcomer file) us0).

  Lemma one_inv us1 us2 l w s : usteps O us0 s0 (us1 ++ mk_user l w None :: us2) s -> wf s /\ exists g, linv file l w g s.
  Proof.
    intros H. destruct (reachable O file us0 s0 _ s Hw0 Hnew H) as (ps & Hps & (Hw & Hall & _)).
    split; [easy|]. apply map_eq_app in Hps as (ps1 & ps2 & -> & <- & Hps). destruct ps2 as [|[u g] ps2]; [discriminate|]. injection Hps as E <-. cbn in E. subst u.
    apply Forall_app in Hall as [_ Hall]. apply Forall_inv in Hall as [_ Hi]. now exists g.
  Qed.

  Lemma end_result us1 us2 l w s b l' r s' : usteps O us0 s0 (us1 ++ mk_user l w None :: us2) s -> windows O = false -> lf_fd l <> None ->
    runs O (lf_end_writing (windows O) l b) s (Ok (l', r)) s' ->
    let publishing := match lf_write l with Some true => b | _ => false end in
    (forall p, p <> lock -> p <> file -> contents s' p = contents s p) /\
    (contents s' file = contents s file \/ (publishing = true /\ contents s' file = Some w)) /\
    (r = Ok tt -> contents s' lock = None /\ (publishing = true -> contents s' file = Some w) /\ lf_fd l' = None /\ lf_write l' = lf_write l) /\
    (r <> Ok tt -> may_fail O KChmod = false -> contents s' file = contents s file).
  Proof.
    intros Hu Hwin Hf Hrun. destruct (one_inv us1 us2 l w s Hu) as (Hw & g & Hp & Hi). destruct (lf_fd l) as [fd|] eqn:Ef; [|easy]. clear Hf.
    destruct g as [fd0|]; [|easy]. destruct Hi as (Hl & Hd & Hwn). unfold lf_end_writing in Hrun. rewrite Ef in Hrun.
    destruct (lf_write l) as [write|] eqn:Ew; [|easy]. clear Hwn. pose proof (lock_not_file file) as Hne.
    apply runs_after in Hrun as (r1 & s1 & H1 & H2). apply runs_sysr in H1. cbn [sys] in H1. rewrite Hwin in H2.
    set (pub := match Some write with Some true => b | _ => false end).
    destruct H1 as [(_ & -> & ->)|[-> ->]].
    { apply runs_ret in H2 as [[= -> ->] ->]. split; [easy|]. split; [now left|]. split; [easy|]. easy. }
    assert (Hpub : write && b = pub) by (unfold pub; now destruct write).
    rewrite Hpub, Hp in H2. cbn [lf_path] in H2. apply runs_after in H2 as (r1 & s1 & H1 & H2). rewrite <- Hpub in *. clear pub Hpub.
    assert (Hres : r1 <> Diverge -> r = r1 /\ s' = s1 /\ l' = mk_lockedfd file None (Some write)).
    { intros Hd1. destruct r1 as [[]|e|]; [| |easy]; apply runs_ret in H2 as [[= -> ->] ->]; easy. }
    clear H2. destruct (write && b) eqn:Eb.
    - apply andb_prop in Eb as [-> ->]. destruct (Hd eq_refl) as [-> Hdat]. clear Hd.
      apply runs_bind in H1 as (r2 & s2 & H1 & H2). apply runs_ret in H1 as [-> ->].
      apply runs_bind in H2 as (r2 & s2 & H1 & H2). apply runs_sysr in H1. cbn [sys] in H1. rewrite Hl in H1.
      assert (Hfail : forall e, r2 = Raise e -> s2 = s -> r = Raise e /\ s' = s).
      { intros e -> ->. destruct H2 as [-> ->]. now destruct (Hres ltac:(easy)) as (-> & -> & _). }
      assert (Hdone : forall e, r = Raise e /\ s' = s -> (forall p, p <> lock -> p <> file -> contents s' p = contents s p) /\
        (contents s' file = contents s file \/ (true = true /\ contents s' file = Some w)) /\
        (r = Ok tt -> contents s' lock = None /\ (true = true -> contents s' file = Some w) /\ lf_fd l' = None /\ lf_write l' = Some true) /\
        (r <> Ok tt -> may_fail O KChmod = false -> contents s' file = contents s file)).
      { intros e [-> ->]. split; [easy|]. split; [now left|]. split; easy. }
      destruct H1 as [(_ & -> & ->)|H1]; [exact (Hdone _ (Hfail OSError eq_refl eq_refl))|].
      destruct (is_dir s file); [destruct H1 as [-> ->]; exact (Hdone _ (Hfail OSError eq_refl eq_refl))|].
      destruct (negb (is_dir s (dirname file))); [destruct H1 as [-> ->]; exact (Hdone _ (Hfail FileNotFound eq_refl eq_refl))|].
      rewrite Hwin in H1. cbn [andb] in H1. destruct H1 as [-> ->]. clear Hfail Hdone.
      assert (Hother : forall p, p <> lock -> p <> file -> contents (link (unlink s lock) file fd0) p = contents s p).
      { intros p Ha Hb. rewrite contents_link, contents_unlink. destruct (path_eq_dec p file); [easy|]. now destruct (path_eq_dec p lock). }
      assert (Hfile : contents (link (unlink s lock) file fd0) file = Some w).
      { rewrite contents_link. destruct (path_eq_dec file file); [|easy]. cbn. now rewrite Hdat. }
      assert (Hlock : contents (link (unlink s lock) file fd0) lock = None).
      { rewrite contents_link, contents_unlink. destruct (path_eq_dec lock file); [easy|]. now destruct (path_eq_dec lock lock). }
      revert Hother Hfile Hlock H2. generalize (link (unlink s lock) file fd0). intros s2 Hother Hfile Hlock H2.
      apply runs_sysr in H2. cbn [sys] in H2. unfold path_exists in H2.
      replace (is_file s2 file) with true in H2.
      2: { symmetry. apply is_file_true. intros E. apply contents_none in E. congruence. }
      cbn [orb] in H2. destruct H2 as [(Hk & -> & ->)|[-> ->]]; destruct (Hres ltac:(easy)) as (-> & -> & ->); (split; [easy|]; split; [now right|]; split; [easy|]).
      + intros _ Hk'. congruence.
      + easy.
    - apply runs_sysr in H1. cbn [sys] in H1. rewrite Hl in H1. replace (match Some write with Some true => b | _ => false end) with false by (now destruct write).
      destruct H1 as [(_ & -> & ->)|[-> ->]]; destruct (Hres ltac:(easy)) as (-> & -> & ->).
      + split; [easy|]. split; [now left|]. split; easy.
      + assert (Hu2 : forall p, p <> lock -> contents (unlink s lock) p = contents s p).
        { intros p Ha. rewrite contents_unlink. now destruct (path_eq_dec p lock). }
        assert (Hf2 : contents (unlink s lock) file = contents s file) by (apply Hu2; intros E; now symmetry in E).
        split; [intros p Ha _; now apply Hu2|]. split; [now left|]. split; [|easy]. intros _. split; [|split; [|easy]].
        * rewrite contents_unlink. now destruct (path_eq_dec lock lock).
        * now destruct write.
  Qed.
  (** Nothing goes wrong without faults. *)
  Lemma end_succeeds us1 us2 l w s b l' r s' : usteps O us0 s0 (us1 ++ mk_user l w None :: us2) s -> windows O = false -> lf_fd l <> None ->
    (forall k, may_fail O k = false) -> is_dir s file = false -> is_dir s (dirname file) = true ->
    runs O (lf_end_writing (windows O) l b) s (Ok (l', r)) s' -> r = Ok tt.
  Proof.
    intros Hu Hwin Hf HO Hd1 Hd2 Hrun. destruct (one_inv us1 us2 l w s Hu) as (Hw & g & Hp & Hi). destruct (lf_fd l) as [fd|] eqn:Ef; [|easy]. clear Hf.
    destruct g as [fd0|]; [|easy]. destruct Hi as (Hl & Hd & Hwn). unfold lf_end_writing in Hrun. rewrite Ef in Hrun.
    destruct (lf_write l) as [write|] eqn:Ew; [|easy]. clear Hwn.
    apply runs_after in Hrun as (r1 & s1 & H1 & H2). apply runs_sysr in H1. cbn [sys] in H1. rewrite Hwin in H2.
    destruct H1 as [(Hk & _)|[-> ->]]; [now rewrite HO in Hk|]. rewrite Hp in H2. cbn [lf_path] in H2.
    apply runs_after in H2 as (r1 & s1 & H1 & H2). destruct (write && b).
    - apply runs_bind in H1 as (r2 & s2 & H1 & H3). apply runs_ret in H1 as [-> ->].
      apply runs_bind in H3 as (r2 & s2 & H1 & H3). apply runs_sysr in H1. cbn [sys] in H1. rewrite Hl, Hd1, Hd2, Hwin in H1. cbn [negb andb] in H1.
      destruct H1 as [(Hk & _)|[-> ->]]; [now rewrite HO in Hk|]. apply runs_sysr in H3. cbn [sys] in H3.
      replace (path_exists (link (unlink s lock) file fd0) file) with true in H3.
      2: { symmetry. unfold path_exists. apply orb_true_intro. left. apply is_file_true. rewrite lookup_link. now destruct (path_eq_dec file file). }
      destruct H3 as [(Hk & _)|[-> ->]]; [now rewrite HO in Hk|]. apply runs_ret in H2 as [[= -> ->] ->]. easy.
    - apply runs_sysr in H1. cbn [sys] in H1. rewrite Hl in H1. destruct H1 as [(Hk & _)|[-> ->]]; [now rewrite HO in Hk|].
      apply runs_ret in H2 as [[= -> ->] ->]. easy.
  Qed.
  Lemma end_again win l b : lf_fd l = None -> lf_write l <> None -> lf_end_writing win l b = ret (l, Ok tt).
  Proof. intros H1 H2. unfold lf_end_writing. rewrite H1. now destruct (lf_write l). Qed.
  Lemma open_once l b s l' r s' : runs O (lf_open l b) s (Ok (l', r)) s' -> lf_write l' <> None.
  Proof.
    unfold lf_open. intros H. destruct (lf_write l) as [x|] eqn:Ew; [apply runs_ret in H as [[= -> ->] ->]; congruence|].
    apply runs_after in H as (r1 & s1 & _ & H). destruct r1 as [[fd|]|e|]; [apply runs_ret in H as [[= -> ->] ->]; easy| |apply runs_ret in H as [[= -> ->] ->]; easy|apply runs_ret in H as [H _]; discriminate H].
    apply runs_after in H as (r2 & s2 & _ & H). destruct r2 as [fd|e|]; [apply runs_ret in H as [[= -> ->] ->]; easy| |apply runs_ret in H as [H _]; discriminate H].
    apply runs_after in H as (r3 & s3 & _ & H). destruct r3 as [u|e'|]; [apply runs_ret in H as [[= -> ->] ->]; easy|apply runs_ret in H as [[= -> ->] ->]; easy|apply runs_ret in H as [H _]; discriminate H].
  Qed.
  Lemma end_write win l b s l' r s' : runs O (lf_end_writing win l b) s (Ok (l', r)) s' -> lf_write l' = lf_write l.
  Proof.
    unfold lf_end_writing. intros H. destruct (lf_write l) as [x|] eqn:Ew; [|apply runs_ret in H as [[= -> ->] ->]; congruence].
    destruct (lf_fd l) as [fd|]; [|apply runs_ret in H as [[= -> ->] ->]; congruence].
    apply runs_after in H as (r1 & s1 & _ & H). destruct r1 as [u|e|]; [|apply runs_ret in H as [[= -> ->] ->]; congruence|apply runs_ret in H as [H _]; discriminate H].
    apply runs_after in H as (r2 & s2 & _ & H). destruct r2 as [u'|e|]; [apply runs_ret in H as [[= -> ->] ->]; easy|apply runs_ret in H as [[= -> ->] ->]; easy|apply runs_ret in H as [H _]; discriminate H].
  Qed.
  (** open: the lock file is there afterwards, or nothing has changed. *)
  Lemma open_result us1 us2 l w s b l' r s' : usteps O us0 s0 (us1 ++ mk_user l w None :: us2) s -> runs O (lf_open l b) s (Ok (l', r)) s' ->
    (forall p, p <> lock -> contents s' p = contents s p) /\
    match r with
    | Ok fd => lf_fd l' = Some fd /\ lf_write l' = Some b /\ contents s lock = None /\ contents s' lock = Some [] /\
               if b then lookup s' lock = Some fd else lookup s' file = Some fd
    | _ => may_fail O KClose = false -> may_fail O KRemove = false -> contents s' lock = contents s lock
    end.
  Proof.
    intros Hu Hrun. destruct (one_inv us1 us2 l w s Hu) as (Hw & g & Hp & Hi). unfold lf_open in Hrun.
    pose proof (lock_not_file file) as Hne.
    destruct (lf_write l) as [x|] eqn:Ew; [apply runs_ret in Hrun as [[= -> ->] ->]; easy|]. cbn [lf_path lf_fd lf_write] in Hrun.
    assert (lf_fd l = None) as Ef. { destruct (lf_fd l); [|easy]. destruct g; [|easy]. now destruct Hi as (_ & _ & H). }
    rewrite Ef, Hp in Hrun. apply runs_after in Hrun as (r1 & s1 & H1 & H2). apply runs_bind in H1 as (r2 & s2 & H1 & H3). apply runs_sysr in H1. cbn [sys] in H1.
    assert (Hbad : forall e, r2 = Raise e -> s2 = s -> r = Raise OSError /\ s' = s).
    { intros e -> ->. destruct H3 as [-> ->]. apply runs_ret in H2 as [[= -> ->] ->]. easy. }
    assert (Hdone : r = Raise OSError /\ s' = s -> (forall p, p <> lock -> contents s' p = contents s p) /\
      match r with
      | Ok fd => lf_fd l' = Some fd /\ lf_write l' = Some b /\ contents s lock = None /\ contents s' lock = Some [] /\
               if b then lookup s' lock = Some fd else lookup s' file = Some fd
      | _ => may_fail O KClose = false -> may_fail O KRemove = false -> contents s' lock = contents s lock
      end) by (intros [-> ->]; easy).
    destruct H1 as [(_ & -> & ->)|H1]; [now apply Hdone, (Hbad OSError)|].
    destruct (path_exists s lock) eqn:Ee; [destruct H1 as [-> ->]; now apply Hdone, (Hbad OSError)|].
    destruct (is_dir s (dirname lock)); destruct H1 as [-> ->]; [|now apply Hdone, (Hbad FileNotFound)]. clear Hbad Hdone.
    apply orb_false_elim in Ee as [Ee _]. apply is_file_lookup in Ee.
    assert (Hn : contents s lock = None) by now apply contents_none.
    assert (Hl : lookup (create s lock) lock = Some (w_next s)) by (rewrite lookup_create; now destruct (path_eq_dec lock lock)).
    assert (Hc : contents (create s lock) lock = Some []) by (unfold contents; rewrite Hl; cbn; now rewrite Nat.eqb_refl).
    assert (Ho : forall p, p <> lock -> contents (create s lock) p = contents s p) by (intros p Hq; now apply contents_create).
    revert Hl Hc Ho H3. generalize (create s lock), (w_next s). intros s2 fd Hl Hc Ho H3. destruct b; cbn [negb] in H3.
    - apply runs_ret in H3 as [-> ->]. apply runs_ret in H2 as [[= -> ->] ->]. now repeat split.
    - apply runs_bind in H3 as (r3 & s3 & H1 & H3). apply runs_sysr in H1. cbn [sys] in H1. destruct H1 as [(Hk & -> & ->)|[-> ->]].
      { destruct H3 as [-> ->]. apply runs_ret in H2 as [[= -> ->] ->]. split; [easy|]. intros Hk'. congruence. }
      apply runs_ret in H3 as [-> ->]. apply runs_after in H2 as (r2 & s1 & H1 & H2). apply runs_sysr in H1. cbn [sys] in H1.
      assert (Hraise : forall e, r2 = Raise e -> s1 = s2 -> (forall p, p <> lock -> contents s' p = contents s p) /\
        match r with
        | Ok fd => lf_fd l' = Some fd /\ lf_write l' = Some false /\ contents s lock = None /\ contents s' lock = Some [] /\ lookup s' file = Some fd
        | _ => may_fail O KClose = false -> may_fail O KRemove = false -> contents s' lock = contents s lock
        end).
      { intros e -> ->. apply runs_after in H2 as (r3 & s3 & H3 & H2). apply runs_sysr in H3. cbn [sys] in H3. rewrite Hl in H3.
        destruct H3 as [(Hk & -> & ->)|[-> ->]]; apply runs_ret in H2 as [[= -> ->] ->].
        - split; [easy|]. intros _ Hk'. congruence.
        - split; [|intros _ _; rewrite Hn, contents_unlink; now destruct (path_eq_dec lock lock)].
          intros p Hq. rewrite contents_unlink. destruct (path_eq_dec p lock); [easy|now apply Ho]. }
      destruct H1 as [(_ & -> & ->)|[(_ & _ & -> & ->)|H1]]; [now apply (Hraise OSError)|now apply (Hraise PermissionError)|].
      destruct (lookup s2 file) as [fd'|] eqn:El; destruct H1 as [-> ->].
      + apply runs_ret in H2 as [[= -> ->] ->]. now repeat split.
      + destruct (is_dir s2 file); eapply Hraise; reflexivity.
  Qed.
End One.

(** ** Windows: commit removes the file first *)
Lemma steps_call O A B (c : call B) (k : B -> prog A) s r s' : steps O (Call c k) s (Ret r) s' -> exists a s1, sys O c s a s1 /\ steps O (k a) s1 (Ret r) s'.
Proof. intros H. inversion H as [|? ? p1 s1 ? ? H1 H2]; subst. destruct H1 as (a & H1 & ->). eauto. Qed.
Lemma unlink_none s p : contents (unlink s p) p = None.
Proof.
  unfold contents, lookup, unlink. cbn [w_files w_data]. induction (w_files s) as [|[q i] l IH]; [easy|]. cbn [filter fst]. unfold path_eqb at 1.
  destruct (path_eq_dec q p) as [E|E]; cbn [negb]; [exact IH|]. cbn [assoc]. destruct (path_eq_dec q p); [easy|exact IH].
Qed.
Lemma windows_gap O file fd s l' s' : windows O = true -> contents s file <> None ->
  runs O (lf_commit (windows O) (mk_lockedfd file (Some fd) (Some true))) s (Ok (l', Ok tt)) s' ->
  exists p s1, steps O (lf_commit (windows O) (mk_lockedfd file (Some fd) (Some true))) s p s1 /\ steps O p s1 (Ret (Ok (l', Ok tt))) s' /\ contents s1 file = None.
Proof.
  intros Hw Hc H. rewrite Hw in *. unfold runs in H. unfold lf_commit, lf_end_writing in *. cbn [lf_write lf_fd lf_path andb after sysr sysv] in *.
  pose proof (steps_call _ _ _ _ _ _ _ _ H) as (a & s1 & H1 & H2). destruct H1 as [(_ & -> & ->)|[-> ->]]; [cbn in H2; apply runs_ret in H2 as [[=] _]|].
  cbn in H2. pose proof (steps_call _ _ _ _ _ _ _ _ H2) as (b & s2 & H3 & H4). destruct H3 as [-> ->]. cbn [lf_path] in H4.
  replace (is_file s file) with true in H4 by (unfold is_file, contents in *; destruct (lookup s file); easy). cbn in H4.
  pose proof (steps_call _ _ _ _ _ _ _ _ H4) as (c & s3 & H5 & H6). destruct H5 as [(_ & -> & ->)|H5]; [cbn in H6; apply runs_ret in H6 as [[=] _]|].
  unfold contents in Hc. destruct (lookup s file) as [i|] eqn:El; [|easy]. destruct H5 as [-> ->].
  eexists _, (unlink s file). split; [|split; [exact H6|apply unlink_none]].
  eapply steps_one; [exists (Ok tt); split; [right; split; reflexivity|reflexivity]|]. cbn.
  eapply steps_one; [exists true; split; [split; [unfold is_file; now rewrite El|reflexivity]|reflexivity]|]. cbn.
  eapply steps_one; [exists (Ok tt); split; [right; rewrite El; split; reflexivity|reflexivity]|]. apply steps_refl.
Qed.

(** A whole call by one of several users. *)
Lemma whole_call O us1 us2 l w op s l' w' r s' us s'' :
  runs O (u_do (windows O) l w op) s (Ok (l', w', r)) s' ->
  usteps O (us1 ++ mk_user l' w' None :: us2) s' us s'' -> usteps O (us1 ++ mk_user l w None :: us2) s us s''.
Proof.
  intros H1 H2. eapply uss_step; [apply (us_start O l w op)|]. revert H1. generalize (u_do (windows O) l w op). intros p H1. unfold runs in H1.
  remember (Ret (Ok (l', w', r))) as q eqn:Eq. induction H1 as [q s|p s p1 s1 q s2 Hs _ IH].
  - subst q. eapply uss_step; [apply us_end|exact H2].
  - eapply uss_step; [apply us_call, Hs|]. now apply IH.
Qed.
Lemma usteps_trans O us s us1 s1 us2 s2 : usteps O us s us1 s1 -> usteps O us1 s1 us2 s2 -> usteps O us s us2 s2.
Proof. induction 1; [easy|]. intros H2. eapply uss_step; eauto. Qed.
