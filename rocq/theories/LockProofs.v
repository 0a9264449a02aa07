(** Proofs about LockedFD: mutual exclusion and atomic commits. *)
From Coq Require Import ZifyBool ZifyNat.
From Verif Require Import Py PyFacts OsModel OsProofs LooseTop LockModel LockSpec.
Ltac Zify.zify_post_hook ::= Z.div_mod_to_equations.

Lemma lock_not_file p : lockfilepath p <> p.
Proof.
  unfold lockfilepath. intros E. apply (f_equal basename) in E. rewrite basename_app in E.
  apply (f_equal (@length Z)) in E. rewrite app_length in E. cbn in E. lia.
Qed.

Section Lock.
  Context (O : os) (file : path).
  Notation lock := (lockfilepath file).

  (** Who owns the lock file [fd] relies on this. *)
  Definition lrely (g : option ino) (s s' : world) : Prop :=
    forall fd, g = Some fd -> lookup s lock = Some fd ->
      lookup s' lock = Some fd /\ w_data s' fd = w_data s fd /\ contents s' file = contents s file.
  Lemma lrely_refl g s : lrely g s s.
  Proof. easy. Qed.
  Lemma lrely_trans g a b c : lrely g a b -> lrely g b c -> lrely g a c.
  Proof.
    intros H1 H2 fd Eg Hl. destruct (H1 fd Eg Hl) as (H3 & H4 & H5). destruct (H2 fd Eg H3) as (H6 & H7 & H8).
    split; [easy|]. split; congruence.
  Qed.
  (** What a step of a user does.  [com]: what a commit in progress will publish; [rel]:
      whether the call in progress may give up the lock. *)
  Inductive lstep (com : option bytes) (rel : bool) : option ino -> option ino -> world -> world -> Prop :=
  | ls_none g s : lstep com rel g g s s
  | ls_new s : lookup s lock = None -> lstep com rel None (Some (w_next s)) s (create s lock)
  | ls_data fd s x : lookup s lock = Some fd -> lstep com rel (Some fd) (Some fd) s (set_data s fd x)
  | ls_gone fd s w : com = Some w -> windows O = true -> lookup s lock = Some fd -> w_data s fd = w -> lstep com rel (Some fd) (Some fd) s (unlink s file)
  | ls_drop fd s : rel = true -> lookup s lock = Some fd -> lstep com rel (Some fd) None s (unlink s lock)
  | ls_pub fd s w : rel = true -> com = Some w -> lookup s lock = Some fd -> w_data s fd = w ->
      lstep com rel (Some fd) None s (link (unlink s lock) file fd).
  Notation wp com rel := (wp O lrely (fun g (_ : event) g' s s' => lstep com rel g g' s s')).

  (** The instance and the ghost of a user who makes no call. *)
  Definition linv (l : lockedfd) (w : bytes) (g : option ino) (s : world) : Prop :=
    lf_path l = file /\
    match lf_fd l, g with
    | Some fd, Some fd0 => lookup s lock = Some fd0 /\ (lf_write l = Some true -> fd = fd0 /\ w_data s fd0 = w) /\ lf_write l <> None
    | Some _, None => False
    | None, None => True
    | None, Some fd0 => lookup s lock = Some fd0 /\ lf_write l <> None
    end.
  Lemma linv_stable l w g s s' : linv l w g s -> lrely g s s' -> linv l w g s'.
  Proof.
    intros [H1 H2] Hr. split; [easy|]. destruct (lf_fd l) as [fd|], g as [fd0|]; try easy.
    - destruct H2 as (Ha & Hb & Hc). destruct (Hr fd0 eq_refl Ha) as (H3 & H4 & _). split; [easy|]. split; [|easy].
      intros E. destruct (Hb E) as [-> Hd]. split; [easy|congruence].
    - destruct H2 as [Ha Hb]. destruct (Hr fd0 eq_refl Ha) as (H3 & _). now split.
  Qed.
  Definition lpost (r : res (lockedfd * bytes * res unit)) (g : option ino) (s : world) : Prop :=
    match r with Ok (l, w, _) => linv l w g s | _ => False end.
  Lemma lpost_stable r g s s' : lpost r g s -> lrely g s s' -> lpost r g s'.
  Proof. destruct r as [[[l w] x]| |]; cbn; try easy. apply linv_stable. Qed.

  Lemma wp_open l w write s com : linv l w None s -> lf_fd l = None -> lf_write l = None ->
    wp com true (u_do (windows O) l w (UOpen write)) None s lpost.
  Proof.
    intros [Hp _] Hf Hw. unfold u_do, lf_open. rewrite Hw. cbn [lf_path lf_fd lf_write]. rewrite Hp, Hf. apply wp_bind. apply wp_after. apply wp_bind. apply wp_sysr.
    intros s1 a s2 _ Hs. cbn [sys] in Hs.
    assert (Hbad : forall e, a = Raise e -> s2 = s1 -> exists g', lstep com true None g' s1 s2 /\ linv (mk_lockedfd file None (Some write)) w g' s2).
    { intros e _ ->. exists None. split; [constructor|]. now split. }
    destruct Hs as [(_ & -> & ->)|Hs]; [destruct (Hbad OSError eq_refl eq_refl) as (g' & H1 & H2); exists g'; split; [exact H1|exact H2]|].
    destruct (path_exists s1 lock) eqn:Ee; [destruct Hs as [-> ->]; destruct (Hbad OSError eq_refl eq_refl) as (g' & H1 & H2); exists g'; split; [exact H1|exact H2]|].
    destruct (is_dir s1 (dirname lock)); destruct Hs as [-> ->]; [|destruct (Hbad FileNotFound eq_refl eq_refl) as (g' & H1 & H2); exists g'; split; [exact H1|exact H2]].
    clear Hbad. apply orb_false_elim in Ee as [Ee _]. apply is_file_lookup in Ee. exists (Some (w_next s1)). split; [now constructor|].
    assert (Hl : lookup (create s1 lock) lock = Some (w_next s1)) by (rewrite lookup_create; now destruct (path_eq_dec lock lock)).
    assert (Hd : w_data (create s1 lock) (w_next s1) = []) by (rewrite data_create, Nat.eqb_refl; easy).
    revert Hl Hd. generalize (create s1 lock), (w_next s1). clear s s1 Ee. intros s fd Hl Hd. destruct write; cbn [negb].
    - cbn [OsProofs.wp ret bind lpost]. split; [easy|]. cbn [lf_fd lf_write]. split; [easy|]. split; [easy|discriminate].
    - clear Hd. apply wp_bind. apply wp_sysr. intros s1 a s2 Hr Hs. destruct (Hr fd eq_refl Hl) as (Hl1 & _ & _). clear Hr. cbn [sys] in Hs.
      destruct Hs as [(_ & -> & ->)|[-> ->]]; (exists (Some fd); split; [constructor|]).
      { split; [easy|]. cbn [lf_fd lf_write]. now split. }
      clear s Hl. revert Hl1. generalize s1. clear s1. intros s Hl. cbn [OsProofs.wp ret]. apply wp_after. apply wp_sysr.
      intros s1 a s2 Hr Hs. destruct (Hr fd eq_refl Hl) as (Hl1 & _ & _). clear Hr s Hl. cbn [sys] in Hs.
      assert (Ha : s2 = s1 /\ a <> Diverge).
      { destruct Hs as [(_ & -> & ->)|[(_ & _ & -> & ->)|Hs]]; [easy|easy|]. destruct (lookup s1 file); destruct Hs as [-> ->]; easy. }
      destruct Ha as [-> Ha]. exists (Some fd). split; [constructor|]. destruct a as [fd'|e|]; [| |easy].
      + cbn [OsProofs.wp ret bind lpost]. split; [easy|]. cbn [lf_fd lf_write]. split; [easy|]. split; [easy|discriminate].
      + apply wp_after. apply wp_sysr. intros s2 a s3 Hr H2. destruct (Hr fd eq_refl Hl1) as (Hl2 & _ & _). clear Hr Hs Hl1 s1 Ha. cbn [sys] in H2.
        rewrite Hl2 in H2. destruct H2 as [(_ & -> & ->)|[-> ->]].
        * exists (Some fd). split; [constructor|]. split; [easy|]. cbn [lf_fd lf_write]. now split.
        * exists None. split; [now constructor|]. now split.
  Qed.

  Lemma wp_write l w d g s com : linv l w g s -> wp com false (u_do (windows O) l w (UWrite d)) g s lpost.
  Proof.
    intros Hi. unfold u_do, lf_os_write.
    assert (Hno : wp com false (do! r := ret (Raise OSError) in ret (l, match r with Ok n => w ++ firstn (Z.to_nat n) d | _ => w end, let! _ := r in Ok tt)) g s lpost).
    { cbn. exact Hi. }
    destruct (lf_fd l) as [fd|] eqn:Ef; [|exact Hno]. destruct (lf_write l) as [[|]|] eqn:Ew; [|exact Hno|exact Hno]. clear Hno.
    apply wp_bind. apply wp_after. apply wp_sysr. intros s1 a s2 Hr Hs. apply (fun H => linv_stable _ _ _ _ _ H Hr) in Hi. clear Hr s.
    destruct Hi as [Hp Hi]. rewrite Ef in Hi. destruct g as [fd0|]; [|easy]. destruct Hi as (Hl & Hd & _). destruct (Hd Ew) as [-> Hd']. clear Hd.
    exists (Some fd0). cbn [sys] in Hs. destruct Hs as [(_ & -> & ->)|[(_ & k & Hk & -> & ->)|[-> ->]]].
    - split; [constructor|]. cbn. split; [easy|]. rewrite Ef, Ew. now repeat split.
    - split; [now apply ls_data|]. cbn. split; [easy|]. rewrite Ef. rewrite lookup_set_data, data_set_data, Nat.eqb_refl. split; [easy|]. split; [|rewrite Ew; discriminate].
      intros _. split; [easy|]. rewrite Hd'. f_equal. apply slice_to_spec; lia.
    - split; [now apply ls_data|]. cbn. split; [easy|]. rewrite Ef. rewrite lookup_set_data, data_set_data, Nat.eqb_refl. split; [easy|]. split; [|rewrite Ew; discriminate].
      intros _. split; [easy|]. rewrite Hd'. f_equal. unfold len. rewrite Nat2Z.id. now rewrite firstn_all.
  Qed.

  Lemma wp_end l w g s succ com : linv l w g s -> (succ = true -> com = Some w) ->
    wp com true (do! (l', r) := lf_end_writing (windows O) l succ in ret (l', w, r)) g s lpost.
  Proof.
    intros Hi Hcom. unfold lf_end_writing.
    destruct (lf_write l) as [write|] eqn:Ew; [|exact Hi]. destruct (lf_fd l) as [fd|] eqn:Ef; [|exact Hi].
    apply wp_bind. apply wp_after. apply wp_sysr. intros s1 a s2 Hr Hs. apply (fun H => linv_stable _ _ _ _ _ H Hr) in Hi. clear Hr s.
    cbn [sys] in Hs. destruct Hs as [(_ & -> & ->)|[-> ->]]; (exists g; split; [constructor|]); [exact Hi|].
    destruct Hi as [Hp Hi]. rewrite Ef in Hi. destruct g as [fd0|]; [|easy]. destruct Hi as (Hl & Hd & _). rewrite Ew in Hd.
    cbn [lf_path]. rewrite Hp. set (l1 := mk_lockedfd file None (Some write)).
    assert (Hl1 : forall s, lookup s lock = Some fd0 -> linv l1 w (Some fd0) s) by (intros s H; split; [easy|now split]).
    assert (Hl2 : forall s, linv l1 w None s) by easy.
    clearbody l1. apply wp_after. destruct (write && succ) eqn:Eb.
    - apply andb_prop in Eb as [-> ->]. destruct (Hd eq_refl) as [-> Hw]. clear Hd. specialize (Hcom eq_refl). subst com.
      apply wp_bind.
      assert (Hgo : forall s, lookup s lock = Some fd0 -> w_data s fd0 = w ->
        wp (Some w) true (do! _ := sysr (Rename lock file) in sysr (Chmod file)) (Some fd0) s
          (fun r g s => wp (Some w) true match r with Diverge => Ret Diverge | _ => ret (l1, r) end g s
             (fun r g s => match r with Ok a => wp (Some w) true (let (l', r) := a in ret (l', w, r)) g s lpost | Raise e => lpost (Raise e) g s | Diverge => lpost Diverge g s end))).
      { clear s1 Hl Hw. intros s Hl Hw. apply wp_bind. apply wp_sysr. intros s1 a s2 Hr Hs. destruct (Hr fd0 eq_refl Hl) as (Ha & Hb & _). rewrite Hw in Hb. clear s Hl Hw Hr.
        cbn [sys] in Hs. rewrite Ha in Hs.
        assert (Hsame : forall e, a = Raise e -> s2 = s1 -> exists g', lstep (Some w) true (Some fd0) g' s1 s2 /\ linv l1 w g' s2).
        { intros e _ ->. exists (Some fd0). split; [constructor|now apply Hl1]. }
        destruct Hs as [(_ & -> & ->)|Hs]; [exact (Hsame OSError eq_refl eq_refl)|].
        destruct (is_dir s1 file); [destruct Hs as [-> ->]; exact (Hsame OSError eq_refl eq_refl)|].
        destruct (negb (is_dir s1 (dirname file))); [destruct Hs as [-> ->]; exact (Hsame FileNotFound eq_refl eq_refl)|].
        destruct (windows O && is_file s1 file); destruct Hs as [-> ->]; [exact (Hsame OSError eq_refl eq_refl)|].
        exists None. split; [now apply ls_pub with (w := w)|]. apply wp_sysr. intros s2 a s3 _ Hs. cbn [sys] in Hs.
        exists None. assert (s3 = s2 /\ a <> Diverge) as [-> Hne].
        { destruct Hs as [(_ & -> & ->)|Hs]; [easy|]. destruct (path_exists s2 file); destruct Hs as [-> ->]; easy. }
        split; [constructor|]. destruct a; [apply Hl2|apply Hl2|easy]. }
      destruct (windows O) eqn:Ewin; [|cbn [OsProofs.wp ret]; now apply Hgo].
      apply wp_bind. apply wp_sysv. intros s2 a s3 Hr Hs. destruct (Hr fd0 eq_refl Hl) as (Ha & Hb & _). rewrite Hw in Hb. clear s1 Hl Hw Hr.
      destruct Hs as [-> ->]. exists (Some fd0). split; [constructor|].
      destruct (is_file s2 file); [|cbn [OsProofs.wp ret]; now apply Hgo].
      apply wp_sysr. intros s3 a s4 Hr Hs. destruct (Hr fd0 eq_refl Ha) as (Hc & Hd & _). rewrite Hb in Hd. clear s2 Ha Hb Hr. cbn [sys] in Hs.
      destruct Hs as [(_ & -> & ->)|Hs]; [exists (Some fd0); split; [constructor|now apply Hl1]|].
      destruct (lookup s3 file); destruct Hs as [-> ->]; [|exists (Some fd0); split; [constructor|now apply Hl1]].
      exists (Some fd0). split; [now apply ls_gone with (w := w)|]. apply Hgo; [|easy].
      rewrite lookup_unlink. destruct (path_eq_dec lock file) as [E|]; [now apply lock_not_file in E|easy].
    - apply wp_sysr. intros s2 a s3 Hr Hs. destruct (Hr fd0 eq_refl Hl) as (Ha & _). clear s1 Hl Hd Hr. cbn [sys] in Hs. rewrite Ha in Hs.
      destruct Hs as [(_ & -> & ->)|[-> ->]].
      + exists (Some fd0). split; [constructor|now apply Hl1].
      + exists None. split; [now apply ls_drop|apply Hl2].
  Qed.

  Definition com_of (op : uop) (w : bytes) : option bytes := match op with UCommit => Some w | _ => None end.
  Definition rel_of (op : uop) (l : lockedfd) : bool :=
    match op with UWrite _ => false | UOpen _ => match lf_fd l with None => true | Some _ => false end | _ => true end.
  Lemma wp_do l w op g s : linv l w g s -> wp (com_of op w) (rel_of op l) (u_do (windows O) l w op) g s lpost.
  Proof.
    intros Hi. destruct op as [write|d| | |]; cbn [com_of rel_of].
    - destruct (lf_write l) as [b|] eqn:Ew.
      + unfold u_do, lf_open. rewrite Ew. exact Hi.
      + assert (lf_fd l = None /\ g = None) as [Ef ->].
        { destruct Hi as [_ Hi]. rewrite Ew in Hi. destruct (lf_fd l), g; easy. }
        rewrite Ef. now apply wp_open.
    - now apply wp_write.
    - apply wp_end; [exact Hi|easy].
    - apply wp_end; [exact Hi|easy].
    - unfold u_do, lf_del. destruct (lf_fd l) eqn:Ef; [|exact Hi].
      pose proof (wp_end l w g s false None Hi ltac:(easy)) as H.
      unfold lf_rollback. revert H. generalize (lf_end_writing (windows O) l false). intros p H.
      unfold pbind in *. induction p as [r|B c k IH] in g, s, H |- *.
      + destruct r as [[l' r']|e|]; cbn in *; easy.
      + cbn [after OsProofs.wp] in *. intros s1 a s2 H1 H2. destruct (H s1 a s2 H1 H2) as (g' & H3 & H4). exists g'. split; [easy|]. now apply IH.
  Qed.

  (** ** Several users *)
  Definition owns (g : option ino) (s : world) : Prop := forall fd, g = Some fd -> lookup s lock = Some fd.
  Definition uinv (u : user) (g : option ino) (s : world) : Prop :=
    owns g s /\
    match u_run u with
    | None => linv (u_lock u) (u_written u) g s
    | Some (op, p) =>
        wp (com_of op (u_written u)) (rel_of op (u_lock u)) p g s lpost /\
        (lf_fd (u_lock u) <> None -> rel_of op (u_lock u) = false -> g <> None)
    end.
  Lemma wp_stable com rel A (p : prog A) g s s' (Q : res A -> option ino -> world -> Prop) :
    (forall r g s s', Q r g s -> lrely g s s' -> Q r g s') -> lrely g s s' -> wp com rel p g s Q -> wp com rel p g s' Q.
  Proof.
    intros HQ Ho Hwp. destruct p as [r|B c k].
    - cbn in *. eapply HQ; eauto.
    - cbn [OsProofs.wp] in *. intros s1 a s2 Hr Hs. apply (Hwp s1 a s2); [|easy]. eapply lrely_trans; eauto.
  Qed.
  Lemma uinv_stable u g s s' : uinv u g s -> lrely g s s' -> uinv u g s'.
  Proof.
    intros [H1 H2] Hr. split.
    - intros fd E. now apply (Hr fd E (H1 fd E)).
    - destruct (u_run u) as [[op p]|]; [|eapply linv_stable; eauto]. destruct H2 as [H2 H3]. split; [|easy].
      eapply wp_stable; eauto. intros r0 g0 a b. apply lpost_stable.
  Qed.
  (** A step, as the others see it. *)
  Lemma lstep_others com rel g g' s s' h : wf s -> owns g s -> owns h s -> g = None \/ h = None -> lstep com rel g g' s s' ->
    lrely h s s' /\ (g' = None \/ h = None) /\ wf s'.
  Proof.
    intros Hw Hg Hh Hor Hs. destruct Hs as [g s|s Hn|fd s x Hl|fd s w _ Hwin Hl1 Hd1|fd s _ Hl|fd s w _ _ Hl Hd].
    - easy.
    - assert (h = None) as ->. { destruct h as [fd|]; [|easy]. specialize (Hh fd eq_refl). congruence. }
      split; [easy|]. split; [now right|now apply wf_create].
    - destruct Hor as [| ->]; [easy|]. split; [easy|]. split; [now right|now apply wf_set_data].
    - destruct Hor as [| ->]; [easy|]. split; [easy|]. split; [now right|now apply wf_unlink].
    - destruct Hor as [| ->]; [easy|]. split; [easy|]. split; [now right|now apply wf_unlink].
    - destruct Hor as [| ->]; [easy|]. split; [easy|]. split; [now right|].
      apply wf_link; [now apply wf_unlink|exact (wf_next s Hw _ _ Hl)|]. intros p. rewrite lookup_unlink.
      destruct (path_eq_dec p lock); [easy|]. intros E. exfalso. apply n. eapply wf_inj; eauto.
  Qed.
  Lemma lstep_owns com rel g g' s s' : wf s -> owns g s -> lstep com rel g g' s s' -> owns g' s'.
  Proof.
    intros Hw Hg Hs. destruct Hs as [g s|s Hn|fd s x Hl|fd s w _ Hwin Hl1 Hd1|fd s _ Hl|fd s w _ _ Hl Hd]; try easy.
    - intros fd [= <-]. rewrite lookup_create. now destruct (path_eq_dec lock lock).
    - intros fd' E. rewrite lookup_unlink. destruct (path_eq_dec lock file) as [E'|]; [now apply lock_not_file in E'|]. now apply Hg.
  Qed.
  (** ... and what it does to the files. *)
  Lemma lstep_files com rel g g' s s' : wf s -> owns g s -> lstep com rel g g' s s' ->
    (forall p, p <> lock -> p <> file -> contents s' p = contents s p) /\
    (contents s' file = contents s file \/
     (exists w, com = Some w /\ contents s' file = Some w /\ contents s' lock = None) \/
     (exists w, com = Some w /\ windows O = true /\ contents s' file = None /\ contents s' lock = Some w)).
  Proof.
    intros Hw Hg Hs. pose proof (lock_not_file file) as Hne. destruct Hs as [g s|s Hn|fd s x Hl|fd s w Hc Hwin Hl1 Hd1|fd s _ Hl|fd s w _ Hc Hl Hd].
    - split; [easy|now left].
    - split; [intros p H1 H2; now apply contents_create|]. left. apply contents_create; [easy|]. intros E. now symmetry in E.
    - split; [intros p H1 H2; now apply (contents_set_data s lock)|]. left. apply (contents_set_data s lock); [easy|easy|]. intros E. now symmetry in E.
    - split; [intros p H1 H2|right; right; exists w; split; [easy|split; [easy|split]]]; rewrite contents_unlink.
      + now destruct (path_eq_dec p file).
      + now destruct (path_eq_dec file file).
      + destruct (path_eq_dec lock file) as [E|]; [easy|]. unfold contents. rewrite Hl1. cbn. now rewrite Hd1.
    - split; [intros p H1 H2|left]; rewrite contents_unlink.
      + now destruct (path_eq_dec p lock).
      + destruct (path_eq_dec file lock) as [E|]; [|easy]. now symmetry in E.
    - split; [intros p H1 H2|right; left; exists w; split; [easy|split]]; rewrite contents_link.
      + rewrite contents_unlink. destruct (path_eq_dec p file); [easy|]. now destruct (path_eq_dec p lock).
      + destruct (path_eq_dec file file); [|easy]. now rewrite <- Hd.
      + rewrite contents_unlink. destruct (path_eq_dec lock file) as [E|]; [easy|]. now destruct (path_eq_dec lock lock).
  Qed.

  Definition pool_ok (ps : list (user * option ino)) (s : world) : Prop :=
    wf s /\ Forall (fun p => uinv (fst p) (snd p) s) ps /\ ForallOrdPairs (fun p q => snd p = None \/ snd q = None) ps.
  Definition files_step (u : user) (s s' : world) : Prop :=
    (forall p, p <> lock -> p <> file -> contents s' p = contents s p) /\
    (contents s' file = contents s file \/
     (committing u /\ contents s' file = Some (u_written u) /\ contents s' lock = None) \/
     (committing u /\ windows O = true /\ contents s' file = None /\ contents s' lock = Some (u_written u))).
  Lemma ustep_ok u g s u' s' : wf s -> uinv u g s -> ustep O u s u' s' -> exists g', uinv u' g' s' /\
    (forall h, owns h s -> g = None \/ h = None -> lrely h s s' /\ (g' = None \/ h = None)) /\ wf s' /\ files_step u s s'.
  Proof.
    intros Hw [Ho Hu] Hs. destruct Hs as [l w op s|l w op p s p' s' Hs|l w op l' w' r s]; cbn [u_run u_lock u_written] in *.
    - exists g. split; [|split; [easy|split; [easy|split; [easy|now left]]]]. split; [easy|]. cbn [u_run u_lock u_written]. split; [now apply wp_do|].
      intros Hf _ ->. destruct Hu as [_ Hu]. now destruct (lf_fd l).
    - destruct Hu as [Hwp Hg]. destruct p as [r|B c k]; [easy|]. destruct Hs as (a & Hs & ->).
      destruct (Hwp s a s' (lrely_refl g s) Hs) as (g' & HG & Hk). exists g'. split; [|split; [|split]].
      + split; [eapply lstep_owns; eauto|]. cbn [u_run u_lock u_written]. split; [easy|].
        intros Hf Hrel. specialize (Hg Hf Hrel). rewrite Hrel in HG. inversion HG; subst; congruence.
      + intros h Hh Hor. destruct (lstep_others _ _ _ _ _ _ _ Hw Ho Hh Hor HG) as (H1 & H2 & _). now split.
      + now destruct (lstep_others _ _ _ _ _ _ None Hw Ho ltac:(easy) (or_intror eq_refl) HG) as (_ & _ & H).
      + destruct (lstep_files _ _ _ _ _ _ Hw Ho HG) as [H1 H2]. split; [easy|].
        assert (Hc : forall x, com_of op w = Some x -> x = w /\ committing (mk_user l w (Some (op, Call c k)))).
        { intros x E. destruct op; try easy. injection E as <-. split; [easy|]. eexists. reflexivity. }
        destruct H2 as [H2|[(x & E & H3 & H4)|(x & E & H3 & H4)]]; [now left|right; left|right; right].
        * destruct (Hc x E) as [-> H5]. easy.
        * now destruct (Hc x E) as [-> H5].
    - exists g. destruct Hu as [Hwp _]. cbn in Hwp. split; [now split|]. split; [easy|]. split; [easy|]. split; [easy|now left].
  Qed.
  Lemma pairs_mid {A} (Rel : A -> A -> Prop) (l1 : list A) x l2 : (forall a b, Rel a b -> Rel b a) ->
    ForallOrdPairs Rel (l1 ++ x :: l2) <-> ForallOrdPairs Rel (l1 ++ l2) /\ Forall (Rel x) (l1 ++ l2).
  Proof.
    intros Hsym. induction l1 as [|a l1 IH]; cbn [app].
    - split; [intros H; inversion H; subst; now split|intros [H1 H2]; now constructor].
    - split.
      + intros H. inversion H as [|? ? Ha Hb]; subst. apply IH in Hb as [Hb Hc]. apply Forall_app in Ha as [Ha1 Ha2]. inversion Ha2; subst.
        split; [constructor; [now apply Forall_app|easy]|]. constructor; [now apply Hsym|easy].
      + intros [H1 H2]. inversion H1 as [|? ? Ha Hb]; subst. inversion H2; subst. constructor; [|now apply IH].
        apply Forall_app in Ha as [Ha1 Ha2]. apply Forall_app. split; [easy|]. constructor; [now apply Hsym|easy].
  Qed.
  Lemma pool_step ps1 u g ps2 s u' s' : pool_ok (ps1 ++ (u, g) :: ps2) s -> ustep O u s u' s' ->
    exists g', pool_ok (ps1 ++ (u', g') :: ps2) s' /\ files_step u s s'.
  Proof.
    intros (Hw & Hall & Hor) Hs. apply pairs_mid in Hor as [Hor Hor1]; [|tauto]. apply Forall_app in Hall as [Ha1 Ha2].
    pose proof (Forall_inv Ha2) as Hu. apply Forall_inv_tail in Ha2. cbn [fst snd] in Hu.
    destruct (ustep_ok u g s u' s' Hw Hu Hs) as (g' & Hu' & Hothers & Hw' & Hf). exists g'. split; [|easy].
    assert (Hrest : Forall (fun p => uinv (fst p) (snd p) s) (ps1 ++ ps2)) by (apply Forall_app; now split).
    assert (Hboth : forall p, In p (ps1 ++ ps2) -> lrely (snd p) s s' /\ (g' = None \/ snd p = None)).
    { intros p Hp. rewrite Forall_forall in Hrest, Hor1. apply Hothers; [apply (Hrest p Hp)|apply (Hor1 p Hp)]. }
    split; [easy|]. split.
    - assert (H : Forall (fun p => uinv (fst p) (snd p) s') (ps1 ++ ps2)).
      { rewrite Forall_forall in *. intros p Hp. eapply uinv_stable; [now apply Hrest|now apply Hboth]. }
      apply Forall_app in H as [H1 H2]. apply Forall_app. split; [easy|]. now constructor.
    - apply pairs_mid; [tauto|]. split; [easy|]. apply Forall_forall. intros p Hp. now apply Hboth.
  Qed.
  Lemma pool_steps us s us' s' : usteps O us s us' s' -> forall ps, map fst ps = us -> pool_ok ps s ->
    exists ps', map fst ps' = us' /\ pool_ok ps' s'.
  Proof.
    induction 1 as [us s|us1 u us2 s u' s1 us' s2 Hs _ IH]; intros ps Hps Hok; [now exists ps|].
    apply map_eq_app in Hps as (ps1 & ps2 & -> & <- & Hps). destruct ps2 as [|[u0 g] ps2]; [discriminate|]. injection Hps as E <-. cbn in E. subst u0.
    destruct (pool_step ps1 u g ps2 s u' s1 Hok Hs) as (g' & Hok' & _). apply (IH (ps1 ++ (u', g') :: ps2)); [|easy]. now rewrite map_app.
  Qed.
  Lemma pool_start us s : wf s -> Forall (newcomer file) us -> pool_ok (map (fun u => (u, None)) us) s.
  Proof.
    intros Hw Hn. split; [easy|]. split.
    - apply Forall_forall. intros p Hp. apply in_map_iff in Hp as (u & <- & Hu). rewrite Forall_forall in Hn. rewrite (Hn u Hu). cbn. now repeat split.
    - clear Hn. induction us as [|u us IH]; cbn [map]; constructor; [|easy]. apply Forall_forall. intros p Hp. apply in_map_iff in Hp as (u' & <- & _). now left.
  Qed.
  Lemma reachable us s us' s' : wf s -> Forall (newcomer file) us -> usteps O us s us' s' -> exists ps, map fst ps = us' /\ pool_ok ps s'.
  Proof.
    intros Hw Hn Hs. apply (pool_steps _ _ _ _ Hs (map (fun u => (u, None)) us)); [|now apply pool_start].
    rewrite map_map. cbn. apply map_id.
  Qed.

  (** Mutual exclusion. *)
  Lemma open_owns u g s : uinv u g s -> has_open u -> g <> None.
  Proof.
    intros [Ho Hu] [Hf Hr]. destruct u as [l w [[op p]|]]; cbn [u_lock u_run u_written] in *.
    - destruct Hu as [_ Hg]. apply Hg; [easy|]. destruct op; try easy. cbn. now destruct (lf_fd l).
    - destruct Hu as [_ Hu]. destruct (lf_fd l); [|easy]. now destruct g.
  Qed.
  Lemma exclusive us s us' s' n m u v : wf s -> Forall (newcomer file) us -> usteps O us s us' s' ->
    nth_error us' n = Some u -> nth_error us' m = Some v -> has_open u -> has_open v -> n = m.
  Proof.
    intros Hw Hn Hs H1 H2 Hu Hv. destruct (reachable us s us' s' Hw Hn Hs) as (ps & <- & (_ & Hall & Hor)).
    rewrite nth_error_map in H1, H2.
    destruct (nth_error ps n) as [[u' g]|] eqn:E1; [|discriminate]. destruct (nth_error ps m) as [[v' h]|] eqn:E2; [|discriminate].
    injection H1 as ->. injection H2 as ->.
    assert (Hg : g <> None /\ h <> None).
    { rewrite Forall_forall in Hall. split.
      - exact (open_owns u g s' (Hall (u, g) (nth_error_In _ _ E1)) Hu).
      - exact (open_owns v h s' (Hall (v, h) (nth_error_In _ _ E2)) Hv). }
    clear Hall Hs. revert n m E1 E2. induction Hor as [|a l Ha _ IH]; intros [|n] [|m] E1 E2; try easy; cbn in E1, E2.
    - injection E1 as ->. apply nth_error_In in E2. rewrite Forall_forall in Ha. destruct (Ha _ E2) as [H|H]; cbn in H; tauto.
    - injection E2 as ->. apply nth_error_In in E1. rewrite Forall_forall in Ha. destruct (Ha _ E1) as [H|H]; cbn in H; tauto.
    - f_equal. exact (IH n m E1 E2).
  Qed.
  Lemma open_locked us us' u s0 s : wf s0 -> Forall (newcomer file) us -> usteps O us s0 us' s -> In u us' -> has_open u -> contents s lock <> None.
  Proof.
    intros Hw Hn Hs Hi Hu. destruct (reachable us s0 us' s Hw Hn Hs) as (ps & <- & (_ & Hall & _)).
    apply in_map_iff in Hi as ([u' g] & <- & Hi). rewrite Forall_forall in Hall. specialize (Hall _ Hi). cbn [fst snd] in *.
    pose proof (open_owns u' g s Hall Hu) as Hg. destruct g as [fd|]; [|easy]. destruct Hall as [Ho _]. unfold contents. now rewrite (Ho fd eq_refl).
  Qed.
  (** What one more step of any of them can do. *)
  Lemma only_commits us s us1 u us2 s1 u' s2 : wf s -> Forall (newcomer file) us -> usteps O us s (us1 ++ u :: us2) s1 -> ustep O u s1 u' s2 ->
    files_step u s1 s2.
  Proof.
    intros Hw Hn Hs H1. destruct (reachable _ _ _ _ Hw Hn Hs) as (ps & Hps & Hok).
    apply map_eq_app in Hps as (ps1 & ps2 & -> & <- & Hps). destruct ps2 as [|[u0 g] ps2]; [discriminate|]. injection Hps as E <-. cbn in E. subst u0.
    now destruct (pool_step ps1 u g ps2 s1 u' s2 Hok H1) as (g' & _ & Hf).
  Qed.
  (** While one has the file open, nobody else changes it. *)
  Lemma nobody_else us s us1 u us2 s1 u' s2 v : wf s -> Forall (newcomer file) us -> usteps O us s (us1 ++ u :: us2) s1 -> ustep O u s1 u' s2 ->
    In v (us1 ++ us2) -> has_open v -> contents s2 file = contents s1 file.
  Proof.
    intros Hw Hn Hs H1 Hv Ho. destruct (reachable _ _ _ _ Hw Hn Hs) as (ps & Hps & Hok).
    apply map_eq_app in Hps as (ps1 & ps2 & -> & <- & Hps). destruct ps2 as [|[u0 g] ps2]; [discriminate|]. injection Hps as E <-. cbn in E. subst u0.
    destruct Hok as (Hw1 & Hall & Hor). apply pairs_mid in Hor as [_ Hor]; [|tauto].
    rewrite <- map_app in Hv. apply in_map_iff in Hv as ([v' h] & E & Hv). cbn in E. subst v'.
    assert (Hin : In (v, h) (ps1 ++ (u, g) :: ps2)) by (apply in_or_app; apply in_app_or in Hv as [|]; [now left|right; now right]).
    rewrite Forall_forall in Hall. pose proof (Hall _ Hin) as Hvi. cbn [fst snd] in Hvi.
    assert (Hui : uinv u g s1). { apply (Hall (u, g)). apply in_or_app. right. now left. }
    destruct (ustep_ok u g s1 u' s2 Hw1 Hui H1) as (g' & _ & Hothers & _). rewrite Forall_forall in Hor.
    destruct (Hothers h (proj1 Hvi) (Hor _ Hv)) as [Hr _]. pose proof (open_owns v h s1 Hvi Ho) as Hne.
    destruct h as [fd|]; [|easy]. now destruct (Hr fd eq_refl (proj1 Hvi fd eq_refl)) as (_ & _ & H).
  Qed.
End Lock.
