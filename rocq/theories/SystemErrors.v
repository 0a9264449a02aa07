(** Which exceptions storing and locking can raise. *)
From Verif Require Import Py PyFacts FunModel FunSpec FunProofs ZlibModel OsModel OsProofs LooseModel LooseTop LockModel LockTop.

(** What a system call raises. *)
Definition sys_error (x : exn) : Prop := x = OSError \/ x = FileNotFound \/ x = PermissionError.
(** Every result of a program. *)
Definition gives_only {A} (O : os) (p : OsModel.prog A) (Q : res A -> Prop) : Prop := forall s r s', runs O p s r s' -> Q r.

Section Only.
  Variable O : os.
  Lemma only_ret A (r : res A) (Q : res A -> Prop) : Q r -> gives_only O (Ret r) Q.
  Proof. intros H s r' s' Hr. now apply runs_ret in Hr as [-> _]. Qed.
  Lemma only_after A B (p : OsModel.prog A) (f : res A -> OsModel.prog B) P (Q : res B -> Prop) :
    gives_only O p P -> (forall r, P r -> gives_only O (f r) Q) -> gives_only O (after p f) Q.
  Proof. intros Hp Hf s r s' H. apply runs_after in H as (r1 & s1 & H1 & H2). exact (Hf r1 (Hp _ _ _ H1) _ _ _ H2). Qed.
  Lemma only_bind A B (p : OsModel.prog A) (f : A -> OsModel.prog B) (P : res A -> Prop) (Q : res B -> Prop) :
    gives_only O p P -> (forall a, P (Ok a) -> gives_only O (f a) Q) -> (forall x, P (Raise x) -> Q (Raise x)) -> (P Diverge -> Q Diverge) -> gives_only O (pbind p f) Q.
  Proof.
    intros Hp Hf Hx Hd. apply (only_after _ _ p _ P); [exact Hp|]. intros [a|x|] H; [now apply Hf|apply only_ret, Hx, H|apply only_ret, Hd, H].
  Qed.
  (** An error of the system, or one of those in E. *)
  Definition errs {A} (E : exn -> Prop) (r : res A) : Prop := match r with Raise x => sys_error x \/ E x | _ => True end.
  Lemma only_errs A B (p : OsModel.prog A) (f : A -> OsModel.prog B) E :
    gives_only O p (errs E) -> (forall a, gives_only O (f a) (errs E)) -> gives_only O (pbind p f) (errs E).
  Proof. intros Hp Hf. apply (only_bind _ _ p f (errs E)); [exact Hp|intros a _; apply Hf|easy|easy]. Qed.
  Ltac sysgo := repeat match goal with
    | H : _ \/ _ |- _ => destruct H as [H|H]
    | H : _ /\ _ |- _ => destruct H
    | H : exists _, _ |- _ => destruct H
    | H : fails _ _ _ _ _ _ |- _ => unfold fails in H
    | H : Raise _ = Raise _ |- _ => injection H as H
    | H : Raise _ = Ok _ |- _ => discriminate H
    | H : gives _ _ _ _ |- _ => unfold gives in H
    | H : (let _ := _ in _) |- _ => cbv zeta in H
    | H : context [match ?b with _ => _ end] |- _ => destruct b
    end; subst; try easy; unfold sys_error; auto.
  Definition errs_of {B} (c : call B) : (exn -> Prop) -> B -> Prop :=
    match c in call B return (exn -> Prop) -> B -> Prop with
    | Mkstemp _ _ => errs | OpenNew _ => errs | OpenRead _ _ => errs | Write _ _ => errs | Close _ => errs
    | Remove _ => errs | Rename _ _ => errs | Makedirs _ => errs | Chmod _ => errs | _ => fun _ _ => True
    end.
  Lemma call_errs B (c : call B) s a s' E : sys O c s a s' -> errs_of c E a.
  Proof. destruct c; cbn [sys errs_of]; intros H; try exact I; destruct a as [a|x|]; try exact I; left; sysgo. Qed.
  Lemma sysr_errs A (c : call (res A)) E : errs_of c E = errs E -> gives_only O (sysr c) (errs E).
  Proof. intros Hc s r s' H. apply runs_sysr in H. rewrite <- Hc. exact (call_errs _ c s r s' E H). Qed.
  Lemma sysv_errs A (c : call A) E : gives_only O (sysv c) (errs E).
  Proof. intros s r s' H. now apply runs_sysv in H as (a & -> & _). Qed.

  Section Store.
    Context (K : zlib) (sha1 : bytes -> bytes) (pagesize : Z) {R : Type} (rd : R -> Z -> res (bytes * R)) (Hsha : forall d, is_bytes (sha1 d)).
    Definition from_stream (x : exn) : Prop := exists r n, rd r n = Raise x.
    Definition is_file (w : writer K) : Prop := match w with WFDC _ _ _ | WFD _ _ => True | _ => False end.
    (** A writer that returns the number of bytes. *)
    Definition counts (w : writer K) : Prop := match w with WFD _ _ => False | WFDC _ _ _ => True | _ => False end.
    Definition in_writer (w0 : writer K) (r : res (res (option Z) * writer K)) : Prop :=
      match r with
      | Ok (x, w) => errs (fun _ => False) x /\ match w0, w with WFDC _ _ _, WFDC _ _ _ => x <> Ok None | WFD _ _, WFD _ _ => True | _, _ => False end
      | Raise _ => False
      | Diverge => True
      end.
    Lemma write_errs w d : is_file w -> gives_only O (w_write K w d) (in_writer w).
    Proof.
      destruct w as [| | |fd seen zip|fd pos]; try easy; intros _; cbn [w_write].
      - destruct (zc_compress K zip d) as [cdata zip']. apply (only_after _ _ _ _ (errs (fun _ => False))); [now apply sysr_errs|].
        intros [n|x|] H; apply only_ret; cbn [in_writer]; [|now split|now split]. destruct (n =? len cdata); cbn; unfold sys_error; split; auto; discriminate.
      - apply (only_after _ _ _ _ (errs (fun _ => False))); [now apply sysr_errs|]. intros [n|x|] H; apply only_ret; cbn [in_writer]; now split.
    Qed.
    Definition in_copy (w0 : writer K) (r : res (res Z * R * writer K)) : Prop :=
      match r with
      | Ok (x, _, w) => errs from_stream x /\ match w0, w with WFDC _ _ _, WFDC _ _ _ => True | WFD _ _, WFD _ _ => True | _, _ => False end
      | Raise _ => False
      | Diverge => True
      end.
    Lemma errs_weak A (E : exn -> Prop) (r : res A) : errs (fun _ => False) r -> errs E r.
    Proof. destruct r as [a|x|]; cbn; tauto. Qed.
    Lemma copy_errs size chunk : forall fuel r w dbw, is_file w -> gives_only O (copy_loop K rd fuel r w size chunk dbw) (in_copy w).
    Proof.
      induction fuel as [|fuel IH]; intros r w dbw Hw; cbn [copy_loop]; [now apply only_ret|].
      destruct (rd r (Z.min chunk (size - dbw))) as [[data r']|x|] eqn:E; [|apply only_ret; split; [right; now exists r, (Z.min chunk (size - dbw))|now destruct w]|now apply only_ret].
      apply (only_bind _ _ _ _ (in_writer w)); [now apply write_errs| |easy|easy]. intros [x w'] [Hx Hw'].
      assert (Hf : is_file w') by (destruct w, w'; easy).
      destruct x as [n|x|]; [|apply only_ret; split; [now apply errs_weak|destruct w, w'; easy]|now apply only_ret].
      destruct (_ || _); [apply only_ret; split; [easy|destruct w, w'; easy]|]. intros s y s' H. pose proof (IH _ _ _ Hf s y s' H) as H'. destruct y as [[[x r2] w2]|x|]; [|easy|easy]. destruct H' as [H1 H2]. split; [easy|]. destruct w, w', w2; easy.
    Qed.
    Lemma object_errs fuel type size r w chunk : counts w -> gives_only O (write_object_to K rd fuel type size r w chunk) (in_copy w).
    Proof.
      intros Hc. assert (Hw : is_file w) by (destruct w; easy). unfold write_object_to. apply (only_bind _ _ _ _ (in_writer w)); [now apply write_errs| |easy|easy]. intros [x w'] [Hx Hw'].
      destruct w; try easy. destruct w'; try easy. destruct x as [[n|]|x|]; [|now elim Hw'|apply only_ret; split; [now apply errs_weak|easy]|now apply only_ret].
      apply (only_bind _ _ _ _ (in_copy (WFDC fd0 seen0 zip0))); [now apply copy_errs| |easy|easy]. intros [[x r'] w'] [H1 H2]. apply only_ret. split; [|destruct w'; easy].
      destruct x as [m|x|]; exact H1.
    Qed.
    Lemma close_errs w E : gives_only O (w_close K w) (errs E).
    Proof.
      destruct w; cbn [w_close]; try now apply only_ret; try now apply sysr_errs.
      - apply only_errs; [now apply sysr_errs|]. intros n. destruct (n =? _); [now apply sysr_errs|]. apply only_ret. left. now left.
      - now apply sysr_errs.
    Qed.
    Lemma chmod_errs p E : forall n, gives_only O (chmod_loop n p) (errs E).
    Proof.
      induction n as [|n IH]; cbn [chmod_loop]; [apply only_ret; left; right; now right|].
      apply (only_after _ _ _ _ (errs E)); [now apply sysr_errs|]. intros [a|x|] H; [now apply only_ret| |now apply only_ret]. destruct x; try (apply only_ret; exact H). exact IH.
    Qed.
    Lemma publish_errs root tmp h E : gives_only O (publish root tmp h) (errs E).
    Proof.
      unfold publish. apply only_errs; [now apply sysr_errs|]. intros _. apply only_errs; [apply sysv_errs|]. intros [|]; (apply only_errs; [now apply sysr_errs|]; intros _; apply chmod_errs).
    Qed.
    Lemma store_errs fuel db i : (forall b, is_binsha i = Some b -> is_bytes b /\ b <> []) ->
      gives_only O (store K sha1 pagesize rd fuel db None i) (errs from_stream).
    Proof.
      intros Hi. unfold store. set (w0 := fun fd : ino => match is_binsha i with None => WFDC fd [] (zc_new K 1) | Some _ => WFD fd 0 end : writer K).
      apply (only_bind _ _ _ _ (fun r => match r with Ok (t, w) => exists p fd, t = Some p /\ w = w0 fd | r => errs from_stream r end)).
      { apply (only_bind _ _ _ _ (errs from_stream)); [now apply sysr_errs| |easy|easy]. intros [t fd] _. apply only_ret. now exists t, fd. }
      2: easy. 2: easy. intros [t w] (p & fd & -> & ->).
      apply (only_bind _ _ _ _ (fun r => match r with Ok (_, w) => match is_binsha i with None => counts w | _ => True end | r => errs from_stream r end)).
      - unfold fill, on_error. apply (only_after _ _ _ _ (fun r => match r with Ok (_, w) => match is_binsha i with None => counts w | _ => True end | r => errs from_stream r end)).
        + apply (only_bind _ _ _ _ (in_copy (w0 fd))).
          * unfold feed, w0. destruct (is_binsha i); [now apply copy_errs|now apply object_errs].
          * intros [[x r] w] [Hx Hw]. assert (Hk : match is_binsha i with None => counts w | _ => True end) by (unfold w0 in Hw; destruct (is_binsha i); [easy|]; now destruct w).
            destruct x as [n|x|]; [| |now apply only_ret]; (apply (only_bind _ _ _ _ (errs from_stream)); [apply close_errs| |easy|easy]); intros _ _; apply only_ret; [exact Hk|exact Hx].
          * easy.
          * easy.
        + intros [[r w]|x|] H; [now apply only_ret| |now apply only_ret]. apply (only_bind _ _ _ _ (errs from_stream)); [now apply sysr_errs| |easy|easy]. intros _ _. now apply only_ret.
      - intros [r w] Hk. apply (only_bind _ _ _ _ (fun r => match r with Ok h => exists b, is_bytes b /\ h = bin_to_hex b | _ => False end)).
        + destruct (is_binsha i) as [b|] eqn:Eb.
          * destruct (Hi b eq_refl) as [Hb Hne]. destruct b as [|c b]; [easy|]. apply only_ret. now exists (c :: b).
          * destruct w; try easy. cbn [w_sha]. apply only_ret. exists (sha1 seen). now split.
        + intros h (b & Hb & ->). apply only_errs; [apply publish_errs|]. intros _. apply only_ret. rewrite hex_to_bin_to_hex by easy. exact I.
        + easy.
        + easy.
      - easy.
      - easy.
    Qed.
  End Store.

  (** ** LockedFD *)
  Definition lock_errs {A} (r : res (lockedfd * res A)) : Prop :=
    match r with Ok (_, x) => errs (fun _ => False) x | Raise _ => False | Diverge => True end.
  Lemma open_errs l write : lf_write l = None -> gives_only O (lf_open l write) lock_errs.
  Proof.
    intros Hl. unfold lf_open. rewrite Hl. apply (only_after _ _ _ _ (fun _ => True)); [now intros ? ? ? ?|]. intros [[fd|]|x|] _.
    - now apply only_ret.
    - apply (only_after _ _ _ _ (errs (fun _ => False))); [now apply sysr_errs|]. intros [fd|x|] H; [now apply only_ret| |now apply only_ret].
      apply (only_after _ _ _ _ (errs (fun _ => False))); [now apply sysr_errs|]. intros [u|y|] H'; now apply only_ret.
    - apply only_ret. left. now left.
    - now apply only_ret.
  Qed.
  Lemma end_errs win l ok : lf_write l <> None -> gives_only O (lf_end_writing win l ok) lock_errs.
  Proof.
    intros Hl. unfold lf_end_writing. destruct (lf_write l) as [write|]; [|easy]. destruct (lf_fd l) as [fd|]; [|now apply only_ret].
    apply (only_after _ _ _ _ (errs (fun _ => False))); [now apply sysr_errs|]. intros [u|x|] H; [|now apply only_ret|now apply only_ret].
    apply (only_after _ _ _ _ (errs (fun _ => False))).
    - destruct (write && ok); [|now apply sysr_errs]. apply only_errs.
      + destruct win; [|now apply only_ret]. apply only_errs; [apply sysv_errs|]. intros [|]; [now apply sysr_errs|now apply only_ret].
      + intros _. apply only_errs; [now apply sysr_errs|]. intros _. now apply sysr_errs.
    - intros [v|x|] H'; now apply only_ret.
  Qed.
End Only.
