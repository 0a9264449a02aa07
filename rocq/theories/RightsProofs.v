(** Proofs about owners and access rights. *)
From Coq Require Import ZifyBool ZifyNat.
From Verif Require Import Py PyFacts FunModel FunSpec FunProofs ZlibModel ReaderModel StreamSpec IndexSpec PackSpec OsModel OsProofs LooseModel LooseSpec LooseProofs LooseTop RightsSpec.
Ltac Zify.zify_post_hook ::= Z.div_mod_to_equations.

(** ** Programs *)
Section Runs.
  Context (O : os) (u : user).
  Lemma rsteps_trans A (p : prog A) s g p1 s1 g1 p2 s2 g2 :
    rsteps O u p s g p1 s1 g1 -> rsteps O u p1 s1 g1 p2 s2 g2 -> rsteps O u p s g p2 s2 g2.
  Proof. intros H1 H2. induction H1; [exact H2|]. eapply rs_one; eauto. Qed.
  Lemma rruns_ret A (r : res A) s g r' s' g' : rruns O u (Ret r) s g r' s' g' -> r' = r /\ s' = s /\ g' = g.
  Proof. intros H. inversion H as [|? ? ? ? ? ? ? ? ? H3]; subst; [easy|]. destruct H3. Qed.
  Lemma rruns_call A B (c : call B) (k : B -> prog A) s g r s' g' : rruns O u (Call c k) s g r s' g' ->
    exists a s1 g1, rsys O u c s g a s1 g1 /\ rruns O u (k a) s1 g1 r s' g'.
  Proof.
    intros H. inversion H as [|? ? ? p1 s1 g1 ? ? ? H1 H2]; subst. destruct H1 as (a & H1 & ->). now exists a, s1, g1.
  Qed.
  Lemma rruns_sysr A (c : call (res A)) s g r s' g' : rruns O u (sysr c) s g r s' g' -> rsys O u c s g r s' g'.
  Proof. intros H. apply rruns_call in H as (a & s1 & g1 & H1 & H2). apply rruns_ret in H2 as (-> & -> & ->). exact H1. Qed.
  Lemma rruns_sysv A (c : call A) s g r s' g' : rruns O u (sysv c) s g r s' g' -> exists v, r = Ok v /\ rsys O u c s g v s' g'.
  Proof. intros H. apply rruns_call in H as (a & s1 & g1 & H1 & H2). apply rruns_ret in H2 as (-> & -> & ->). now exists a. Qed.
  Lemma rruns_after A B (p : prog A) (f : res A -> prog B) : forall s g r s' g', rruns O u (after p f) s g r s' g' ->
    exists r1 s1 g1, rruns O u p s g r1 s1 g1 /\ rruns O u (f r1) s1 g1 r s' g'.
  Proof.
    induction p as [r1|C c k IH]; intros s g r s' g' H.
    - exists r1, s, g. split; [constructor|exact H].
    - cbn [after] in H. apply rruns_call in H as (a & s1 & g1 & H1 & H2).
      destruct (IH a _ _ _ _ _ H2) as (r1 & s2 & g2 & H3 & H4). exists r1, s2, g2. split; [|exact H4].
      eapply rs_one; [|exact H3]. now exists a.
  Qed.
  Lemma rsteps_after A B (p : prog A) (f : res A -> prog B) s g p1 s1 g1 : rsteps O u p s g p1 s1 g1 ->
    rsteps O u (after p f) s g (after p1 f) s1 g1.
  Proof.
    intros H. induction H as [|p s g p1 s1 g1 p2 s2 g2 H1 H2 IH]; [constructor|]. eapply rs_one; [|exact IH].
    destruct p; [destruct H1|]. destruct H1 as (a & H1 & ->). now exists a.
  Qed.
  (** A run that ends well. *)
  Lemma rruns_bind A B (p : prog A) (f : A -> prog B) s g b s' g' : rruns O u (pbind p f) s g (Ok b) s' g' ->
    exists a s1 g1, rruns O u p s g (Ok a) s1 g1 /\ rruns O u (f a) s1 g1 (Ok b) s' g'.
  Proof.
    intros H. apply rruns_after in H as (r1 & s1 & g1 & H1 & H2). destruct r1 as [a|e|].
    - now exists a, s1, g1.
    - now apply rruns_ret in H2.
    - now apply rruns_ret in H2.
  Qed.

  (** Everything a program may call. *)
  Fixpoint calls (P : forall B, call B -> Prop) {A} (p : prog A) : Prop :=
    match p with
    | Ret _ => True
    | Call c k => P _ c /\ forall a, calls P (k a)
    end.
  Lemma calls_after (P : forall B, call B -> Prop) A B (p : prog A) (f : res A -> prog B) : calls P p -> (forall r, calls P (f r)) -> calls P (after p f).
  Proof. intros H Hf. induction p as [r|C c k IH]; [apply Hf|]. destruct H as [H1 H2]. split; [exact H1|]. intros a. now apply IH. Qed.
  Lemma calls_bind (P : forall B, call B -> Prop) A B (p : prog A) (f : A -> prog B) : calls P p -> (forall a, calls P (f a)) -> calls P (pbind p f).
  Proof. intros H Hf. apply calls_after; [exact H|]. now intros [a|e|]. Qed.
  Lemma calls_sysr (P : forall B, call B -> Prop) A (c : call (res A)) : P _ c -> calls P (sysr c).
  Proof. now split. Qed.
  Lemma calls_inv (P : forall B, call B -> Prop) (I : world -> rights -> Prop) : (forall B (c : call B) s g a s' g', P B c -> rsys O u c s g a s' g' -> I s g -> I s' g') ->
    forall A (p : prog A) s g p' s' g', rsteps O u p s g p' s' g' -> calls P p -> I s g -> I s' g' /\ calls P p'.
  Proof.
    intros HI A p s g p' s' g' H. induction H as [|p s g p1 s1 g1 p2 s2 g2 H1 H2 IH]; intros Hc Hi; [easy|].
    destruct p as [|B c k]; [destruct H1|]. destruct H1 as (a & H1 & ->). destruct Hc as [Hc1 Hc2]. apply IH; [apply Hc2|]. eapply HI; eauto.
  Qed.
End Runs.

(** ** What u does is something a process may do when chmod may fail *)
Definition chmod_fails (O : os) : os :=
  mk_os (fun k => match k with KChmod => true | _ => may_fail O k end) (windows O).
Definition not_read (B : Type) (c : call B) : Prop := match c with OpenRead _ _ => False | _ => True end.
Lemma rsys_sys O u B (c : call B) s g a s' g' : not_read B c -> rsys O u c s g a s' g' -> sys (chmod_fails O) c s a s'.
Proof.
  intros Hn H. destruct c; cbn [rsys] in H; try destruct Hn; try (exact (proj1 H)).
  assert (Hgo : sys O (Chmod p) s a s' -> sys (chmod_fails O) (Chmod p) s a s').
  { cbn [sys]. unfold fails. cbn. tauto. }
  destruct (lookup s p) as [i|]; [|apply Hgo; apply H]. destruct (Nat.eqb (owner g i) u); [apply Hgo; apply H|].
  destruct H as (-> & -> & ->). left. now split.
Qed.
Lemma rsteps_steps O u A (p : prog A) s g p' s' g' : rsteps O u p s g p' s' g' -> calls not_read p -> steps (chmod_fails O) p s p' s'.
Proof.
  intros H. induction H as [|p s g p1 s1 g1 p2 s2 g2 H1 H2 IH]; intros Hc; [constructor|].
  destruct p as [|B c k]; [destruct H1|]. destruct H1 as (a & H1 & ->). destruct Hc as [Hc1 Hc2].
  eapply steps_one; [|apply IH, Hc2]. exists a. split; [|easy]. eapply rsys_sys; eauto.
Qed.

(** ** Which files a program leaves alone *)
(** Calls that change no directory entry but that of t, and no rights. *)
Definition quiet (t : path) (B : Type) (c : call B) : Prop :=
  match c with Write _ _ | Close _ => True | Remove p => p = t | _ => False end.
Lemma quiet_keeps O u t (p : path) (i : ino) (gi : user * bool) : t <> p -> forall B (c : call B) s g a s' g', quiet t B c -> rsys O u c s g a s' g' ->
  (lookup s p = Some i /\ (owner g i, public g i) = gi) -> lookup s' p = Some i /\ (owner g' i, public g' i) = gi.
Proof.
  intros Hne B c s g a s' g' Hq H [Hl Hg]. destruct c; try destruct Hq; cbn [rsys] in H; destruct H as [H ->]; (split; [|exact Hg]); cbn [sys] in H; unfold fails, gives in H.
  - destruct H as [(_ & _ & ->)|[(_ & k & _ & _ & ->)|[_ ->]]]; [exact Hl| |]; now rewrite lookup_set_data.
  - destruct H as [(_ & _ & ->)|[_ ->]]; exact Hl.
  - destruct H as [(_ & _ & ->)|H]; [exact Hl|]. destruct (lookup s p0); destruct H as [_ ->]; [|exact Hl].
    rewrite lookup_unlink. destruct (path_eq_dec p p0); [now subst|exact Hl].
Qed.
Lemma quiet_keeps_none O u t (p : path) : forall B (c : call B) s g a s' g', quiet t B c -> rsys O u c s g a s' g' ->
  lookup s p = None -> lookup s' p = None.
Proof.
  intros B c s g a s' g' Hq H Hl. destruct c; try destruct Hq; cbn [rsys] in H; destruct H as [H ->]; cbn [sys] in H; unfold fails, gives in H.
  - destruct H as [(_ & _ & ->)|[(_ & k & _ & _ & ->)|[_ ->]]]; [exact Hl| |]; now rewrite lookup_set_data.
  - destruct H as [(_ & _ & ->)|[_ ->]]; exact Hl.
  - destruct H as [(_ & _ & ->)|H]; [exact Hl|]. destruct (lookup s p0); destruct H as [_ ->]; [|exact Hl].
    rewrite lookup_unlink. now destruct (path_eq_dec p p0).
Qed.

Lemma quiet_own O u t i : forall B (c : call B) s g a s' g', quiet t B c -> rsys O u c s g a s' g' ->
  ((lookup s t = None \/ lookup s t = Some i) /\ public g i = false) -> (lookup s' t = None \/ lookup s' t = Some i) /\ public g' i = false.
Proof.
  intros B c s g a s' g' Hq H [Hl Hg]. destruct c; try destruct Hq; cbn [rsys] in H; destruct H as [H ->]; (split; [|exact Hg]); cbn [sys] in H; unfold fails, gives in H.
  - destruct H as [(_ & _ & ->)|[(_ & k & _ & _ & ->)|[_ ->]]]; [exact Hl| |]; now rewrite lookup_set_data.
  - destruct H as [(_ & _ & ->)|[_ ->]]; exact Hl.
  - destruct H as [(_ & _ & ->)|H]; [exact Hl|]. destruct (lookup s p) eqn:El; destruct H as [_ ->]; [|left; exact El].
    left. rewrite lookup_unlink. now destruct (path_eq_dec p p).
Qed.

Section Store.
  Context (K : zlib) (sha1 : bytes -> bytes) (Hsha : forall d, sha_ok (sha1 d)) (pagesize : Z).
  Context {R : Type} (read : R -> Z -> res (bytes * R)) (O : os) (u : user) (fuel : nat) (db : ldb) (i : istream R).
  Context (Hpre : forall sha, is_binsha i = Some sha -> is_bytes sha).
  Notation store := (store K sha1 pagesize read fuel db None i).
  Notation root := (l_root db).

  Lemma write_quiet t w d : calls (quiet t) (w_write K w d).
  Proof.
    destruct w; cbn [w_write]; try exact I.
    - now destruct (zc_compress K zip d).
    - destruct (zc_compress K zip d). apply calls_after; [now apply calls_sysr|easy].
    - apply calls_after; [now apply calls_sysr|easy].
  Qed.
  Lemma close_quiet t w : calls (quiet t) (w_close K w).
  Proof.
    destruct w; cbn [w_close]; try exact I; [|now apply calls_sysr].
    apply calls_bind; [now apply calls_sysr|]. intros a. destruct (a =? _); [now apply calls_sysr|exact I].
  Qed.
  Lemma copy_quiet t size chunk : forall f r w dbw, calls (quiet t) (copy_loop K read f r w size chunk dbw).
  Proof.
    induction f as [|f IH]; intros r w dbw; [exact I|]. cbn [copy_loop]. destruct (read r _) as [[data r1]|e|]; try exact I.
    apply calls_bind; [apply write_quiet|]. intros [res w1]. destruct res; try exact I. destruct (_ || _); [exact I|apply IH].
  Qed.
  Lemma fill_quiet t w : calls (quiet t) (fill K pagesize read fuel (Some t) w i).
  Proof.
    unfold fill, on_error. apply calls_after.
    - apply calls_bind.
      + unfold feed. destruct (is_binsha i); [apply copy_quiet|]. unfold write_object_to. apply calls_bind; [apply write_quiet|].
        intros [[[n|]|e|] w1]; try exact I. apply calls_bind; [apply copy_quiet|]. now intros [[res r] w2].
      + intros [[res r] w1]. destruct res; try exact I; (apply calls_bind; [apply close_quiet|easy]).
    - intros [a|e|]; try exact I. apply calls_bind; [now apply calls_sysr|easy].
  Qed.
  Lemma chmod_not_read p : forall n, calls not_read (chmod_loop n p).
  Proof.
    induction n as [|n IH]; [exact I|]. cbn [chmod_loop]. apply calls_after; [now apply calls_sysr|].
    intros [a|e|]; try exact I. destruct e; try exact I. exact IH.
  Qed.
  Lemma calls_weaken (P Q : forall B, call B -> Prop) A (p : prog A) : (forall B c, P B c -> Q B c) -> calls P p -> calls Q p.
  Proof. intros H. induction p as [|B c k IH]; [easy|]. intros [H1 H2]. split; [now apply H|]. intros a. now apply IH. Qed.
  Lemma publish_not_read t h : calls not_read (publish root t h).
  Proof.
    unfold publish. apply calls_bind; [now apply calls_sysr|]. intros _. apply calls_bind; [now split|]. intros there.
    apply calls_bind; [destruct there; now apply calls_sysr|]. intros _. apply chmod_not_read.
  Qed.
  Lemma store_not_read : calls not_read store.
  Proof.
    unfold LooseModel.store. apply calls_bind; [apply calls_bind; [now apply calls_sysr|]; now intros [t fd]|]. intros [tmp w]. apply calls_bind.
    - destruct tmp as [t|].
      + eapply calls_weaken; [|apply fill_quiet]. intros B c Hq. destruct c; try destruct Hq; exact I.
      + unfold fill, on_error. apply calls_after; [|intros [a|e|]; exact I].
        apply calls_bind; [|intros [[res r] w1]; destruct res; exact I].
        eapply calls_weaken with (P := quiet []); [intros B c Hq; destruct c; try destruct Hq; exact I|].
        unfold feed. destruct (is_binsha i); [apply copy_quiet|]. unfold write_object_to. apply calls_bind; [apply write_quiet|].
        intros [[[n|]|e|] w1]; try exact I. apply calls_bind; [apply copy_quiet|]. now intros [[res r] w2].
    - intros [r w1]. apply calls_bind.
      + destruct (is_binsha i) as [[|b l]|]; [|exact I|]; destruct w1; exact I.
      + intros h. apply calls_bind; [|easy]. destruct tmp; [apply publish_not_read|exact I].
  Qed.

  (** ** chmod *)
  Lemma chmod_loop_ok p : forall n s g s' g' k, lookup s p = Some k -> rruns O u (chmod_loop n p) s g (Ok tt) s' g' ->
    s' = s /\ g' = published g k /\ owner g k = u.
  Proof.
    induction n as [|n IH]; intros s g s' g' k Hl H; [now apply rruns_ret in H|]. cbn [chmod_loop] in H.
    apply rruns_after in H as (r1 & s1 & g1 & H1 & H2). apply rruns_sysr in H1. cbn [rsys] in H1. rewrite Hl in H1.
    destruct (Nat.eqb_spec (owner g k) u) as [Ho|Ho].
    - destruct H1 as [H1 ->]. assert (s1 = s) as ->.
      { cbn [sys] in H1. unfold fails, gives in H1. destruct H1 as [(_ & _ & ->)|H1]; [easy|]. now destruct (path_exists s p). }
      destruct r1 as [a|e|]; [apply rruns_ret in H2 as (_ & -> & ->); easy| |now apply rruns_ret in H2].
      destruct e; try (now apply rruns_ret in H2). eapply IH; eauto.
    - destruct H1 as (-> & -> & ->). eapply IH; eauto.
  Qed.

  (** ** A successful store, step by step *)
  Lemma rsteps_bind A B (p : prog A) (f : A -> prog B) s g a s1 g1 : rruns O u p s g (Ok a) s1 g1 -> rsteps O u (pbind p f) s g (f a) s1 g1.
  Proof. intros H. unfold pbind. exact (rsteps_after O u _ _ _ _ _ _ _ _ _ H). Qed.
  Lemma rsteps_bind_ex A B (p : prog A) (f : A -> prog B) s g a s1 g1 s2 g2 : rruns O u p s g (Ok a) s1 g1 ->
    (exists q, rsteps O u (f a) s1 g1 q s2 g2) -> exists q, rsteps O u (pbind p f) s g q s2 g2.
  Proof. intros H [q Hq]. exists q. eapply rsteps_trans; [eapply rsteps_bind; exact H|exact Hq]. Qed.
  Lemma store_parts s g i' out s' g' : rruns O u store s g (Ok (i', out)) s' g' ->
    exists sha t w r s1 g1, is_binsha i' = Some sha /\ is_bytes sha /\ temp_file root t /\ path_exists s t = false /\
      rruns O u (fill K pagesize read fuel (Some t) w i) (OsModel.create s t) (born g (w_next s) u) (Ok r) s1 g1 /\
      rruns O u (publish root t (bin_to_hex sha)) s1 g1 (Ok tt) s' g' /\
      forall q s2 g2, rsteps O u (publish root t (bin_to_hex sha)) s1 g1 q s2 g2 -> exists q', rsteps O u store s g q' s2 g2.
  Proof.
    intros H. unfold LooseModel.store in H. apply rruns_bind in H as ([tmp w] & s0 & g0 & H1 & H).
    pose proof H1 as H1'. apply rruns_bind in H1 as ([t fd] & sx & gx & H0 & H1). apply rruns_sysr in H0. cbn [rsys sys] in H0.
    destruct H0 as [H0 ->]. apply rruns_ret in H1 as (E & -> & ->). injection E as -> ->.
    destruct H0 as [(_ & E & _)|H0]; [discriminate|]. destruct (is_dir s root); [|destruct H0; discriminate].
    destruct H0 as (suf & Hsuf & H0). cbv zeta in H0. destruct H0 as (Hfree & E & ->). injection E as -> ->.
    apply rruns_bind in H as ([r w1] & s1 & g1 & H2 & H).
    apply rruns_bind in H as (h & s2 & g2 & H3 & H).
    apply rruns_bind in H as ([] & s3 & g3 & H4 & H). apply rruns_ret in H as (E & -> & ->).
    assert (s2 = s1 /\ g2 = g1 /\ exists sha, is_bytes sha /\ h = bin_to_hex sha) as (-> & -> & sha & Hb & ->).
    { assert (Hw : forall h', rruns O u (do! s := w_sha K sha1 w1 in ret (bin_to_hex s)) s1 g1 (Ok h') s2 g2 ->
        s2 = s1 /\ g2 = g1 /\ exists sha, is_bytes sha /\ h' = bin_to_hex sha).
      { intros h' Hw. destruct w1; cbn [w_sha pbind after ret throw] in Hw; apply rruns_ret in Hw as (Ew & -> & ->); try discriminate;
          injection Ew as ->; (split; [easy|]; split; [easy|]); eexists; (split; [|reflexivity]); apply Hsha. }
      destruct (is_binsha i) as [[|b l]|] eqn:Eb; [now apply Hw| |now apply Hw].
      apply rruns_ret in H3 as (Ew & -> & ->). injection Ew as ->. split; [easy|]. split; [easy|]. exists (b :: l). split; [now apply Hpre|easy]. }
    rewrite hex_to_bin_to_hex in E by easy. cbn [bind] in E. injection E as -> ->.
    exists sha, (root ++ [obj_prefix ++ suf]), (match is_binsha i with None => WFDC (w_next s) [] (zc_new K 1) | Some _ => WFD (w_next s) 0 end), (r, w1), s1, g1.
    split; [easy|]. split; [easy|]. split; [now exists suf|]. split; [easy|]. split; [exact H2|]. split; [exact H4|].
    intros q s2 g2 Hq. unfold LooseModel.store.
    apply (rsteps_bind_ex _ _ _ _ _ _ _ _ _ _ _ H1'). cbv beta iota.
    apply (rsteps_bind_ex _ _ _ _ _ _ _ _ _ _ _ H2). cbv beta iota.
    apply (rsteps_bind_ex _ _ _ _ _ _ _ _ _ _ _ H3). cbv beta iota.
    eexists. unfold pbind. apply rsteps_after. exact Hq.
  Qed.
  (** The end of a store: either the file was there already, or the temporary one becomes it.  In
      between, it is there and chmod is still to come. *)
  Lemma publish_parts t sha s g s' g' : temp_file root t -> rruns O u (publish root t (bin_to_hex sha)) s g (Ok tt) s' g' ->
    let target := object_file root sha in
    exists k s2 q, lookup s2 target = Some k /\ rsteps O u (publish root t (bin_to_hex sha)) s g q s2 g /\ s' = s2 /\ g' = published g k /\ owner g k = u /\
      (lookup s target = Some k \/ (lookup s target = None /\ lookup s t = Some k)).
  Proof.
    intros Ht H target. unfold publish in H. rewrite object_path_file in H. fold target in H.
    assert (Hne : t <> target) by now apply temp_not_object.
    apply rruns_bind in H as ([] & s1 & g1 & H1 & H). pose proof H1 as H1'. apply rruns_sysr in H1. cbn [rsys sys] in H1. destruct H1 as [H1 ->].
    assert (Hl1 : forall p, lookup s1 p = lookup s p).
    { destruct H1 as [(_ & E & _)|H1]; [discriminate|]. destruct (existsb _ _); destruct H1 as [E ->]; [discriminate|easy]. }
    apply rruns_bind in H as (there & s2 & g2 & H2 & H). pose proof H2 as H2'. apply rruns_sysv in H2 as (v & Ev & H2). injection Ev as <-.
    cbn [rsys sys] in H2. destruct H2 as [[Et ->] ->].
    apply rruns_bind in H as ([] & s3 & g3 & H3 & H). pose proof H3 as H3'.
    assert (Hcase : g3 = g /\ exists k, lookup s3 target = Some k /\ (lookup s target = Some k \/ (lookup s target = None /\ lookup s t = Some k))).
    { destruct there; apply rruns_sysr in H3; cbn [rsys sys] in H3; destruct H3 as [H3 ->]; (split; [easy|]).
      - destruct H3 as [(_ & E & _)|H3]; [discriminate|]. destruct (lookup s1 t); destruct H3 as [E ->]; [|discriminate].
        symmetry in Et. apply is_file_true in Et. rewrite lookup_unlink. destruct (path_eq_dec target t); [congruence|]. rewrite Hl1 in *.
        destruct (lookup s target) as [k|]; [|easy]. exists k. auto.
      - destruct H3 as [(_ & E & _)|H3]; [discriminate|]. destruct (lookup s1 t) as [k|] eqn:Ek; [|destruct H3; discriminate].
        destruct (is_dir s1 target); [destruct H3; discriminate|]. destruct (negb _); [destruct H3; discriminate|].
        destruct (windows O && _); [destruct H3; discriminate|]. destruct H3 as [_ ->]. exists k. rewrite lookup_link.
        destruct (path_eq_dec target target); [|easy]. split; [easy|]. right. symmetry in Et. apply is_file_lookup in Et. rewrite Hl1 in *. now split. }
    destruct Hcase as (-> & k & Hk & Hc). destruct (chmod_loop_ok target 14 s3 g s' g' k Hk H) as (-> & -> & Ho).
    exists k, s3, (chmod_loop 14 target). split; [exact Hk|]. split; [|auto 10].
    unfold publish. rewrite object_path_file. fold target.
    eapply rsteps_trans; [eapply rsteps_bind; exact H1'|]. cbv beta iota.
    eapply rsteps_trans; [eapply rsteps_bind; exact H2'|]. cbv beta iota.
    eapply rsteps_bind in H3'. exact H3'.
  Qed.

  (** The file of a stored object is the user's and readable for all; a file there before was
      the user's already; and before chmod a new one is the user's only. *)
  Lemma stored_rights s g i' out s' g' : wf s -> rruns O u store s g (Ok (i', out)) s' g' ->
    exists sha, is_binsha i' = Some sha /\ let target := object_file root sha in
      for_all s' g' target /\ owned_by u s' g' target /\
      (forall k, lookup s target = Some k -> owner g k = u) /\
      (lookup s target = None -> exists q s1 g1, rsteps O u store s g q s1 g1 /\ only_for u s1 g1 target).
  Proof.
    intros Hw H. destruct (store_parts _ _ _ _ _ _ H) as (sha & t & w & r & s1 & g1 & Hb & Hbs & Ht & Hfree & H1 & H2 & H3).
    exists sha. split; [exact Hb|]. intros target. assert (Hne : t <> target) by now apply temp_not_object.
    destruct (publish_parts _ _ _ _ _ _ Ht H2) as (k & s2 & q & Hk & Hq & -> & -> & Ho & Hc). fold target in Hk, Hc.
    split; [exists k; split; [exact Hk|]; cbn; now rewrite Nat.eqb_refl|]. split; [now exists k|].
    assert (Hfresh : lookup s t = None).
    { unfold path_exists in Hfree. apply orb_false_iff in Hfree as [Hf _]. now apply is_file_lookup. }
    split.
    - intros k0 Hk0. pose proof (wf_next s Hw _ _ Hk0) as Hlt.
      assert (H0 : lookup (OsModel.create s t) target = Some k0 /\ (owner (born g (w_next s) u) k0, public (born g (w_next s) u) k0) = (owner g k0, public g k0)).
      { rewrite lookup_create. destruct (path_eq_dec target t); [congruence|]. split; [exact Hk0|]. cbn.
        now replace (Nat.eqb k0 (w_next s)) with false by lia. }
      destruct (calls_inv O u (quiet t) _ (quiet_keeps O u t target k0 (owner g k0, public g k0) Hne) _ _ _ _ _ _ _ H1 (fill_quiet t w) H0) as [[H5 H6] _].
      destruct Hc as [Hc|[Hc _]]; [|congruence]. assert (k = k0) as -> by congruence. injection H6 as H6 _. congruence.
    - intros Hnone. assert (H0 : lookup (OsModel.create s t) target = None).
      { rewrite lookup_create. destruct (path_eq_dec target t); [congruence|exact Hnone]. }
      destruct (calls_inv O u (quiet t) (fun s _ => lookup s target = None) (quiet_keeps_none O u t target) _ _ _ _ _ _ _ H1 (fill_quiet t w) H0) as [H5 _].
      destruct Hc as [Hc|[_ Hc]]; [congruence|]. destruct (H3 _ _ _ Hq) as (q' & Hq'). exists q', s2, g1. split; [exact Hq'|]. exists k. split; [exact Hk|].
      split; [exact Ho|].
      (* the temporary file keeps its number and rights *)
      destruct (calls_inv O u (quiet t) (fun s1 g1 => (lookup s1 t = None \/ lookup s1 t = Some (w_next s)) /\ public g1 (w_next s) = false)
        (quiet_own O u t (w_next s)) _ _ _ _ _ _ _ H1 (fill_quiet t w)) as [[[H6|H6] H7] _].
      + split; [right; rewrite lookup_create; now destruct (path_eq_dec t t)|]. cbn. now rewrite Nat.eqb_refl.
      + congruence.
      + now replace k with (w_next s) by congruence.
  Qed.
End Store.
