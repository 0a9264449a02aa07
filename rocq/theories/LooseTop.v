(** LooseObjectDB used by one process: consequences of wp_store, and the queries. *)
From Coq Require Import ZifyBool ZifyNat Permutation.
From Verif Require Import Py PyFacts FunModel FunSpec FunProofs ZlibModel ReaderModel StreamSpec ReaderProofs IndexSpec PackSpec PackCheckProofs OsModel OsProofs LooseModel LooseSpec LooseProofs.
Ltac Zify.zify_post_hook ::= Z.div_mod_to_equations.

Definition alone (g : ghost) (s s' : world) : Prop := s' = s.

Lemma contents_unlink s t p : contents (unlink s t) p = if path_eq_dec p t then None else contents s p.
Proof. unfold contents. rewrite lookup_unlink. now destruct (path_eq_dec p t). Qed.
Lemma contents_link s t fd p : contents (link s t fd) p = if path_eq_dec p t then Some (w_data s fd) else contents s p.
Proof. unfold contents. rewrite lookup_link. now destruct (path_eq_dec p t). Qed.
Lemma contents_create s t p : wf s -> p <> t -> contents (create s t) p = contents s p.
Proof.
  intros Hw Hne. unfold contents. rewrite lookup_create. destruct (path_eq_dec p t); [easy|].
  destruct (lookup s p) as [i|] eqn:El; [|easy]. cbn [option_map]. apply (wf_next s Hw) in El. rewrite data_create.
  now replace (Nat.eqb i (w_next s)) with false by lia.
Qed.
Lemma contents_set_data s t fd x p : wf s -> lookup s t = Some fd -> p <> t -> contents (set_data s fd x) p = contents s p.
Proof.
  intros Hw Hl Hne. unfold contents. rewrite lookup_set_data. destruct (lookup s p) as [i|] eqn:El; [|easy]. cbn [option_map]. rewrite data_set_data.
  destruct (Nat.eqb_spec i fd) as [->|]; [|easy]. exfalso. apply Hne. eapply wf_inj; eauto.
Qed.

(** The directories store makes are no object files. *)
Lemma in_ancestors q : forall above p, In q (ancestors above p) -> exists l1 l2, q = above ++ l1 /\ p = l1 ++ l2 /\ l1 <> [].
Proof.
  intros above p. revert above. induction p as [|a p IH]; intros above H; [easy|]. cbn [ancestors In] in H. destruct H as [<-|H].
  - exists [a], p. easy.
  - destruct (IH _ H) as (l1 & l2 & -> & -> & Hne). exists (a :: l1), l2. rewrite <- app_assoc. easy.
Qed.
Lemma object_dirs root s sha sha0 :
  is_dir (add_dirs s (dirname (object_file root sha))) (object_file root sha0) = is_dir s (object_file root sha0).
Proof.
  unfold is_dir. destruct (object_file root sha0) as [|x tg] eqn:Et; [easy|]. cbn [add_dirs w_dirs]. rewrite existsb_app.
  replace (existsb (path_eqb (x :: tg)) (ancestors [] (dirname (object_file root sha)))) with false; [easy|].
  symmetry. apply not_true_is_false. intros E. apply existsb_exists in E as (q & Hq & Eq). apply path_eqb_eq in Eq. subst q.
  apply in_ancestors in Hq as (l1 & l2 & E1 & E2 & _). cbn [app] in E1. subst l1. rewrite <- Et in E2. apply (f_equal (@length bytes)) in E2.
  unfold object_file in E2. rewrite dirname_app2, !app_length in E2. cbn [length] in E2. lia.
Qed.

(** ** Files before and after *)
Section Hist.
  Context (P : path -> bytes -> Prop) (root : path) (strict : bool) (s0 : world).
  (** Compared with s0, all files are unchanged except the own temporary file and, if there
      was a rename, a new object file. *)
  Definition changed (g : ghost) (s : world) : Prop :=
    wf s /\
    (forall p, (forall t fd, g_own g = Some (t, fd) -> p <> t) -> contents s p = contents s0 p \/
       (g_pub g = true /\ contents s0 p = None /\ exists z, contents s p = Some z /\ P p z)) /\
    match g_own g with
    | Some (t, fd) => temp_file root t /\ contents s0 t = None /\ lookup s t = Some fd
    | None => True
    end /\ (strict = true -> g_short g && g_pub g = false) /\
    (forall sha, is_dir s (object_file root sha) = is_dir s0 (object_file root sha)).
  Lemma changed_step g e g' s s' : loose_guar P root true strict g e g' s s' -> changed g s -> changed g' s'.
  Proof.
    intros (Hs & _ & Hpub & Hst) (Hw & Hc & Ho & _ & Hdir). unfold changed. destruct g as [og sg qg], g' as [og' sg' qg']. cbn [g_own g_pub g_short] in *.
    cut (wf s' /\
      (forall p, (forall t fd, og' = Some (t, fd) -> p <> t) -> contents s' p = contents s0 p \/
       (qg' = true /\ contents s0 p = None /\ exists z, contents s' p = Some z /\ P p z)) /\
      match og' with
      | Some (t, fd) => temp_file root t /\ contents s0 t = None /\ lookup s' t = Some fd
      | None => True
      end).
    { intros (Ha & Hb & Hd). split; [easy|]. split; [easy|]. split; [easy|]. split; [easy|]. intros sha0.
      rewrite <- Hdir. destruct Hs as [| | |g s sha| |]; try easy. apply object_dirs. }
    clear sg sg' Hst. rewrite Hpub. clear Hpub qg'. destruct Hs as [g s|s t Ht Hex|t fd s x Hl|g s p|t fd s Hl|t fd s sha Hl HP Hn]; rewrite ?orb_false_r.
    - easy.
    - split; [now apply wf_create|]. apply orb_false_elim in Hex as [Hex _]. apply is_file_lookup in Hex. split.
      + intros p Hp. specialize (Hp t (w_next s) eq_refl). rewrite contents_create by easy. now apply Hc.
      + split; [easy|]. split; [|rewrite lookup_create; now destruct (path_eq_dec t t)].
        apply contents_none in Hex. destruct (Hc t ltac:(easy)) as [Hq|(_ & _ & z & Hz & _)]; congruence.
    - split; [now apply wf_set_data|]. split; [|easy]. intros p Hp. rewrite (contents_set_data s t fd) by (try easy; eauto). now apply Hc.
    - split; [now apply wf_add_dirs|]. easy.
    - split; [now apply wf_unlink|]. split; [|easy]. intros p _. rewrite contents_unlink.
      destruct (path_eq_dec p t) as [->|Hne].
      + left. symmetry. apply Ho.
      + apply Hc. congruence.
    - destruct Ho as (Ht & H0 & Hlt). assert (Htt : t <> object_file root sha) by now apply temp_not_object. specialize (Hn eq_refl).
      set (target := object_file root sha) in *.
      assert (wf (link (unlink s t) target fd)) as Hwf.
      { apply wf_link; [now apply wf_unlink|exact (wf_next s Hw _ _ Hl)|]. intros p. rewrite lookup_unlink.
        destruct (path_eq_dec p t); [easy|]. intros E. exfalso. apply n. eapply wf_inj; eauto. }
      split; [exact Hwf|]. split; [|easy]. intros p _. rewrite contents_link, contents_unlink.
      destruct (path_eq_dec p target) as [->|Hpt].
      + right. split; [apply orb_true_r|]. split; [|exists (w_data s fd); now split]. apply contents_none in Hn.
        destruct (Hc target) as [Hq|(_ & Hq & _)]; congruence.
      + destruct (path_eq_dec p t) as [->|Hne]; [left; congruence|]. destruct (Hc p) as [Hq|(_ & Hq)]; [congruence|now left|].
        right. split; [apply orb_true_r|easy].
  Qed.
  Lemma changed_start : wf s0 -> changed (mk_ghost None false false) s0.
  Proof. intros Hw. split; [easy|]. split; [intros p _; now left|easy]. Qed.
End Hist.

Section One.
  Context (K : zlib) (sha1 : bytes -> bytes) (pagesize : Z) {R : Type} (read : R -> Z -> res (bytes * R)).
  Context (Hsha : forall d, is_bytes (sha1 d)).
  Context (O : os) (fuel : nat) (db : ldb) (i : istream R).
  Context (Hbin : forall sha, is_binsha i = Some sha -> is_bytes sha).
  Notation P := (stored_as K sha1 pagesize read O (l_root db) i).
  Notation prog := (store K sha1 pagesize read fuel db None i).
  Definition unset : bool := match is_binsha i with None => true | Some _ => false end.
  Notation Guar := (loose_guar P (l_root db) true unset).
  Notation wp := (wp O alone Guar).
  Lemma store_wp s : wp prog (mk_ghost None false false) s (store_post K sha1 pagesize read O (l_root db) i).
  Proof.
    apply wp_store; try easy.
    - unfold alone. intros t fd b d s1 s2 H ->. exact H.
    - unfold alone. intros g s1 s2 sha -> H. exact H.
    - unfold unset. now destruct (is_binsha i).
  Qed.
  Lemma store_steps s p' s' : wf s -> steps O prog s p' s' ->
    exists g, changed P (l_root db) unset s g s' /\ wp p' g s' (store_post K sha1 pagesize read O (l_root db) i).
  Proof.
    intros Hw Hst.
    destruct (wp_steps O alone Guar (fun g s => eq_refl) prog s p' s' _ Hst _ (store_wp s) (changed P (l_root db) unset s)) as (g & H1 & H2).
    - intros g e g' a b. apply changed_step.
    - now apply changed_start.
    - now exists g.
  Qed.
  (** Crash anywhere. *)
  Lemma store_stops s s' : wf s -> stops O prog s s' -> wf s' /\ (forall sha, is_dir s' (object_file (l_root db) sha) = is_dir s (object_file (l_root db) sha)) /\ exists tmp,
    (forall t, tmp = Some t -> temp_file (l_root db) t /\ contents s t = None) /\
    forall p, tmp <> Some p -> contents s' p = contents s p \/
      (contents s p = None /\ exists z, contents s' p = Some z /\ P p z).
  Proof.
    intros Hw (p' & Hst). destruct (store_steps s p' s' Hw Hst) as (g & (Hw' & Hc & Ho & _ & Hdir) & _). split; [easy|]. split; [easy|].
    exists (option_map fst (g_own g)). split.
    - intros t. destruct (g_own g) as [[t' fd]|]; [|easy]. cbn. intros [= ->]. easy.
    - intros p Hp. destruct (Hc p) as [Hq|[_ Hq]]; [|now left|now right]. intros t fd E. rewrite E in Hp. cbn in Hp. congruence.
  Qed.
  (** Normal end. *)
  Lemma store_ok s i' out s' : wf s -> runs O prog s (Ok (i', out)) s' ->
    wf s' /\ exists sha z, is_binsha i' = Some sha /\ is_bytes sha /\ is_type i' = is_type i /\ is_size i' = is_size i /\ P (object_file (l_root db) sha) z /\
      (forall p, contents s' p = contents s p \/ (contents s p = None /\ exists z, contents s' p = Some z /\ P p z)) /\
      contents s' (object_file (l_root db) sha) <> None.
  Proof.
    intros Hw Hst. destruct (store_steps s _ s' Hw Hst) as (g & (Hw' & Hc & _) & _ & Hown & -> & sha & z & H1 & H0 & H2 & H3 & H4 & H5).
    split; [easy|]. exists sha, z. split; [easy|]. split; [easy|]. split; [easy|]. split; [easy|]. split; [easy|]. split.
    - intros p. destruct (Hc p) as [Hq|[_ Hq]]; [rewrite Hown; easy|now left|now right].
    - intros E. apply contents_none in E. apply is_file_true in H5. congruence.
  Qed.
  (** A short write. *)
  Lemma guar_short A (p : OsModel.prog A) s p' s' g Q : short_step O p s p' s' -> wp p g s Q ->
    exists e g', g_short g' = true /\ Guar g e g' s s' /\ wp p' g' s' Q.
  Proof.
    intros Hs Hwp. destruct p as [r|B c k]; [easy|]. destruct Hs as (a & Hs & -> & Hsh).
    destruct (Hwp s a s' eq_refl Hs) as (g' & HG & Hk). exists (Ev c a), g'. split; [|easy].
    destruct HG as (_ & HG & _). rewrite HG. cbn [ev_short]. rewrite Hsh. apply orb_true_r.
  Qed.
  Lemma store_short s p1 s1 p2 s2 r s' : is_binsha i = None -> wf s ->
    steps O prog s p1 s1 -> short_step O p1 s1 p2 s2 -> steps O p2 s2 (Ret r) s' ->
    (exists e, r = Raise e) /\
    (forall p, contents s p <> None \/ ~ temp_file (l_root db) p -> contents s' p = contents s p) /\
    (may_fail O KRemove = false -> forall p, contents s' p = contents s p).
  Proof.
    intros Hnone Hw H1 H2 H3. destruct (store_steps s p1 s1 Hw H1) as (g1 & Hc1 & Hwp1).
    destruct (guar_short _ _ _ _ _ _ _ H2 Hwp1) as (ev & g2 & Hsh2 & Hstep & Hwp2).
    pose proof (changed_step _ _ _ s _ _ _ _ _ Hstep Hc1) as Hc2.
    destruct (wp_steps O alone Guar (fun g s => eq_refl) p2 s2 _ s' _ H3 _ Hwp2
      (fun g s' => changed P (l_root db) unset s g s' /\ g_short g = true)) as (g3 & Hpost & Hc3 & Hsh3).
    - intros g e g' a b HG [Ha Hb]. split; [eapply changed_step; eauto|]. destruct HG as (_ & -> & _). now rewrite Hb.
    - easy.
    - cbn [OsProofs.wp] in Hpost. destruct Hpost as [Hr Hpost]. destruct (Hr Hnone Hsh3) as [e ->]. split; [now exists e|].
      destruct Hpost as [Hown _]. destruct Hc3 as (_ & Hc3 & Ho & Hst & _).
      assert (Hnp : g_pub g3 = false).
      { unfold unset in Hst. rewrite Hnone in Hst. specialize (Hst eq_refl). rewrite Hsh3 in Hst. exact Hst. }
      assert (Hc4 : forall p, (forall t fd, g_own g3 = Some (t, fd) -> p <> t) -> contents s' p = contents s p).
      { intros p Hp. destruct (Hc3 p Hp) as [Hq|[Hq _]]; [easy|congruence]. }
      split.
      + intros p Hp. apply Hc4. intros t fd E ->. rewrite E in Ho. destruct Hp as [Hp|Hp]; [now apply Hp|now apply Hp].
      + intros Hrem p. apply Hc4. rewrite (Hown Hnone Hsh3 Hrem). easy.
  Qed.
End One.

(** ** Sequences of programs *)
Lemma runs_after O A B (p : OsModel.prog A) (f : res A -> OsModel.prog B) : forall s r s', runs O (after p f) s r s' ->
  exists r1 s1, runs O p s r1 s1 /\ runs O (f r1) s1 r s'.
Proof.
  induction p as [r1|C c k IH]; intros s r s' H.
  - exists r1, s. split; [constructor|exact H].
  - cbn [after] in H. inversion H as [|p0 s0 p1 s1 p2 s2 H1 H2]; subst. destruct H1 as (a & Hs & ->).
    destruct (IH a s1 r s' H2) as (r1 & s2 & H3 & H4). exists r1, s2. split; [|exact H4].
    eapply steps_one; [|exact H3]. now exists a.
Qed.
Lemma runs_bind O A B (p : OsModel.prog A) (f : A -> OsModel.prog B) s r s' : runs O (pbind p f) s r s' ->
  exists r1 s1, runs O p s r1 s1 /\ match r1 with Ok a => runs O (f a) s1 r s' | Raise e => r = Raise e /\ s' = s1 | Diverge => r = Diverge /\ s' = s1 end.
Proof.
  intros H. apply runs_after in H as (r1 & s1 & H1 & H2). exists r1, s1. split; [exact H1|].
  destruct r1; [exact H2| |]; inversion H2 as [|? ? ? ? ? ? H3]; subst; easy.
Qed.
Lemma runs_ret O A (r r' : res A) s s' : runs O (Ret r) s r' s' -> r' = r /\ s' = s.
Proof. intros H. inversion H as [|? ? ? ? ? ? H3]; subst; easy. Qed.
Lemma after_after A B C (p : OsModel.prog A) (f : res A -> OsModel.prog B) (g : res B -> OsModel.prog C) O :
  forall s r s', runs O (after (after p f) g) s r s' <-> runs O (after p (fun x => after (f x) g)) s r s'.
Proof.
  induction p as [r1|D c k IH]; intros s r s'; [easy|]. cbn [after]. split; intros H;
  inversion H as [|p0 s0 p1 s1 p2 s2 H1 H2]; subst; destruct H1 as (a & Hs & ->);
  (eapply steps_one; [exists a; split; [exact Hs|reflexivity]|]); now apply IH.
Qed.

(** ** Programs that only look *)
Definition looks {B} (c : call B) : bool :=
  match c with OpenRead _ _ | Map _ | Close _ | Isfile _ | Exists _ | Walk _ => true | _ => false end.
Fixpoint reads_only {A} (p : OsModel.prog A) : Prop :=
  match p with Ret _ => True | Call c k => looks c = true /\ forall a, reads_only (k a) end.
Lemma ro_after A B (p : OsModel.prog A) (f : res A -> OsModel.prog B) : reads_only p -> (forall r, reads_only (f r)) -> reads_only (after p f).
Proof. induction p as [r|C c k IH]; cbn [after reads_only]; [easy|]. intros [H1 H2] Hf. split; [easy|]. intros a. now apply IH. Qed.
Lemma ro_bind A B (p : OsModel.prog A) (f : A -> OsModel.prog B) : reads_only p -> (forall a, reads_only (f a)) -> reads_only (pbind p f).
Proof. intros H Hf. apply ro_after; [easy|]. now intros [a|e|]. Qed.
Lemma ro_steps O A (p : OsModel.prog A) s p' s' : steps O p s p' s' -> reads_only p -> s' = s /\ reads_only p'.
Proof.
  induction 1 as [|p s p1 s1 p2 s2 H1 H2 IH]; intros Hr; [easy|].
  destruct p as [r|C c k]; [easy|]. destruct H1 as (a & Hs & ->). destruct Hr as [Hc Hk].
  destruct (IH (Hk a)) as [-> H3]. split; [|easy]. destruct c; try discriminate Hc; cbn [sys] in Hs.
  - destruct Hs as [(_ & _ & ->)|[(_ & _ & _ & ->)|Hs]]; [easy|easy|]. destruct (lookup s p); now destruct Hs.
  - destruct (w_data s fd); now destruct Hs.
  - destruct Hs as [(_ & _ & ->)|[_ ->]]; easy.
  - now destruct Hs.
  - now destruct Hs.
  - now destruct Hs.
Qed.
Lemma ro_plan A (p : OsModel.prog A) : forall win plan s, reads_only p -> plan_ok win plan p s = true.
Proof.
  induction p as [r|B c k IH]; intros win plan s Hr; [easy|]. destruct Hr as [Hc Hk]. cbn [plan_ok].
  destruct (answer win (hd None plan) c s) as [a s']. rewrite IH by easy. destruct c; easy.
Qed.
Lemma yields_ro O A (p : OsModel.prog A) s r : reads_only p -> (forall r', runs O p s r' s -> r' = r) -> yields O p s r.
Proof.
  intros Hr H. assert (Hall : forall r' s', runs O p s r' s' -> r' = r /\ s' = s).
  { intros r' s' Hs. destruct (ro_steps O A p s _ s' Hs Hr) as [-> _]. split; [now apply H|easy]. }
  split; [|exact Hall].
  pose proof (run_plan_runs O A p [] s ltac:(easy) (ro_plan A p _ _ _ Hr)) as Hrun.
  destruct (Hall _ _ Hrun) as [E1 E2]. now rewrite E1, E2 in Hrun.
Qed.
Lemma yields_unique O A (p : OsModel.prog A) s r r' s' : yields O p s r -> runs O p s r' s' -> r' = r /\ s' = s.
Proof. intros [_ H]. apply H. Qed.
Lemma yields_after O A B (p : OsModel.prog A) (f : res A -> OsModel.prog B) s r1 r2 : reads_only (after p f) ->
  yields O p s r1 -> yields O (f r1) s r2 -> yields O (after p f) s r2.
Proof.
  intros Hro [_ H1] [_ H2]. apply yields_ro; [exact Hro|]. intros r' Hr. apply runs_after in Hr as (x & s1 & Hx & Hy).
  apply H1 in Hx as [-> ->]. now apply H2 in Hy.
Qed.
Lemma yields_ret O A (r : res A) s : yields O (Ret r) s r.
Proof. split; [constructor|]. intros r' s' H. now apply runs_ret in H. Qed.

(** ** Queries *)
Lemma ro_contents noatime p : reads_only (file_contents_ro_filepath noatime p).
Proof.
  unfold file_contents_ro_filepath. apply ro_bind; [easy|]. intros fd. unfold finally. apply ro_after; [easy|].
  intros [a|e|]; [|  |easy]; (apply ro_bind; [easy|]; intros []; easy).
Qed.
Lemma ro_map db sha : reads_only (map_loose_object db sha).
Proof.
  unfold map_loose_object. apply ro_after; [apply ro_contents|]. intros [a|e|]; [easy| |easy].
  destruct (is_oserror e); [|easy]. destruct (negb (is_enoent e)); [|easy].
  apply ro_after; [apply ro_contents|]. now intros [a|e'|].
Qed.
Definition can_read (O : os) : Prop := may_fail O KOpen = false /\ may_fail O KClose = false.
(** One attempt to read a file that is there. *)
Lemma contents_runs O noatime p s r s' z : can_read O -> contents s p = Some z -> z <> [] ->
  runs O (file_contents_ro_filepath noatime p) s r s' -> s' = s /\ (r = Ok z \/ (noatime = true /\ r = Raise PermissionError)).
Proof.
  intros [Ho Hc] Hz Hne H. unfold contents in Hz. destruct (lookup s p) as [i|] eqn:El; [|easy]. cbn in Hz.
  unfold file_contents_ro_filepath in H. apply runs_bind in H as (r1 & s1 & H1 & H2).
  inversion H1 as [|? ? p1 s2 ? ? H3 H4]; subst. destruct H3 as (a & Hs & ->). apply runs_ret in H4 as [-> ->].
  cbn [sys] in Hs. destruct Hs as [(Hf & _)|[(Hn & _ & -> & ->)|Hs]]; [congruence| |].
  { destruct H2 as [-> ->]. split; [easy|]. now right. }
  rewrite El in Hs. destruct Hs as [-> ->]. unfold finally in H2. apply runs_after in H2 as (r2 & s2 & H5 & H6).
  inversion H5 as [|? ? p1 s3 ? ? H3 H4]; subst. destruct H3 as (a & Hs & ->). apply runs_ret in H4 as [-> ->].
  cbn [sys] in Hs. destruct (w_data s i) as [|x l] eqn:Ed; [congruence|]. destruct Hs as [-> ->].
  apply runs_bind in H6 as (r3 & s3 & H7 & H8). inversion H7 as [|? ? p1 s4 ? ? H3 H4]; subst. destruct H3 as (a & Hs & ->). apply runs_ret in H4 as [-> ->].
  cbn [sys] in Hs. destruct Hs as [(Hf & _)|[-> ->]]; [congruence|]. apply runs_ret in H8 as [-> ->]. split; [easy|]. left. now injection Hz as <-.
Qed.
Lemma map_yields O db sha s z : can_read O -> contents s (object_file (l_root db) sha) = Some z -> z <> [] ->
  yields O (map_loose_object db sha) s (Ok z).
Proof.
  intros Hcr Hz Hne. apply yields_ro; [apply ro_map|]. intros r H. unfold map_loose_object in H. rewrite object_path_file in H.
  apply runs_after in H as (r1 & s1 & H1 & H2). apply (contents_runs _ _ _ _ _ _ z Hcr Hz Hne) in H1 as [-> [-> | [_ ->]]].
  - now apply runs_ret in H2.
  - cbn [is_oserror is_enoent negb] in H2. apply runs_after in H2 as (r2 & s2 & H3 & H4).
    apply (contents_runs _ _ _ _ _ _ z Hcr Hz Hne) in H3 as [-> [-> | [E _]]]; [|discriminate]. now apply runs_ret in H4.
Qed.
(** A file that is not there. *)
Lemma map_yields_none O db sha s :
  lookup s (object_file (l_root db) sha) = None -> yields O (map_loose_object db sha) s (Raise BadObject).
Proof.
  intros Hz. apply yields_ro; [apply ro_map|]. intros r H. unfold map_loose_object in H. rewrite object_path_file in H.
  assert (Hone : forall nt r s', runs O (file_contents_ro_filepath nt (object_file (l_root db) sha)) s r s' ->
     s' = s /\ exists e, r = Raise e /\ is_oserror e = true).
  { intros nt r0 s' Hr. unfold file_contents_ro_filepath in Hr. apply runs_bind in Hr as (r1 & s1 & H1 & H2).
    inversion H1 as [|? ? p1 s2 ? ? H3 H4]; subst. destruct H3 as (a & Hs & ->). apply runs_ret in H4 as [-> ->].
    cbn [sys] in Hs. destruct Hs as [(_ & -> & ->)|[(_ & _ & -> & ->)|Hs]]; [destruct H2 as [-> ->]; eauto..|].
    rewrite Hz in Hs. destruct Hs as [-> ->]. destruct H2 as [-> ->]. split; [easy|]. eexists. split; [reflexivity|]. now destruct (is_dir s _). }
  apply runs_after in H as (r1 & s1 & H1 & H2). apply Hone in H1 as [-> (e & -> & He)]. rewrite He in H2.
  destruct (negb (is_enoent e)).
  - apply runs_after in H2 as (r2 & s2 & H3 & H4). apply Hone in H3 as [-> (e' & -> & He')]. apply runs_ret in H4 as [-> _]. now rewrite He'.
  - now apply runs_ret in H2.
Qed.
Lemma ro_readable db h : reads_only (readable_db_object_path db h).
Proof. unfold readable_db_object_path. destruct (cache_get h (l_cache db)); [easy|]. apply ro_bind; [easy|]. now intros []. Qed.
Lemma ro_has db sha : reads_only (has_object db sha).
Proof. unfold has_object. apply ro_after; [apply ro_readable|]. intros [[p d]|[]|]; easy. Qed.
(** The cache only has files that are there. *)
Definition cache_ok (db : ldb) (s : world) : Prop :=
  forall h p, cache_get h (l_cache db) = Some p -> p = db_path (l_root db) (object_path h) /\ path_exists s p = true.
Lemma has_yields O db sha s : cache_ok db s ->
  exists db', yields O (has_object db sha) s (Ok (path_exists s (object_file (l_root db) sha), db')) /\
    cache_ok db' s /\ l_root db' = l_root db /\ l_noatime db' = l_noatime db.
Proof.
  intros Hc. pose proof (ro_has db sha) as Hro. unfold has_object, readable_db_object_path in *.
  destruct (cache_get (bin_to_hex sha) (l_cache db)) as [p|] eqn:Eg.
  - destruct (Hc _ _ Eg) as [-> He]. rewrite object_path_file in *. exists db. rewrite He. split; [|easy]. apply yields_ret.
  - rewrite object_path_file in *. set (p := object_file (l_root db) sha) in *. destruct (path_exists s p) eqn:Ee.
    + exists (mk_ldb (l_root db) ((bin_to_hex sha, p) :: l_cache db) (l_noatime db)). split; [apply yields_ro; [exact Hro|]|].
      * intros r Hr. apply runs_after in Hr as (r1 & s1 & H1 & H2). apply runs_bind in H1 as (r2 & s2 & H3 & H4).
        inversion H3 as [|? ? p1 s3 ? ? H5 H6]; subst. destruct H5 as (a & Hs & ->). apply runs_ret in H6 as [-> ->].
        destruct Hs as [-> ->]. rewrite Ee in H4. apply runs_ret in H4 as [-> ->]. now apply runs_ret in H2.
      * split; [|easy]. intros h q. cbn [l_cache cache_get l_root]. destruct (beq (bin_to_hex sha) h) eqn:Eb; [|apply Hc].
        intros [= <-]. apply beq_true in Eb. subst h. rewrite object_path_file. easy.
    + exists db. split; [apply yields_ro; [exact Hro|]|easy].
      intros r Hr. apply runs_after in Hr as (r1 & s1 & H1 & H2). apply runs_bind in H1 as (r2 & s2 & H3 & H4).
      inversion H3 as [|? ? p1 s3 ? ? H5 H6]; subst. destruct H5 as (a & Hs & ->). apply runs_ret in H6 as [-> ->].
      destruct Hs as [-> ->]. rewrite Ee in H4. apply runs_ret in H4 as [-> ->]. now apply runs_ret in H2.
Qed.

(** ** Directories stay *)
Lemma sys_dirs O B (c : call B) s a s' q : sys O c s a s' -> is_dir s q = true -> is_dir s' q = true.
Proof.
  intros Hs Hd. destruct c; cbn [sys] in Hs; cbv zeta in Hs;
  repeat match goal with
  | H : _ \/ _ |- _ => destruct H as [H|H]
  | H : _ /\ _ |- _ => destruct H
  | H : exists _, _ |- _ => destruct H
  | H : gives _ _ _ _ |- _ => destruct H as [-> ->]
  | H : fails _ _ _ _ _ _ |- _ => destruct H as (? & -> & ->)
  | H : context [match lookup ?x ?y with _ => _ end] |- _ => destruct (lookup x y)
  | H : context [match w_data ?x ?y with _ => _ end] |- _ => destruct (w_data x y)
  | H : (if ?b then _ else _) |- _ => destruct b
  end; subst; try exact Hd. now apply is_dir_add_dirs.
Qed.
Lemma steps_dirs O A (p : OsModel.prog A) s p' s' q : steps O p s p' s' -> is_dir s q = true -> is_dir s' q = true.
Proof.
  induction 1 as [|p s p1 s1 p2 s2 H1 H2 IH]; intros Hd; [easy|]. apply IH. destruct p as [r|B c k]; [easy|].
  destruct H1 as (a & Hs & _). eapply sys_dirs; eauto.
Qed.

(** ** What streams deliver *)
Lemma delivered_exact {R} (read : R -> Z -> res (bytes * R)) content size chunk : stream_reader read content -> 0 < chunk ->
  forall have r l r', delivered read size chunk have r l r' -> 0 <= have <= size -> (have < size \/ content r = []) ->
  concat l = firstn (Z.to_nat (size - have)) (content r).
Proof.
  intros HR Hc have r l r' H. induction H as [have r d r' Hr Hend|have r d r' l r'' Hr Hge Hne Hrest IH]; intros Hh Hn.
  - destruct (HR r (Z.min chunk (size - have))) as (r1 & Hr1 & _); [destruct Hn as [Hn|Hn]; [left; lia|destruct (Z.eq_dec have size); [right; split; [lia|easy]|left; lia]]|].
    rewrite Hr in Hr1. injection Hr1 as -> _. cbn [concat]. rewrite app_nil_r.
    destruct Hend as [Hlt|He]; rewrite len_firstn in *; pose proof (len_nonneg _ (content r)).
    + rewrite !firstn_all2; [easy| |]; unfold len in *; lia.
    + destruct (Z.le_gt_cases (size - have) chunk); [f_equal; lia|]. exfalso. lia.
  - destruct (HR r (Z.min chunk (size - have))) as (r1 & Hr1 & Hc1); [destruct Hn as [Hn|Hn]; [left; lia|destruct (Z.eq_dec have size); [right; split; [lia|easy]|left; lia]]|].
    rewrite Hr in Hr1. injection Hr1 as -> ->. pose proof (len_nonneg _ (content r)). rewrite len_firstn in *. cbn [concat].
    rewrite IH; [|lia|]. 2: { left. lia. }
    rewrite Hc1. replace (Z.to_nat (size - have)) with (Z.to_nat (Z.min chunk (size - have)) + Z.to_nat (size - (have + Z.min (Z.min chunk (size - have)) (len (content r)))))%nat by lia.
    rewrite firstn_plus. do 2 f_equal. lia.
Qed.
Lemma object_file_inj root a b : is_bytes a -> is_bytes b -> object_file root a = object_file root b -> a = b.
Proof.
  intros Ha Hb H. unfold object_file in H. apply app_inv_head in H.
  assert (H1 : firstn 2 (bin_to_hex a) = firstn 2 (bin_to_hex b)) by congruence.
  assert (H2 : skipn 2 (bin_to_hex a) = skipn 2 (bin_to_hex b)) by congruence. apply bin_to_hex_inj; [easy|easy|].
  rewrite <- (firstn_skipn 2 (bin_to_hex a)), <- (firstn_skipn 2 (bin_to_hex b)). now rewrite H1, H2.
Qed.
Lemma bytes_concat (l : list bytes) : is_bytes (concat l) -> Forall is_bytes l.
Proof.
  induction l as [|d l IH]; cbn [concat]; [constructor|]. intros H. apply is_bytes_app in H as [H1 H2]. constructor; auto.
Qed.
Lemma header_bytes t n : is_bytes t -> 0 <= n -> is_bytes (loose_object_header t n).
Proof.
  intros Ht Hn. unfold loose_object_header. apply is_bytes_app. split; [easy|]. apply is_bytes_app. split; [now constructor|].
  apply is_bytes_app. split; [|now constructor]. destruct (fmt_i_decimal n Hn) as (_ & H & _). eapply Forall_impl; [|exact H].
  cbv beta. intros a Ha. unfold is_byte. lia.
Qed.

(** ** Histories *)
Section History.
  Context {K : zlib} (L : zlib_laws K) (sha1 : bytes -> bytes) (Hsha : forall d, sha_ok (sha1 d)) (pagesize : Z) (Hpage : 0 < pagesize).
  Context {R : Type} (read : R -> Z -> res (bytes * R)) (content : R -> bytes) (HR : stream_reader read content).
  Context (O : os) (fuel : nat) (root : path).
  Definition form (o : object) : bytes := loose_object_header (fst o) (len (snd o)) ++ snd o.
  Lemma form_name o : name_of sha1 o (sha1 (form o)).
  Proof. exists (form o). split; [apply loose_form_header|easy]. Qed.
  Lemma name_form o sha : name_of sha1 o sha -> sha = sha1 (form o).
  Proof.
    intros (f & Hf & ->). f_equal. eapply loose_form_unique; [exact Hf|apply loose_form_header].
  Qed.
  Definition holds (objs : list object) (s : world) : Prop :=
    wf s /\ (forall sha, sha_ok sha -> is_dir s (object_file root sha) = false) /\ forall sha z, sha_ok sha -> contents s (object_file root sha) = Some z ->
      exists o, In o objs /\ sha = sha1 (form o) /\ zl_stream L z (form o).
  Definition keeps (s s' : world) : Prop :=
    (forall p z, contents s p = Some z -> contents s' p = Some z) /\ (forall p, is_dir s p = true -> is_dir s' p = true).
  Lemma keeps_exists s s' p : keeps s s' -> path_exists s p = true -> path_exists s' p = true.
  Proof.
    intros [H1 H2] H. unfold path_exists in *. apply orb_prop in H as [H|H]; [|rewrite (H2 _ H); apply orb_true_r].
    replace (is_file s' p) with true; [easy|]. symmetry. apply is_file_true. apply is_file_true in H.
    destruct (contents s p) as [z|] eqn:E; [|apply contents_none in E; congruence]. apply H1 in E.
    intros E'. apply contents_none in E'. congruence.
  Qed.
  Lemma keeps_cache db s s' : keeps s s' -> cache_ok db s -> cache_ok db s'.
  Proof. intros Hk Hc h p Hg. destruct (Hc h p Hg) as [H1 H2]. split; [easy|]. eapply keeps_exists; eauto. Qed.
  Lemma keeps_refl s : keeps s s.
  Proof. easy. Qed.
  Lemma keeps_trans s1 s2 s3 : keeps s1 s2 -> keeps s2 s3 -> keeps s1 s3.
  Proof. intros [H1 H2] [H3 H4]. split; auto. Qed.

  Lemma stored_proper i p z : proper content i -> stored_as K sha1 pagesize read O root i p z ->
    p = object_file root (sha1 (form (object_of content i))) /\ zl_stream L z (form (object_of content i)).
  Proof.
    intros (Hb & Hs & H1 & H2 & _) Hst. unfold stored_as in Hst. rewrite Hb in Hst.
    destruct Hst as (chunks & r' & Hd & Hp & Hz). cbv zeta in *. pose proof (len_nonneg _ (content (is_stream i))) as Hnn.
    assert (Hc : concat chunks = content (is_stream i)).
    { assert (Hch : 0 < stream_chunk_size pagesize) by (unfold stream_chunk_size; lia).
      rewrite (delivered_exact read content _ _ HR Hch _ _ _ _ Hd ltac:(lia)).
      - rewrite Z.sub_0_r, Hs. unfold len. rewrite Nat2Z.id. apply firstn_all.
      - destruct (content (is_stream i)); [now right|]. left. rewrite Hs, len_cons. pose proof (len_nonneg _ b). lia. }
    unfold form, object_of. cbn [fst snd]. rewrite <- Hs, <- Hc. split; [exact Hp|]. rewrite Hz.
    change (loose_object_header (is_type i) (is_size i) ++ concat chunks) with (concat (loose_object_header (is_type i) (is_size i) :: chunks)).
    apply (zl_compress K L). constructor; [apply header_bytes; [easy|lia]|]. apply bytes_concat. now rewrite Hc.
  Qed.
  Lemma store_holds db i objs s p' s' : l_root db = root -> proper content i -> holds objs s ->
    steps O (store K sha1 pagesize read fuel db None i) s p' s' ->
    holds (object_of content i :: objs) s' /\ keeps s s'.
  Proof.
    intros Hroot Hp (Hw & Hdir & Hh) Hst.
    destruct (store_stops K sha1 pagesize read (fun d => proj2 (Hsha d)) O fuel db i ltac:(destruct Hp as [-> _]; easy) s s' Hw (ex_intro _ p' Hst))
      as (Hw' & Hdirs & tmp & Ht & Hc). rewrite Hroot in *. split; [split; [easy|split; [intros sha Hs; rewrite Hdirs; now apply Hdir|]]|split].
    - intros sha z Hs Hz. destruct (Hc (object_file root sha)) as [Hq|(Hq & z' & Hz' & HP)].
      { intros ->. destruct (Ht _ eq_refl) as [Htt _]. now apply (temp_not_object root _ sha) in Htt. }
      + rewrite Hq in Hz. destruct (Hh sha z Hs Hz) as (o & H1 & H2 & H3). exists o. split; [now right|easy].
      + rewrite Hz in Hz'. injection Hz' as <-. apply stored_proper in HP as [Hq2 Hzs]; [|easy].
        exists (object_of content i). split; [now left|]. split; [|easy]. eapply object_file_inj; [apply Hs|apply Hsha|exact Hq2].
    - intros p z Hz. destruct (Hc p) as [Hq|(Hq & _)]; [|now rewrite Hq|congruence].
      intros ->. destruct (Ht _ eq_refl) as [_ Hn]. congruence.
    - intros p. eapply steps_dirs; eauto.
  Qed.
  (** Crashes in the middle of [after]. *)
  Lemma steps_after A B (p : OsModel.prog A) (f : res A -> OsModel.prog B) : forall s q s', steps O (after p f) s q s' ->
    exists p1 s1, steps O p s p1 s1 /\ ((q = after p1 f /\ s' = s1) \/ exists r, p1 = Ret r /\ steps O (f r) s1 q s').
  Proof.
    induction p as [r1|C c k IH]; intros s q s' H.
    - exists (Ret r1), s. split; [constructor|]. right. now exists r1.
    - cbn [after] in H. inversion H as [|p0 s0 p1 s1 p2 s2 H1 H2]; subst.
      + exists (Call c k), s'. split; [constructor|]. now left.
      + destruct H1 as (a & Hs & ->). destruct (IH a s1 q s' H2) as (p1 & s2 & H3 & H4). exists p1, s2. split; [|exact H4].
        eapply steps_one; [|exact H3]. now exists a.
  Qed.
  Lemma steps_ret A (r : res A) s q s' : steps O (Ret r) s q s' -> q = Ret r /\ s' = s.
  Proof. intros H. inversion H as [|? ? ? ? ? ? H3]; subst; easy. Qed.
  Lemma steps_settle A (p : OsModel.prog A) db f s q s' : steps O (settle p db f) s q s' -> exists p1, steps O p s p1 s'.
  Proof.
    unfold settle. intros H. apply steps_after in H as (p1 & s1 & H1 & [[_ ->]|(r & -> & H2)]); [now exists p1|].
    exists (Ret r). destruct r; apply steps_ret in H2 as [_ ->]; exact H1.
  Qed.
  Lemma runs_settle A (p : OsModel.prog A) db f s db' s' : runs O (settle p db f) s (Ok db') s' ->
    exists r, runs O p s r s' /\ db' = match r with Ok a => f a | _ => db end.
  Proof.
    unfold settle. intros H. apply runs_after in H as (r1 & s1 & H1 & H2). exists r1.
    destruct r1; apply steps_ret in H2 as [H2 ->]; (split; [exact H1|]); congruence.
  Qed.
  Lemma ro_info db sha : reads_only (info K db sha).
  Proof. unfold info. apply ro_bind; [apply ro_map|easy]. Qed.
  Lemma ro_stream db sha : reads_only (stream K fuel db sha).
  Proof. unfold stream. apply ro_bind; [apply ro_map|easy]. Qed.
  Lemma holds_more objs objs' s : incl objs objs' -> holds objs s -> holds objs' s.
  Proof. intros Hi (Hw & Hd & H). split; [easy|]. split; [easy|]. intros sha z H1 H2. destruct (H sha z H1 H2) as (o & H3 & H4). exists o. split; auto. Qed.
  Definition l_do' := l_do K sha1 pagesize read fuel.
  Lemma do_steps db op objs s q s' : l_root db = root -> proper_op content op -> holds objs s ->
    steps O (l_do' db op) s q s' -> holds (objects_of content [op] ++ objs) s' /\ keeps s s'.
  Proof.
    intros Hroot Hp Hh Hst. destruct op as [i|sha|sha|sha]; cbn [l_do' l_do objects_of app] in *; apply steps_settle in Hst as (p1 & Hst).
    - eapply store_holds; eauto.
    - apply ro_steps in Hst as [-> _]; [|apply ro_has]. easy.
    - apply ro_steps in Hst as [-> _]; [|apply ro_info]. easy.
    - apply ro_steps in Hst as [-> _]; [|apply ro_stream]. easy.
  Qed.
  Lemma do_db db op s db' s' : cache_ok db s -> keeps s s' ->
    runs O (l_do' db op) s (Ok db') s' -> cache_ok db' s' /\ l_root db' = l_root db.
  Proof.
    intros Hc Hk Hr. destruct op as [i|sha|sha|sha]; cbn [l_do' l_do] in Hr; apply runs_settle in Hr as (r & Hr & ->).
    - replace (match r with Ok _ => db | _ => db end) with db by now destruct r. split; [eapply keeps_cache; eauto|easy].
    - destruct (has_yields O db sha s Hc) as (db2 & Hy & H1 & H2 & _). eapply yields_unique in Hr as [-> ->]; [|exact Hy]. now split.
    - replace (match r with Ok _ => db | _ => db end) with db by now destruct r. split; [eapply keeps_cache; eauto|easy].
    - replace (match r with Ok _ => db | _ => db end) with db by now destruct r. split; [eapply keeps_cache; eauto|easy].
  Qed.
  Lemma lives_inv db s ops db' s' : lives K sha1 pagesize read O fuel db s ops db' s' -> forall objs,
    l_root db = root -> Forall (proper_op content) ops -> holds objs s -> cache_ok db s ->
    holds (objects_of content ops ++ objs) s' /\ keeps s s' /\ cache_ok db' s' /\ l_root db' = root.
  Proof.
    assert (Hincl : forall op ops objs, incl (objects_of content ops ++ objects_of content [op] ++ objs) (objects_of content (op :: ops) ++ objs)).
    { intros op ops0 objs x. rewrite !in_app_iff. destruct op; cbn [objects_of In app]; tauto. }
    induction 1 as [db s|db s op db1 s1 ops db2 s2 Hrun Hl IH|db s op s1 na ops db2 s2 Hrun Hl IH]; intros objs Hroot Hp Hh Hc.
    - easy.
    - inversion Hp as [|? ? Hp1 Hp2]; subst. destruct (do_steps db op objs s _ s1 Hroot Hp1 Hh Hrun) as [Hh1 Hk1].
      destruct (do_db db op s db1 s1 Hc Hk1 Hrun) as [Hc1 Hr1]. destruct (IH _ (eq_trans Hr1 Hroot) Hp2 Hh1 Hc1) as (H1 & H2 & H3 & H4).
      split; [eapply holds_more; [apply Hincl|exact H1]|]. split; [eapply keeps_trans; eauto|easy].
    - inversion Hp as [|? ? Hp1 Hp2]; subst. destruct Hrun as (q & Hrun). destruct (do_steps db op objs s _ s1 Hroot Hp1 Hh Hrun) as [Hh1 Hk1].
      destruct (IH _ Hroot Hp2 Hh1 ltac:(easy)) as (H1 & H2 & H3 & H4).
      split; [eapply holds_more; [apply Hincl|exact H1]|]. split; [eapply keeps_trans; eauto|easy].
  Qed.
  Lemma holds_start s : wf s -> no_objects root s -> holds [] s.
  Proof.
    intros Hw Hn. split; [easy|]. split; [intros sha Hs; specialize (Hn sha Hs); now apply orb_false_elim in Hn as [_ Hn]|].
    intros sha z Hs Hz. specialize (Hn sha Hs). apply orb_false_elim in Hn as [Hn _].
    apply is_file_lookup, contents_none in Hn. congruence.
  Qed.
End History.
