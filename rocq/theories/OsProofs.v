(** Facts about the operating system model and a program logic for programs calling it. *)
From Coq Require Import ZifyBool ZifyNat Permutation.
From Verif Require Import Py PyFacts OsModel.
Ltac Zify.zify_post_hook ::= Z.div_mod_to_equations.

(** ** Paths *)
Lemma path_eqb_eq p q : path_eqb p q = true <-> p = q.
Proof. unfold path_eqb. destruct (path_eq_dec p q); split; congruence. Qed.
Lemma path_eqb_refl p : path_eqb p p = true.
Proof. now apply path_eqb_eq. Qed.
Lemma path_eqb_neq p q : p <> q -> path_eqb p q = false.
Proof. unfold path_eqb. destruct (path_eq_dec p q); congruence. Qed.
Lemma dirname_app (d : path) n : dirname (d ++ [n]) = d.
Proof. apply removelast_last. Qed.
Lemma basename_app (d : path) n : basename (d ++ [n]) = n.
Proof. apply last_last. Qed.
Lemma dirname_app2 (d : path) a b : dirname (d ++ [a; b]) = d ++ [a].
Proof. change [a; b] with ([a] ++ [b]). rewrite app_assoc. apply dirname_app. Qed.
Lemma basename_app2 (d : path) a b : basename (d ++ [a; b]) = b.
Proof. change [a; b] with ([a] ++ [b]). rewrite app_assoc. apply basename_app. Qed.

(** ** Files *)
Lemma assoc_filter (p q : path) l : p <> q ->
  assoc p (filter (fun e => negb (path_eqb (fst e) q)) l) = assoc p l.
Proof.
  intros Hn. induction l as [|[a i] l IH]; [easy|]. cbn [filter fst]. destruct (path_eq_dec a q) as [->|Ha].
  - rewrite path_eqb_refl. cbn [negb assoc]. destruct (path_eq_dec q p); [congruence|easy].
  - rewrite (path_eqb_neq a q) by easy. cbn [negb assoc]. now rewrite IH.
Qed.
Lemma assoc_filter_same (q : path) l : assoc q (filter (fun e => negb (path_eqb (fst e) q)) l) = None.
Proof.
  induction l as [|[a i] l IH]; [easy|]. cbn [filter fst]. destruct (path_eq_dec a q) as [->|Ha].
  - rewrite path_eqb_refl. easy.
  - rewrite (path_eqb_neq a q) by easy. cbn [negb assoc]. destruct (path_eq_dec a q); [congruence|easy].
Qed.
Lemma lookup_unlink s p q : lookup (unlink s q) p = if path_eq_dec p q then None else lookup s p.
Proof.
  unfold lookup, unlink. cbn [w_files]. destruct (path_eq_dec p q) as [->|Hn]; [apply assoc_filter_same|now apply assoc_filter].
Qed.
Lemma lookup_link s p q i : lookup (link s q i) p = if path_eq_dec p q then Some i else lookup s p.
Proof.
  unfold lookup at 1, link. cbn [w_files assoc]. destruct (path_eq_dec q p) as [->|Hn].
  - destruct (path_eq_dec p p); congruence.
  - destruct (path_eq_dec p q) as [->|Hn']; [congruence|]. change (lookup (unlink s q) p = lookup s p).
    rewrite lookup_unlink. destruct (path_eq_dec p q); congruence.
Qed.
Lemma lookup_set_data s i d p : lookup (set_data s i d) p = lookup s p.
Proof. reflexivity. Qed.
Lemma data_set_data s i d j : w_data (set_data s i d) j = if Nat.eqb j i then d else w_data s j.
Proof. reflexivity. Qed.
Lemma lookup_create s p q : lookup (create s q) p = if path_eq_dec p q then Some (w_next s) else lookup s p.
Proof.
  unfold create. cbv zeta. change (lookup (link (set_data s (w_next s) []) q (w_next s)) p = if path_eq_dec p q then Some (w_next s) else lookup s p).
  rewrite lookup_link. now destruct (path_eq_dec p q).
Qed.
Lemma data_create s q j : w_data (create s q) j = if Nat.eqb j (w_next s) then [] else w_data s j.
Proof. reflexivity. Qed.
Lemma next_create s q : w_next (create s q) = S (w_next s).
Proof. reflexivity. Qed.
Lemma assoc_none_in p l : assoc p l = None <-> ~ In p (map fst l).
Proof.
  induction l as [|[a i] l IH]; [easy|]. cbn [assoc map fst In]. destruct (path_eq_dec a p) as [->|Hn].
  - split; [discriminate|]. intros H. exfalso. apply H. now left.
  - rewrite IH. intuition.
Qed.
Lemma lookup_in s p : In p (map fst (w_files s)) <-> lookup s p <> None.
Proof.
  unfold lookup. rewrite assoc_none_in. split; [intros H H'; now apply H'|].
  intros H. destruct (in_dec path_eq_dec p (map fst (w_files s))); [easy|]. now exfalso.
Qed.
Lemma is_file_lookup s p : is_file s p = false <-> lookup s p = None.
Proof. unfold is_file. now destruct (lookup s p). Qed.
Lemma is_file_true s p : is_file s p = true <-> lookup s p <> None.
Proof. unfold is_file. now destruct (lookup s p). Qed.
Lemma contents_none s p : contents s p = None <-> lookup s p = None.
Proof. unfold contents. now destruct (lookup s p). Qed.

(** Every world that arises is of this form. *)
Record wf (s : world) : Prop := mk_wf {
  wf_nodup : NoDup (map fst (w_files s));
  wf_next : forall p i, lookup s p = Some i -> (i < w_next s)%nat;
  wf_inj : forall p q i, lookup s p = Some i -> lookup s q = Some i -> p = q }.
Lemma wf_empty dirs : wf (no_files dirs).
Proof. split; [constructor|easy|easy]. Qed.
Lemma nodup_filter {A B} (f : A -> B) g l : NoDup (map f l) -> NoDup (map f (filter g l)).
Proof.
  induction l as [|a l IH]; [easy|]. cbn [map filter]. intros H. inversion H as [|x l' H1 H2]; subst.
  destruct (g a); [|now apply IH]. cbn [map]. constructor; [|now apply IH].
  intros Hin. apply H1. apply in_map_iff in Hin as (b & <- & Hb). apply filter_In in Hb as [Hb _]. now apply in_map.
Qed.
Lemma wf_unlink s q : wf s -> wf (unlink s q).
Proof.
  intros [H1 H2 H3]. split.
  - unfold unlink. cbn [w_files]. now apply nodup_filter.
  - intros p i. rewrite lookup_unlink. destruct (path_eq_dec p q); [easy|]. apply H2.
  - intros p p' i. rewrite !lookup_unlink. destruct (path_eq_dec p q); [easy|]. destruct (path_eq_dec p' q); [easy|]. apply H3.
Qed.
Lemma wf_link s q i : wf s -> (i < w_next s)%nat -> (forall p, lookup s p = Some i -> p = q) -> wf (link s q i).
Proof.
  intros [H1 H2 H3] Hi Hq. split.
  - cbn [link w_files map fst]. constructor.
    + rewrite <- assoc_none_in. apply assoc_filter_same.
    + cbn [w_files unlink]. now apply nodup_filter.
  - intros p j. rewrite lookup_link. destruct (path_eq_dec p q); [|apply H2]. intros [= <-]. easy.
  - intros p p' j. rewrite !lookup_link. destruct (path_eq_dec p q); destruct (path_eq_dec p' q); try congruence.
    + intros [= <-] E. apply Hq in E. congruence.
    + intros E [= <-]. apply Hq in E. congruence.
    + apply H3.
Qed.
Lemma wf_set_data s i d : wf s -> wf (set_data s i d).
Proof. intros [H1 H2 H3]. split; [exact H1|exact H2|exact H3]. Qed.
Lemma wf_add_dirs s p : wf s -> wf (add_dirs s p).
Proof. intros [H1 H2 H3]. split; [exact H1|exact H2|exact H3]. Qed.
Lemma wf_create s p : wf s -> wf (create s p).
Proof.
  intros Hw. set (s0 := mk_world (w_files s) (w_dirs s) (w_data s) (S (w_next s))).
  assert (wf s0) as H0.
  { destruct Hw as [H1 H2 H3]. split; [exact H1| |exact H3]. intros q i E. specialize (H2 q i E). cbn. lia. }
  destruct (wf_link (set_data s0 (w_next s) []) p (w_next s)) as [H1 H2 H3].
  - now apply wf_set_data.
  - cbn. lia.
  - intros q E. apply (wf_next s Hw) in E. lia.
  - split; [exact H1|exact H2|exact H3].
Qed.
Ltac sysinv := repeat match goal with
  | H : _ \/ _ |- _ => destruct H as [H|H]
  | H : fails _ _ _ _ _ _ |- _ => let a := fresh in let b := fresh in destruct H as (a & -> & ->)
  | H : gives _ _ _ _ |- _ => destruct H as [-> ->]
  | H : _ /\ fails _ _ _ _ _ _ |- _ => let a := fresh in destruct H as [a H]
  end.
Lemma sys_wf O B (c : call B) s a s' : sys O c s a s' -> wf s -> wf s'.
Proof.
  destruct c; cbn [sys]; intros H Hw.
  - destruct H as [H|H]; [now sysinv|]. destruct (is_dir s dir); [|now sysinv].
    destruct H as (suf & _ & H). cbv zeta in H. destruct H as [H1 H2]. sysinv. now apply wf_create.
  - sysinv; try easy. destruct (path_exists s p); [now sysinv|]. destruct (is_dir s (dirname p)); sysinv; [now apply wf_create|easy].
  - destruct H as [H|[[_ H]|H]]; [now sysinv|now sysinv|]. destruct (lookup s p); now sysinv.
  - destruct (w_data s fd); now sysinv.
  - destruct H as [H|[(_ & k & _ & H)|H]]; sysinv; try easy; now apply wf_set_data.
  - now sysinv.
  - destruct H as [H|H]; [now sysinv|]. destruct (lookup s p); sysinv; [now apply wf_unlink|easy].
  - destruct H as [H|H]; [now sysinv|]. destruct (lookup s src) as [i|] eqn:E; [|now sysinv].
    destruct (is_dir s dst); [now sysinv|]. destruct (negb _); [now sysinv|]. destruct (_ && _); [now sysinv|]. sysinv.
    apply wf_link; [now apply wf_unlink|exact (wf_next s Hw _ _ E)|].
    intros p. rewrite lookup_unlink. destruct (path_eq_dec p src); [easy|]. intros E'. exfalso. apply n. now apply (wf_inj s Hw _ _ i).
  - destruct H as [H|H]; [now sysinv|]. destruct (existsb _ _); sysinv; [easy|now apply wf_add_dirs].
  - destruct H as [H|H]; [now sysinv|]. destruct (path_exists s p); now sysinv.
  - now sysinv.
  - now sysinv.
  - destruct H as [-> _]. easy.
Qed.
Lemma steps_wf O A (p : prog A) s p' s' : steps O p s p' s' -> wf s -> wf s'.
Proof.
  induction 1 as [|p s p1 s1 p2 s2 H1 H2 IH]; [easy|]. intros Hw. apply IH. destruct p; [easy|].
  destruct H1 as (a & H1 & _). eapply sys_wf; eauto.
Qed.

(** Directories are never removed. *)
Lemma is_dir_add_dirs s p q : is_dir s q = true -> is_dir (add_dirs s p) q = true.
Proof.
  destruct q; [easy|]. cbn [is_dir add_dirs w_dirs]. rewrite existsb_app. intros ->. apply orb_true_r.
Qed.
Lemma ancestors_last p : forall above, p <> [] -> In (above ++ p) (ancestors above p).
Proof.
  induction p as [|c p IH]; intros above Hp; [easy|]. cbn [ancestors]. destruct p as [|d p]; [now left|].
  right. specialize (IH (above ++ [c])). rewrite <- app_assoc in IH. now apply IH.
Qed.
Lemma is_dir_added s p : is_dir (add_dirs s p) p = true.
Proof.
  destruct p as [|c p]; [easy|]. cbn [is_dir add_dirs w_dirs]. rewrite existsb_app. apply orb_true_iff. left.
  apply existsb_exists. exists (c :: p). split; [|apply path_eqb_refl]. now apply (ancestors_last (c :: p) []).
Qed.

(** ** Programs *)
(** A call and its answer. *)
Inductive event := Ev (B : Type) (c : call B) (a : B).
Arguments Ev {B}.
Section Logic.
  Context (O : os) {W : Type} (Rely : W -> world -> world -> Prop) (Guar : W -> event -> W -> world -> world -> Prop).
  (** Whatever the others do (within Rely) between the steps of p, each step of p keeps to
      Guar, and p ends with Q.  [W] is what the process knows about itself. *)
  Fixpoint wp {A} (p : prog A) (g : W) (s : world) (Q : res A -> W -> world -> Prop) : Prop :=
    match p with
    | Ret r => Q r g s
    | Call c k => forall s1 a s2, Rely g s s1 -> sys O c s1 a s2 ->
                    exists g', Guar g (Ev c a) g' s1 s2 /\ wp (k a) g' s2 Q
    end.
  Lemma wp_mono {A} (p : prog A) : forall g s (Q Q' : res A -> W -> world -> Prop),
    (forall r g s, Q r g s -> Q' r g s) -> wp p g s Q -> wp p g s Q'.
  Proof.
    induction p as [r|B c k IH]; intros g s Q Q' HQ H; [now apply HQ|]. intros s1 a s2 H1 H2.
    destruct (H s1 a s2 H1 H2) as (g' & H3 & H4). exists g'. split; [easy|]. eapply IH; eauto.
  Qed.
  Lemma wp_after {A B} (p : prog A) (f : res A -> prog B) : forall g s Q,
    wp p g s (fun r g s => wp (f r) g s Q) -> wp (after p f) g s Q.
  Proof.
    induction p as [r|C c k IH]; intros g s Q H; [exact H|]. cbn [after]. intros s1 a s2 H1 H2.
    destruct (H s1 a s2 H1 H2) as (g' & H3 & H4). exists g'. split; [easy|]. now apply IH.
  Qed.
  Lemma wp_bind {A B} (p : prog A) (f : A -> prog B) g s Q :
    wp p g s (fun r g s => match r with
                           | Ok a => wp (f a) g s Q | Raise e => Q (Raise e) g s | Diverge => Q Diverge g s end) ->
    wp (pbind p f) g s Q.
  Proof.
    intros H. apply wp_after. eapply wp_mono; [|exact H]. intros [a|e|] g' s' H'; exact H'.
  Qed.
  Lemma wp_sysr {A} (c : call (res A)) g s (Q : res A -> W -> world -> Prop) :
    (forall s1 a s2, Rely g s s1 -> sys O c s1 a s2 -> exists g', Guar g (Ev c a) g' s1 s2 /\ Q a g' s2) -> wp (sysr c) g s Q.
  Proof. intros H. exact H. Qed.
  Lemma wp_sysv {A} (c : call A) g s (Q : res A -> W -> world -> Prop) :
    (forall s1 a s2, Rely g s s1 -> sys O c s1 a s2 -> exists g', Guar g (Ev c a) g' s1 s2 /\ Q (Ok a) g' s2) -> wp (sysv c) g s Q.
  Proof. intros H. exact H. Qed.
  (** Running alone. *)
  Hypothesis rely_refl : forall g s, Rely g s s.
  Lemma wp_steps {A} (p : prog A) s p' s' Q : steps O p s p' s' -> forall g, wp p g s Q ->
    forall I : W -> world -> Prop, (forall g e g' a b, Guar g e g' a b -> I g a -> I g' b) -> I g s ->
    exists g', wp p' g' s' Q /\ I g' s'.
  Proof.
    induction 1 as [|p s p1 s1 p2 s2 H1 H2 IH]; intros g Hwp I HI Hi; [now exists g|].
    destruct p as [r|B c k]; [easy|]. destruct H1 as (a & H1 & ->).
    destruct (Hwp s a s1 (rely_refl g s) H1) as (g' & HG & Hk). apply (IH g' Hk I HI). eapply HI; eauto.
  Qed.
  (** Running among others. *)
  Lemma wp_steps_in (env : world -> world -> Prop) {A} (p : prog A) s p' s' Q :
    (forall g a b c, Rely g a b -> Rely g b c -> Rely g a c) -> (forall g a b, env a b -> Rely g a b) ->
    steps_in O env p s p' s' -> forall g, wp p g s Q ->
    forall I : W -> world -> Prop, (forall g e g' a b, Guar g e g' a b -> I g a -> I g' b) -> (forall g a b, env a b -> I g a -> I g b) ->
    I g s -> exists g' s0, wp p' g' s0 Q /\ Rely g' s0 s' /\ I g' s'.
  Proof.
    intros Htr Henv H g Hwp I HI HE.
    assert (forall s0, Rely g s0 s -> wp p g s0 Q -> I g s -> exists g' s0, wp p' g' s0 Q /\ Rely g' s0 s' /\ I g' s') as HH.
    { clear Hwp. revert g. induction H as [p s|p s s1 p2 s2 H1 H2 IH|p s p1 s1 p2 s2 H1 H2 IH]; intros g s0 Hr Hwp Hi.
      - now exists g, s0.
      - apply (IH g s0); [eapply Htr; eauto|easy|eapply HE; eauto].
      - destruct p as [r|B c k]; [easy|]. destruct H1 as (a & H1 & ->).
        destruct (Hwp s a s1 Hr H1) as (g' & HG & Hk). apply (IH g' s1); [apply rely_refl|easy|eapply HI; eauto]. }
    apply (HH s); [apply rely_refl|easy].
  Qed.
End Logic.

(** ** The deterministic system *)
Lemma tmp_name_suffix n : tmp_suffix (tmp_name n).
Proof.
  split; [reflexivity|]. unfold tmp_name. apply Forall_forall. intros c Hc. apply in_map_iff in Hc as (k & <- & _).
  right; left. pose proof (Z.mod_pos_bound (Z.of_nat n / 10 ^ k) 10 ltac:(lia)). lia.
Qed.
(** The only thing it does not decide by itself: whether the name it proposes is unused. *)
Definition name_free {B} (c : call B) (s : world) : bool :=
  match c with Mkstemp pre dir => negb (path_exists s (dir ++ [pre ++ tmp_name (w_next s)])) | _ => true end.
Lemma answer_sys O short B (c : call B) s : (short <> None -> may_fail O KShort = true) -> name_free c s = true ->
  sys O c s (fst (answer (windows O) short c s)) (snd (answer (windows O) short c s)).
Proof.
  intros Hs Hn. destruct c; cbn [sys answer name_free] in *.
  - right. destruct (is_dir s dir); cbv zeta; cbn [fst snd]; [|easy]. exists (tmp_name (w_next s)). split; [apply tmp_name_suffix|].
    split; [|easy]. now destruct (path_exists _ _).
  - right. destruct (path_exists s p); [easy|]. now destruct (is_dir s (dirname p)).
  - right; right. now destruct (lookup s p).
  - now destruct (w_data s fd).
  - right. destruct short as [k|]; [|now right]. destruct ((0 <=? k) && (k <? len d)) eqn:E; [|now right].
    left. split; [apply Hs; discriminate|]. exists k. split; [lia|easy].
  - now right.
  - right. now destruct (lookup s p).
  - right. destruct (lookup s src); [|easy]. destruct (is_dir s dst); [easy|]. destruct (negb _); [easy|]. now destruct (_ && _).
  - right. now destruct (existsb _ _).
  - right. now destruct (path_exists s p).
  - easy.
  - easy.
  - easy.
Qed.
Fixpoint plan_ok (win : bool) (plan : list (option Z)) {A} (p : prog A) (s : world) : bool :=
  match p with
  | Ret _ => true
  | Call c k => name_free c s &&
      let (a, s') := answer win (hd None plan) c s in plan_ok win (if is_write c then tl plan else plan) (k a) s'
  end.
Lemma run_plan_runs O A (p : prog A) : forall plan s,
  (plan <> [] -> may_fail O KShort = true) -> plan_ok (windows O) plan p s = true ->
  runs O p s (fst (run_plan (windows O) plan p s)) (snd (run_plan (windows O) plan p s)).
Proof.
  induction p as [r|B c k IH]; intros plan s Hp Hok; [constructor|]. cbn [run_plan plan_ok] in *.
  apply andb_prop in Hok as [H1 H2].
  pose proof (answer_sys O (hd None plan) B c s ltac:(intros H; apply Hp; now destruct plan) H1) as H.
  destruct (answer (windows O) (hd None plan) c s) as [a s']. cbn [fst snd] in H.
  eapply steps_one; [exists a; split; [exact H|reflexivity]|]. apply IH; [|exact H2].
  intros Hne. apply Hp. intros ->. destruct (is_write c); now apply Hne.
Qed.
