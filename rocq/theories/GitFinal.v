(** GitDB: the statements proved elsewhere for any set of repositories, for those that one
    repository reaches. *)
From Coq Require Import ZifyBool ZifyNat Permutation Relations Sorting.Sorted.
From Verif Require Import Py PyFacts FunModel FunSpec IndexModel IndexSpec ZlibModel ReaderModel PackModel PackSpec OsModel LooseModel PackDbModel PackDbSpec PackDbProofs PackDbTop
  MemModel MemProofs CompoundModel CompoundSpec CompoundProofs GitModel GitSpec GitProofs GitTop GitMain GitGrow GitRoots.
Ltac Zify.zify_post_hook ::= Z.div_mod_to_equations.

Section From.
  Context (F : fs) (U : list Z -> bytes -> option pack) (K : zlib) (r : list Z) (H : proper_from F U r).
  Let scope := reaches F r.
  Lemma from_order l : Permutation (f_order F l) l.
  Proof. apply H. Qed.
  Lemma from_scope r' : scope r' -> proper_repo F U r'.
  Proof. apply H. Qed.
  Lemma from_closed r' p : scope r' -> alternate F r' p -> scope p.
  Proof. intros H1 H2. apply rt_trans with r'; [exact H1|now apply rt_step]. Qed.
  Lemma from_new : good F U scope (KGit r) (gitdb r).
  Proof. constructor; [apply rt_refl|apply H]. Qed.
  Lemma from_run m fuel ops : Forall g_proper ops -> exists l d', g_run F K fuel ops (gitdb r) = (l, d') /\ good F U scope (KGit r) d' /\
    Forall2 (fun o a => g_right F U K m r o a \/ ~ enough F m fuel (KGit r) /\ (m = 0%nat -> never_returns a)) ops l.
  Proof. intros Hops. apply (run_right_or F U K scope from_order from_scope from_closed m fuel r ops Hops). apply from_new. Qed.
  Lemma from_good fuel ops : Forall g_proper ops -> good F U scope (KGit r) (snd (g_run F K fuel ops (gitdb r))).
  Proof. intros Hops. destruct (from_run 0 fuel ops Hops) as (l & d & -> & Hd & _). exact Hd. Qed.
  Lemma any_graph fuel ops l d : Forall g_proper ops -> g_run F K fuel ops (gitdb r) = (l, d) -> Forall2 (fun o a => g_right F U K 0 r o a \/ never_returns a) ops l.
  Proof.
    intros Hops E. destruct (from_run 0 fuel ops Hops) as (l' & d' & E' & _ & Hl). rewrite E in E'. injection E' as <- <-.
    clear - Hl. induction Hl as [|o a ops l Ha _ IH]; constructor; [|easy]. destruct Ha as [Ha|[_ Ha]]; [now left|right; now apply Ha].
  Qed.
  Lemma from_enough m : finite_acyclic F r -> exists N, forall n, (N <= n)%nat -> enough F m n (KGit r).
  Proof.
    intros [(l & Hl) Hac]. destruct (acyclic_enough F U scope from_order from_scope from_closed m (length l) l r) as (N & HN); [lia|apply rt_refl|apply H|exact Hl|exact Hac|].
    exists N. intros n Hn. now apply (enough_more F U scope from_scope from_closed m N).
  Qed.
  Lemma acyclic_graph m : finite_acyclic F r -> exists N, forall fuel ops l d, (N <= fuel)%nat -> Forall g_proper ops ->
    g_run F K fuel ops (gitdb r) = (l, d) -> Forall2 (g_right F U K m r) ops l.
  Proof.
    intros Hac. destruct (from_enough m Hac) as (N & HN). exists N. intros fuel ops l d Hf Hops E. destruct (from_run m fuel ops Hops) as (l' & d' & E' & _ & Hl). rewrite E in E'. injection E' as <- <-.
    specialize (HN fuel Hf). clear - Hl HN. induction Hl as [|o a ops l Ha _ IH]; constructor; [|easy]. now destruct Ha as [Ha|[Ha _]].
  Qed.
  Lemma consistent : finite_acyclic F r -> exists N, forall fuel ops, (N <= fuel)%nat -> Forall g_proper ops ->
    let d := snd (g_run F K fuel ops (gitdb r)) in
    exists l, fst (db_iter F fuel d) = Ok l /\ fst (db_size F fuel d) = Ok (len l) /\
      forall sha, sha_ok sha -> fst (db_has F fuel sha d) = Ok true /\ In sha l \/ fst (db_has F fuel sha d) = Ok false /\ ~ In sha l.
  Proof.
    intros Hac. destruct (from_enough 0 Hac) as (N & HN). exists N. intros fuel ops Hf Hops d. pose proof (from_good fuel ops Hops) as Hd. fold d in Hd. specialize (HN fuel Hf).
    destruct (iter_ok F U K scope from_order from_scope from_closed 0 fuel _ d Hd) as (x & d1 & E1 & _ & [[Hx _]|(l & -> & l' & Hl & Hp)]); [contradiction|].
    destruct (size_ok F U K scope from_order from_scope from_closed 0 fuel _ d Hd) as (x & d2 & E2 & _ & [[Hx _]|(n & -> & l2 & (l2' & Hl2 & Hp2) & ->)]); [contradiction|].
    exists l. rewrite E1, E2. cbn [fst]. split; [easy|]. split.
    - f_equal. unfold len. f_equal. rewrite (Permutation_length Hp2), (Permutation_length Hp). apply Permutation_length. now apply (listing_unique F U r).
    - intros sha Hs. destruct (has_ok F U K scope from_order from_scope from_closed 0 fuel _ d sha Hs Hd) as (x & d3 & E3 & _ & [[Hx _]|(b & -> & Hb)]); [contradiction|].
      rewrite E3. cbn [fst]. assert (In sha l <-> b = true) as Hin.
      { rewrite Hb. cbn [content]. rewrite <- (listing_in F U r l' Hl). split; [apply Permutation_in; exact Hp|apply Permutation_in; now apply Permutation_sym]. }
      destruct b; [left|right]; (split; [easy|]); [now apply Hin|]. intros Hn. now apply Hin in Hn.
  Qed.
  Lemma has_own fuel fuel0 ops sha : Forall g_proper ops -> sha_ok sha -> repo_has F U r sha -> fst (db_has F (S fuel) sha (snd (g_run F K fuel0 ops (gitdb r)))) = Ok true.
  Proof. intros Hops Hs Hr. apply (own_has F U K scope from_order from_scope from_closed fuel r _ sha Hs (from_good fuel0 ops Hops) Hr). Qed.

  (** Cycles *)
  Lemma cycle_step A (R : A -> A -> Prop) x : clos_trans _ R x x -> exists y, R x y /\ clos_refl_trans _ R y x.
  Proof. intros Hc. apply clos_trans_t1n in Hc. inversion Hc as [y Hy|y z Hy Hz]; subst; [exists x; split; [easy|apply rt_refl]|]. exists y. split; [easy|]. apply clos_t1n_trans in Hz. clear - Hz. induction Hz as [a b Hab|a b c _ IH1 _ IH2]; [now apply rt_step|now apply rt_trans with b]. Qed.
  Lemma to_cycle r' : reaches F r r' -> clos_trans _ (alternate F) r' r' ->
    forall x, reaches F r x /\ reaches F x r' -> scope x /\ usable F x /\ exists p, alternate F x p /\ reaches F r p /\ reaches F p r'.
  Proof.
    intros Hr Hc x [H1 H2]. assert (exists p, alternate F x p /\ reaches F p r') as (p & Hp & Hp').
    { apply clos_rt_rt1n in H2. inversion H2 as [|y z Hy Hz]; subst; [now apply cycle_step|]. exists y. split; [easy|]. now apply clos_rt1n_rt. }
    split; [exact H1|]. split.
    - apply clos_rt_rtn1 in H1. inversion H1 as [|y z Hy Hz]; subst; [apply H|apply Hy].
    - exists p. split; [easy|]. split; [|easy]. apply rt_trans with x; [exact H1|now apply rt_step].
  Qed.
  Lemma cycles fuel0 ops r' : reaches F r r' -> clos_trans _ (alternate F) r' r' -> Forall g_proper ops ->
    let d := snd (g_run F K fuel0 ops (gitdb r)) in
    forall fuel, (forall sha, sha_ok sha -> ~ found F U r sha -> fst (db_has F fuel sha d) = Diverge /\ fst (db_info K F fuel sha d) = Diverge) /\
      fst (db_iter F fuel d) = Diverge /\ fst (db_size F fuel d) = Diverge /\ forall force, fst (db_update F fuel force d) = Diverge.
  Proof.
    intros Hr Hc Hops d fuel. pose proof (from_good fuel0 ops Hops) as Hd. fold d in Hd.
    set (S := fun x => reaches F r x /\ reaches F x r'). pose proof (to_cycle r' Hr Hc : forall x, S x -> scope x /\ usable F x /\ exists p, alternate F x p /\ S p) as HS.
    assert (He : endless S (KGit r)) by (split; [apply rt_refl|exact Hr]). split; [|split; [|split]].
    - intros sha Hs Hn. split.
      + exact (has_endless F U K scope from_order from_scope from_closed S HS sha Hs fuel (KGit r) d He Hn Hd).
      + exact (info_endless F U K scope from_order from_scope from_closed S HS sha Hs fuel (KGit r) d He Hn Hd).
    - exact (iter_endless F U K scope from_order from_scope from_closed S HS fuel (KGit r) d He Hd).
    - exact (size_endless F U K scope from_order from_scope from_closed S HS fuel (KGit r) d He Hd).
    - intros force. exact (update_endless F U scope from_order from_scope from_closed S HS force fuel (KGit r) d He Hd).
  Qed.
End From.

(** ** An update after changes on disk *)
Lemma update_noticed F F' U K r : proper_from F U r -> proper_from F' U r -> noticed F F' r -> finite_acyclic F' r ->
  forall m, exists N, forall fuel0 fuel ops, (N <= fuel)%nat -> Forall g_proper ops -> exists b d,
  db_update F' fuel true (snd (g_run F K fuel0 ops (gitdb r))) = (Ok b, d) /\
  forall ops', Forall g_proper ops' -> Forall2 (g_right F' U K m r) ops' (fst (g_run F' K fuel ops' d)).
Proof.
  intros H H' Hn Hac m. destruct (from_enough F' U r H' m Hac) as (N & HN). exists N. intros fuel0 fuel ops Hf Hops. specialize (HN fuel Hf).
  destruct (update_returns F F' U (reaches F r) (reaches F' r) (from_order F' U r H') (from_scope F' U r H') (from_closed F' r) Hn m fuel (KGit r) (snd (g_run F K fuel0 ops (gitdb r)))) as (b & d & E);
    [apply rt_refl|now apply from_good|exact HN|]. exists b, d. split; [exact E|]. intros ops' Hops'.
  assert (good F' U (reaches F' r) (KGit r) d) as Hd.
  { apply (update_grows F F' U (reaches F r) (reaches F' r) (from_order F' U r H') (from_scope F' U r H') (from_closed F' r) Hn fuel (KGit r) (snd (g_run F K fuel0 ops (gitdb r))) b d);
      [apply rt_refl|now apply from_good|exact E]. }
  destruct (run_right_or F' U K (reaches F' r) (from_order F' U r H') (from_scope F' U r H') (from_closed F' r) m fuel r ops' Hops' d Hd) as (l' & d2 & E' & _ & Hl).
  rewrite E'. cbn [fst]. clear - Hl HN. induction Hl as [|o a ops l Ha _ IH]; constructor; [|easy]. now destruct Ha as [Ha|[Ha _]].
Qed.

(** ** Relative paths *)
Lemma absolute_reaches T order cwd r : absolute r ->
  (forall r' R text line, clos_refl_trans _ (git_alternate T) r r' -> T r' = Some R -> r_alt R = Some (Ok text) -> line_of text line -> absolute line) ->
  forall r', reaches (in_directory cwd T order) r r' <-> clos_refl_trans _ (git_alternate T) r r'.
Proof.
  intros Hr Hlines. assert (Hagainst : forall b p, absolute p -> against b p = p) by (intros b p (p' & ->); reflexivity).
  assert (Hline : forall text line, line_of text line -> line <> []) by (intros text line (a & l & b & w & w' & _ & _ & _ & _ & _ & _ & _ & Hne & _); exact Hne).
  assert (Habs : forall r', clos_refl_trans _ (git_alternate T) r r' -> absolute r').
  { intros r' H'. apply clos_rt_rtn1 in H'. inversion H' as [|y z Hy Hz]; subst; [exact Hr|]. destruct Hy as (R & text & line & HR & Ha & Hl & -> & _).
    rewrite Hagainst; [|apply clos_rtn1_rt in Hz; now apply (Hlines y R text)]. apply clos_rtn1_rt in Hz. now apply (Hlines y R text). }
  assert (Hstep : forall x p, clos_refl_trans _ (git_alternate T) r x -> (alternate (in_directory cwd T order) x p <-> git_alternate T x p)).
  { intros x p Hx. pose proof (Habs x Hx) as Hax. unfold alternate, usable, in_directory. cbn [f_repo]. rewrite (Hagainst cwd x Hax). split.
    - intros ((R & text & HR & Ha & Hl) & Hne & R' & HR'). pose proof (Hlines x R text p Hx HR Ha Hl) as Hp. rewrite (Hagainst cwd p Hp) in HR'. exists R, text, p.
      rewrite (Hagainst x p Hp). repeat (split; [easy|]). now exists R'.
    - intros (R & text & line & HR & Ha & Hl & -> & R' & HR'). pose proof (Hlines x R text line Hx HR Ha Hl) as Hp. rewrite (Hagainst x line Hp) in *. split; [now exists R, text|].
      split; [now apply (Hline text)|]. exists R'. now rewrite (Hagainst cwd line Hp). }
  intros r'. split; intros H; apply clos_rt_rtn1 in H; induction H as [|y z Hy Hz IH]; try apply rt_refl.
  - apply rt_trans with y; [exact IH|]. apply rt_step. now apply Hstep.
  - apply clos_rtn1_rt in Hz. apply rt_trans with y; [exact IH|]. apply rt_step. now apply Hstep.
Qed.

(** Relative paths. *)
Lemma against_abs base p : absolute p -> against base p = p.
Proof. intros [p' ->]. reflexivity. Qed.
Lemma against_rel base p : ~ absolute p -> against base p = base ++ 47 :: p.
Proof.
  intros H. unfold against. destruct p as [|c p]; [easy|]. destruct (Z.eq_dec c 47) as [->|Hc]; [exfalso; apply H; now exists p|].
  destruct c as [|c|c]; try reflexivity. repeat (destruct c as [c|c|]; try reflexivity). now destruct Hc.
Qed.
Lemma relative_elsewhere T order cwd r : absolute r ->
  (forall p, ~ absolute p -> alternate (in_directory cwd T order) r p <->
     (exists R text, T r = Some R /\ r_alt R = Some (Ok text) /\ line_of text p) /\ exists R', T (cwd ++ 47 :: p) = Some R') /\
  ((forall R text p, T r = Some R -> r_alt R = Some (Ok text) -> line_of text p -> ~ absolute p /\ T (cwd ++ 47 :: p) = None) ->
   forall U sha, found (in_directory cwd T order) U r sha <-> repo_has (in_directory cwd T order) U r sha).
Proof.
  intros Hr. assert (Hiff : forall p, alternate (in_directory cwd T order) r p <-> (exists R text, T r = Some R /\ r_alt R = Some (Ok text) /\ line_of text p) /\ exists R', T (against cwd p) = Some R').
  { intros p. unfold alternate, usable, in_directory. cbn [f_repo]. rewrite (against_abs cwd r Hr). split; [intros [H1 [_ H2]]; easy|].
    intros [(R & text & H1 & H2 & H3) H4]. split; [now exists R, text|]. split; [destruct H3 as (a & l & b & w & w' & _ & _ & _ & _ & _ & _ & _ & Hne & _); exact Hne|exact H4]. }
  split.
  - intros p Hp. rewrite Hiff, (against_rel cwd p Hp). easy.
  - intros Hall U sha. split; [|intros H; exists r; split; [apply rt_refl|exact H]].
    intros (r' & Hreach & Hhas). enough (r' = r) as -> by exact Hhas. clear Hhas. apply clos_rt_rt1n in Hreach.
    inversion Hreach as [|y z Hy _]; subst; [easy|]. exfalso. apply Hiff in Hy as [(R & text & H1 & H2 & H3) (R' & H4)].
    destruct (Hall R text y H1 H2 H3) as [Hn H5]. rewrite (against_rel cwd y Hn) in H4. congruence.
Qed.
