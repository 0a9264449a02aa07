(** GitDB: how deep acyclic alternates go, cyclic ones, and updates in any state. *)
From Coq Require Import ZifyBool ZifyNat Permutation Relations Sorting.Sorted.
From Verif Require Import Py PyFacts FunModel FunSpec IndexModel IndexSpec ZlibModel ReaderModel PackModel PackSpec OsModel LooseModel PackDbModel PackDbSpec PackDbProofs PackDbTop
  MemModel MemProofs CompoundModel CompoundSpec CompoundProofs GitModel GitSpec GitProofs GitTop.
Ltac Zify.zify_post_hook ::= Z.div_mod_to_equations.

Lemma each_diverges {M K A} (Rel : K -> M -> Prop) (f : M -> res A * M) ks l k : Forall2 Rel ks l ->
  (forall k m, In k ks -> Rel k m -> fst (f m) = Diverge \/ exists a, fst (f m) = Ok a) ->
  In k ks -> (forall m, Rel k m -> fst (f m) = Diverge) -> fst (each f l) = Diverge.
Proof.
  intros H. induction H as [|k0 m ks l Hk Hl IH]; intros Ha Hin Hd; [easy|]. cbn [each].
  destruct (f m) as [r m'] eqn:E. destruct (Ha k0 m (or_introl eq_refl) Hk) as [Hr|(a & Hr)]; rewrite E in Hr; cbn [fst] in Hr; subst r; [easy|].
  destruct Hin as [-> |Hin]; [specialize (Hd m Hk); rewrite E in Hd; discriminate|].
  specialize (IH (fun k' m' H' => Ha k' m' (or_intror H')) Hin Hd). destruct (each f l) as [r l']. cbn [fst] in *. now subst r.
Qed.

Lemma step_then A (R : A -> A -> Prop) x y z : R x y -> clos_refl_trans _ R y z -> clos_trans _ R x z.
Proof. intros H H'. revert H. revert x. apply clos_rt_rt1n in H'. induction H' as [y|y y' z H1 _ IH]; intros x0 H; [now apply t_step|]. apply t_trans with y; [now apply t_step|now apply IH]. Qed.

Section Main.
  Context (F : fs) (U : list Z -> bytes -> option pack) (K : zlib) (scope : list Z -> Prop).
  Hypothesis Horder : forall l, Permutation (f_order F l) l.
  Hypothesis Hscope : forall r, scope r -> proper_repo F U r.
  Hypothesis Hclosed : forall r p, scope r -> alternate F r p -> scope p.

  (** ** Acyclic alternates *)
  Lemma enough_more m n k : enough F m n k -> forall n', (n <= n')%nat -> enough F m n' k.
  Proof.
    revert k. induction n as [|n IH]; intros k H n' Hn; inversion H as [? ? H0| |? ? H0|? ? H0]; subst; try (constructor; lia).
    - destruct n' as [|n']; [lia|]. constructor. intros k' Hk'. apply IH; [now apply H0|lia].
    - destruct n' as [|n']; [lia|]. constructor. intros p Hp. apply IH; [now apply H0|lia].
  Qed.
  Lemma all_below (m : nat) (ps : list (list Z)) : (forall p, In p ps -> exists N, enough F m N (KGit p)) -> exists N, forall p, In p ps -> enough F m N (KGit p).
  Proof.
    induction ps as [|p ps IH]; intros H; [now exists 0%nat|]. destruct (H p (or_introl eq_refl)) as (N1 & H1). destruct IH as (N2 & H2); [intros q Hq; apply H; now right|].
    exists (Nat.max N1 N2). intros q [<- |Hq]; [apply (enough_more _ N1); [easy|lia]|apply (enough_more _ N2); [now apply H2|lia]].
  Qed.
  Lemma acyclic_enough m : forall n l r, (length l <= n)%nat -> scope r -> usable F r -> (forall r', reaches F r r' -> In r' l) ->
    (forall r', reaches F r r' -> ~ clos_trans _ (alternate F) r' r') -> exists N, enough F m N (KGit r).
  Proof.
    induction n as [|n IH]; intros l r Hl Hr Hu Hin Hac.
    - assert (In r l) as H by (apply Hin, rt_refl). destruct l; [easy|cbn in Hl; lia].
    - pose proof Hu as [_ (R & HR)]. destruct (ref_load_ok F U scope Horder Hscope Hclosed r R Hr HR) as (_ & _ & _ & (ps & _ & _ & Hps) & _).
      destruct (all_below m ps) as (N & HN).
      + intros p Hp. apply Hps in Hp. apply (IH (remove (list_eq_dec Z.eq_dec) r l)).
        * assert (In r l) as H by (apply Hin, rt_refl). pose proof (remove_length_lt (list_eq_dec Z.eq_dec) l r H). lia.
        * now apply (Hclosed r).
        * now destruct Hp.
        * intros r' Hr'. assert (reaches F r r') as H by (apply rt_trans with p; [now apply rt_step|easy]). apply in_in_remove; [|now apply Hin].
          intros ->. apply (Hac r); [apply rt_refl|]. now apply (step_then _ _ r p r).
        * intros r' Hr'. apply Hac. apply rt_trans with p; [now apply rt_step|easy].
      + exists (S (Nat.max m (S N))). constructor. intros k Hk. unfold kinds, git_members in Hk. rewrite HR in Hk. rewrite !map_app, !in_app_iff in Hk. destruct Hk as [Hk|[Hk|Hk]].
        * destruct (r_pack R); [|easy]. destruct Hk as [<- |[]]. constructor. lia.
        * destruct r; [easy|]. destruct Hk as [<- |[]]. constructor.
        * destruct (r_alt R); [|easy]. destruct Hk as [<- |[]]. apply (enough_more _ (S N)); [|lia]. constructor. intros p Hp. apply HN. now apply Hps.
  Qed.

  (** ** Alternates without end *)
  Section Endless.
    Context (S : list Z -> Prop) (HS : forall r, S r -> scope r /\ usable F r /\ exists p, alternate F r p /\ S p).
    Let good := good F U scope.
    Let content := content F U.
    Definition endless (k : kind) : Prop := match k with KGit r => S r | KRef r => S r | _ => False end.
    Lemma endless_member r k ks : ready F r k ks -> endless k -> exists k', In k' ks /\ endless k'.
    Proof.
      intros [(-> & Hu & ->)|(-> & _ & ps & -> & _ & Hps)] H; destruct (HS r H) as (_ & _ & p & Hp & HSp).
      - exists (KRef r). split; [|easy]. unfold kinds, git_members. destruct Hp as ((R & text & HR & Ha & _) & _). rewrite HR, Ha, !map_app, !in_app_iff. right. right. now left.
      - exists (KGit p). split; [|easy]. apply in_map. now apply Hps.
    Qed.
    Lemma query_endless fuel r k ks c sha : sha_ok sha -> ready F r k ks -> state F U scope ks c -> endless k -> ~ content sha k ->
      (forall k d, endless k -> ~ content sha k -> good k d -> fst (db_has F fuel sha d) = Diverge) ->
      fst (db_query (db_has F fuel) sha c) = Diverge.
    Proof.
      intros Hs Hready Hst He Hno IH. destruct (endless_member r k ks Hready He) as (k' & Hk' & He').
      assert (Hnone : forall k', In k' ks -> ~ content sha k').
      { intros k2 Hk2 Hc. apply Hno. apply (ready_content F U r k ks sha Hready). now exists k2. }
      unfold db_query. destruct (dict_get sha (c_cache c)) as [i|] eqn:E.
      - destruct (proj2 Hst sha i Hs E) as (k2 & Hk2). apply has_in in Hk2 as [H1 H2]. now apply Hnone in H1.
      - pose proof (first_with_diverges good (db_has F fuel) sha (content sha) ks (c_dbs c) 0 k' (proj1 Hst)) as H.
        destruct (first_with (db_has F fuel) sha 0 (c_dbs c)) as [x l]. cbn [fst] in H. rewrite H; [easy| | |easy|].
        + intros k2 Hk2 d Hd. destruct (has_ok F U K scope Horder Hscope Hclosed 0 fuel k2 d sha Hs Hd) as (y & d' & E' & Hd' & Hy). exists y, d'. split; [easy|]. split; [easy|].
          destruct Hy as [[_ Hy]|Hy]; [now left|now right].
        + exact Hnone.
        + intros d Hd. apply (IH k' d); [easy|now apply Hnone|easy].
    Qed.
    Lemma has_endless sha : sha_ok sha -> forall fuel k d, endless k -> ~ content sha k -> good k d -> fst (db_has F fuel sha d) = Diverge.
    Proof.
      intros Hs. induction fuel as [|fuel IH]; intros k d He Hno Hd; (destruct d as [r s|r known|r dbs|r dbs]; [inversion Hd; subst; easy..| |]); try easy.
      - assert (k = KGit r) as -> by (inversion Hd; easy). cbn [db_has]. destruct (use_git F U scope r dbs (c_has (db_has F fuel) sha) Hd) as (_ & c & -> & Hready & Hst).
        pose proof (query_endless fuel r _ _ c sha Hs Hready Hst He Hno IH) as H. unfold in_git, c_has. cbn [fst]. destruct (db_query (db_has F fuel) sha c) as [x c']. cbn [fst] in H. now subst x.
      - assert (k = KRef r) as -> by (inversion Hd; easy). cbn [db_has]. destruct (use_ref F U scope Horder Hscope Hclosed r dbs (c_has (db_has F fuel) sha) Hd) as (_ & c & ks & -> & Hready & Hst).
        pose proof (query_endless fuel r _ _ c sha Hs Hready Hst He Hno IH) as H. unfold in_ref, c_has. cbn [fst]. destruct (db_query (db_has F fuel) sha c) as [x c']. cbn [fst] in H. now subst x.
    Qed.
    Lemma info_endless sha : sha_ok sha -> forall fuel k d, endless k -> ~ content sha k -> good k d -> fst (db_info K F fuel sha d) = Diverge.
    Proof.
      intros Hs fuel k d He Hno Hd. destruct fuel as [|fuel]; (destruct d as [r s|r known|r dbs|r dbs]; [inversion Hd; subst; easy..| |]); try easy.
      - assert (k = KGit r) as -> by (inversion Hd; easy). cbn [db_info]. destruct (use_git F U scope r dbs (c_ask (db_has F fuel) (db_info K F fuel) sha) Hd) as (_ & c & -> & Hready & Hst).
        pose proof (query_endless fuel r _ _ c sha Hs Hready Hst He Hno (has_endless sha Hs fuel)) as H. unfold in_git, c_ask. cbn [fst]. destruct (db_query (db_has F fuel) sha c) as [x c']. cbn [fst] in H. now subst x.
      - assert (k = KRef r) as -> by (inversion Hd; easy). cbn [db_info]. destruct (use_ref F U scope Horder Hscope Hclosed r dbs (c_ask (db_has F fuel) (db_info K F fuel) sha) Hd) as (_ & c & ks & -> & Hready & Hst).
        pose proof (query_endless fuel r _ _ c sha Hs Hready Hst He Hno (has_endless sha Hs fuel)) as H. unfold in_ref, c_ask. cbn [fst]. destruct (db_query (db_has F fuel) sha c) as [x c']. cbn [fst] in H. now subst x.
    Qed.
    (** Lists, sizes, updates *)
    Lemma on_each_endless {A B} (f : db -> res A * db) (g : list A -> B) r k ks c : ready F r k ks -> Forall2 good ks (c_dbs c) -> endless k ->
      (forall k d, good k d -> fst (f d) = Diverge \/ exists a, fst (f d) = Ok a) -> (forall k d, endless k -> good k d -> fst (f d) = Diverge) ->
      fst (on_each f g c) = Diverge.
    Proof.
      intros Hready Hl He Ha IH. destruct (endless_member r k ks Hready He) as (k' & Hk' & He').
      unfold on_each. pose proof (each_diverges good f ks (c_dbs c) k' Hl (fun k2 d _ H => Ha k2 d H) Hk' (fun d H => IH k' d He' H)) as H.
      destruct (each f (c_dbs c)) as [x l]. cbn [fst] in *. now subst x.
    Qed.
    Lemma iter_endless : forall fuel k d, endless k -> good k d -> fst (db_iter F fuel d) = Diverge.
    Proof.
      induction fuel as [|fuel IH]; intros k d He Hd; (destruct d as [r s|r known|r dbs|r dbs]; [inversion Hd; subst; easy..| |]); try easy.
      all: assert (Ha : forall k d, good k d -> fst (db_iter F fuel d) = Diverge \/ exists a, fst (db_iter F fuel d) = Ok a)
        by (intros k2 d2 H2; destruct (iter_ok F U K scope Horder Hscope Hclosed 0 fuel k2 d2 H2) as (x & d' & -> & _ & [[_ ->]|(l & -> & _)]); [now left|right; now exists l]).
      - assert (k = KGit r) as -> by (inversion Hd; easy). cbn [db_iter]. destruct (use_git F U scope r dbs (c_iter (db_iter F fuel)) Hd) as (_ & c & -> & Hready & Hst).
        apply (on_each_endless (db_iter F fuel) (@concat bytes) r _ _ c Hready (proj1 Hst) He Ha IH).
      - assert (k = KRef r) as -> by (inversion Hd; easy). cbn [db_iter]. destruct (use_ref F U scope Horder Hscope Hclosed r dbs (c_iter (db_iter F fuel)) Hd) as (_ & c & ks & -> & Hready & Hst).
        apply (on_each_endless (db_iter F fuel) (@concat bytes) r _ _ c Hready (proj1 Hst) He Ha IH).
    Qed.
    Lemma size_endless : forall fuel k d, endless k -> good k d -> fst (db_size F fuel d) = Diverge.
    Proof.
      induction fuel as [|fuel IH]; intros k d He Hd; (destruct d as [r s|r known|r dbs|r dbs]; [inversion Hd; subst; easy..| |]); try easy.
      all: assert (Ha : forall k d, good k d -> fst (db_size F fuel d) = Diverge \/ exists a, fst (db_size F fuel d) = Ok a)
        by (intros k2 d2 H2; destruct (size_ok F U K scope Horder Hscope Hclosed 0 fuel k2 d2 H2) as (x & d' & -> & _ & [[_ ->]|(l & -> & _)]); [now left|right; now exists l]).
      - assert (k = KGit r) as -> by (inversion Hd; easy). cbn [db_size]. destruct (use_git F U scope r dbs (c_size (db_size F fuel)) Hd) as (_ & c & -> & Hready & Hst).
        apply (on_each_endless (db_size F fuel) (fun l => fold_left Z.add l 0) r _ _ c Hready (proj1 Hst) He Ha IH).
      - assert (k = KRef r) as -> by (inversion Hd; easy). cbn [db_size]. destruct (use_ref F U scope Horder Hscope Hclosed r dbs (c_size (db_size F fuel)) Hd) as (_ & c & ks & -> & Hready & Hst).
        apply (on_each_endless (db_size F fuel) (fun l => fold_left Z.add l 0) r _ _ c Hready (proj1 Hst) He Ha IH).
    Qed.
    Lemma update_endless force : forall fuel k d, endless k -> good k d -> fst (db_update F fuel force d) = Diverge.
    Proof.
      induction fuel as [|fuel IH]; intros k d He Hd; (destruct d as [r s|r known|r dbs|r dbs]; [inversion Hd; subst; easy..| |]); try easy.
      all: assert (Ha : forall k d, good k d -> fst (db_update F fuel force d) = Diverge \/ exists a, fst (db_update F fuel force d) = Ok a)
        by (intros k2 d2 H2; destruct (update_good F U scope Horder Hscope Hclosed 0 fuel force k2 d2 H2) as (x & d' & -> & _ & [[_ ->]|(l & ->)]); [now left|right; now exists l]).
      - assert (k = KGit r) as -> by (inversion Hd; easy). cbn [db_update]. destruct (use_git F U scope r dbs (c_update (db_update F fuel force)) Hd) as (_ & c & -> & Hready & Hst).
        apply (on_each_endless (db_update F fuel force) (fun l => existsb (fun b => b) l) r _ _ (mk_compound (c_dbs c) []) Hready (proj1 Hst) He Ha IH).
      - assert (k = KRef r) as -> by (inversion Hd; easy). cbn [db_update].
        assert (exists R, f_repo F r = Some R) as (R & HR) by (inversion Hd; subst; eauto).
        assert (scope r) as Hr0 by (inversion Hd; easy). destruct (paths_ok F U scope Hscope r R Hr0 HR) as (paths & Ep & _). rewrite Ep.
        match goal with |- context [with_dbs (ref_load F r) dbs ?f] => destruct (use_ref F U scope Horder Hscope Hclosed r dbs f Hd) as (Hr & c & ks & -> & Hready & Hst) end. cbv beta.
        assert (Hks : ref_kinds F r ks) by (destruct Hready as [(E & _)|(_ & _ & Hks)]; [discriminate|easy]).
        rewrite (ref_again F U scope Horder Hscope r R ks (c_dbs c) paths Hr HR Hks (proj1 Hst) Ep).
        apply (on_each_endless (db_update F fuel force) (fun l => existsb (fun b => b) l) r _ _ (mk_compound (c_dbs c) []) Hready (proj1 Hst) He Ha IH).
    Qed.
  End Endless.
End Main.
