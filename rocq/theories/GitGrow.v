(** GitDB: objects of the repository itself, names listed, updates after changes on disk. *)
From Coq Require Import ZifyBool ZifyNat Permutation Relations Sorting.Sorted.
From Verif Require Import Py PyFacts FunModel FunSpec IndexModel IndexSpec ZlibModel ReaderModel PackModel PackSpec OsModel LooseModel PackDbModel PackDbSpec PackDbProofs PackDbTop
  MemModel MemProofs CompoundModel CompoundSpec CompoundProofs GitModel GitSpec GitProofs GitTop GitMain.
Ltac Zify.zify_post_hook ::= Z.div_mod_to_equations.

(** ** Names that are listed *)
Section Listed.
  Context (F : fs) (U : list Z -> bytes -> option pack).
  Section Ind.
    Context (P : list Z -> list bytes -> Prop).
    Context (H : forall r lp ll ps ls, packs_list F U r lp -> loose_list F r ll -> NoDup ps -> (forall p, alternate F r p <-> In p ps) ->
      Forall2 (listing F U) ps ls -> Forall2 P ps ls -> P r (lp ++ ll ++ concat ls)).
    Fixpoint listing_ind' r l (x : listing F U r l) : P r l :=
      match x in listing _ _ r l return P r l with
      | listing_repo _ _ r lp ll ps ls H1 H2 H3 H4 H5 =>
          H r lp ll ps ls H1 H2 H3 H4 H5
            ((fix go ps ls (y : Forall2 (listing F U) ps ls) : Forall2 P ps ls :=
                match y in Forall2 _ ps ls return Forall2 P ps ls with
                | Forall2_nil _ => Forall2_nil P
                | Forall2_cons p l h t => Forall2_cons p l (listing_ind' p l h) (go _ _ t)
                end) ps ls H5)
      end.
  End Ind.
  Lemma packs_listed r l : packs_list F U r l -> forall sha, In sha l <-> in_packs F U r sha.
  Proof.
    intros (R & HR & H) sha. unfold in_packs. destruct (r_pack R) as [d|] eqn:Ed.
    - destruct H as (ks & (H1 & H2 & H3) & ->). rewrite in_concat. split.
      + intros (s & Hs & Hin). apply in_map_iff in Hs as ([n k] & <- & Hk). exists R, d, n, k. split; [easy|]. split; [easy|]. split; [apply H3; apply in_map_iff; now exists (n, k)|]. split; [now apply H2|easy].
      + intros (R' & d' & n & k & HR' & Hd' & Hp & Hu & Hin). assert (R' = R) by congruence. subst R'. assert (d' = d) by congruence. subst d'.
        apply H3 in Hp. apply in_map_iff in Hp as ([n' k'] & E & Hk). cbn in E. subst n'. pose proof (H2 n k' Hk). assert (k' = k) by congruence. subst k'.
        exists (k_shas k). split; [|easy]. apply in_map_iff. now exists (n, k).
    - subst l. split; [easy|]. intros (R' & d' & n & k & HR' & Hd' & _). congruence.
  Qed.
  Lemma loose_listed r l : loose_list F r l -> forall sha, In sha l <-> is_loose_in F r sha.
  Proof.
    intros (R & HR & ->) sha. rewrite in_map_iff. split.
    - intros ([s c] & <- & H). now exists R, c.
    - intros (R' & c & HR' & H). assert (R' = R) by congruence. subst R'. now exists (sha, c).
  Qed.
  Lemma listing_in r l : listing F U r l -> forall sha, In sha l <-> found F U r sha.
  Proof.
    revert r l. apply (listing_ind' (fun r l => forall sha, In sha l <-> found F U r sha)). intros r lp ll ps ls Hp Hl Hnd Hps _ IH sha. rewrite !in_app_iff, (packs_listed r lp Hp), (loose_listed r ll Hl). split.
    - intros [H|[H|H]]; [exists r; split; [apply rt_refl|now left]|exists r; split; [apply rt_refl|now right]|].
      apply in_concat in H as (l & Hl' & Hin). assert (exists p, In p ps /\ found F U p sha) as (p & Hp' & r' & Hr' & Hh).
      { clear - IH Hl' Hin. induction IH as [|p l' ps ls Hpl _ IHl]; [easy|]. destruct Hl' as [-> |Hl']; [exists p; split; [now left|now apply Hpl]|]. destruct (IHl Hl') as (q & H1 & H2). exists q. split; [now right|easy]. }
      exists r'. split; [|easy]. apply rt_trans with p; [apply rt_step; now apply Hps|easy].
    - intros (r' & Hr' & Hh). apply clos_rt_rt1n in Hr'. inversion Hr' as [|p ? Hp' Hrest]; subst; [destruct Hh; tauto|]. right. right. apply Hps in Hp'.
      assert (found F U p sha) as Hf by (exists r'; split; [now apply clos_rt1n_rt|easy]). apply in_concat. clear - IH Hp' Hf.
      induction IH as [|q l' ps ls Hpl _ IHl]; [easy|]. destruct Hp' as [-> |Hp']; [exists l'; split; [now left|now apply Hpl]|]. destruct (IHl Hp') as (l & H1 & H2). exists l. split; [now right|easy].
  Qed.
End Listed.

(** ** Objects of the repository itself *)
Lemma first_with_reached {M K} (Rel : K -> M -> Prop) (has : bytes -> M -> res bool * M) sha (content : K -> Prop) ks1 : forall k ks l i, Forall2 Rel (ks1 ++ k :: ks) l ->
  (forall k', In k' (ks1 ++ [k]) -> answers Rel has sha content False k') -> content k ->
  exists j l', first_with has sha i l = (Ok (Some j), l').
Proof.
  induction ks1 as [|k1 ks1 IH]; intros k ks l i Hl Ha Hc; cbn [app] in Hl; inversion Hl as [|? m ? l0 Hm Hl0]; subst; cbn [first_with].
  - destruct (Ha k (or_introl eq_refl) m Hm) as (r & m' & -> & _ & [[[] _]|(b & -> & Hb)]). replace b with true by (symmetry; now apply Hb). now eexists _, _.
  - destruct (Ha k1 (or_introl eq_refl) m Hm) as (r & m' & -> & _ & [[[] _]|(b & -> & Hb)]). destruct b; [now eexists _, _|].
    destruct (IH k ks l0 (S i) Hl0 (fun k' H' => Ha k' (or_intror H')) Hc) as (j & l' & ->). now eexists _, _.
Qed.
Section Own.
  Context (F : fs) (U : list Z -> bytes -> option pack) (K : zlib) (scope : list Z -> Prop).
  Hypothesis Horder : forall l, Permutation (f_order F l) l.
  Hypothesis Hscope : forall r, scope r -> proper_repo F U r.
  Hypothesis Hclosed : forall r p, scope r -> alternate F r p -> scope p.
  Lemma own_has fuel r d sha : sha_ok sha -> good F U scope (KGit r) d -> repo_has F U r sha -> fst (db_has F (S fuel) sha d) = Ok true.
  Proof.
    intros Hs Hd Hh. assert (exists dbs, d = Git r dbs) as (dbs & ->) by (inversion Hd; subst; eauto).
    cbn [db_has]. destruct (use_git F U scope r dbs (c_has (db_has F fuel) sha) Hd) as (Hr & c & -> & Hready & Hst). unfold in_git. cbn [fst].
    assert (Hu : usable F r) by (inversion Hd; subst; easy). destruct Hu as [Hne (R & HR)].
    unfold c_has, db_query. destruct (dict_get sha (c_cache c)); [easy|].
    assert (Hbase : forall k, k = KPacked r \/ k = KLoose r -> answers (good F U scope) (db_has F fuel) sha (content F U sha) False k).
    { intros k Hk d' Hd'. destruct (has_ok F U K scope Horder Hscope Hclosed 0 fuel k d' sha Hs Hd') as (x & d2 & E & Hd2 & Hx). exists x, d2. split; [easy|]. split; [easy|].
      destruct Hx as [[Hx _]|Hx]; [|now right]. exfalso. apply Hx. destruct Hk as [-> | ->]; constructor. lia. }
    assert (exists j l', first_with (db_has F fuel) sha 0 (c_dbs c) = (Ok (Some j), l')) as (j & l' & ->); [|easy].
    destruct Hst as [Hl _]. unfold kinds, git_members in Hl. rewrite HR in Hl. rewrite !map_app in Hl. destruct r as [|c0 r]; [easy|].
    destruct Hh as [Hh|Hh].
    - pose proof Hh as (R' & d' & n & k & HR' & Hd' & _). assert (R' = R) by congruence. subst R'. rewrite Hd' in Hl.
      apply (first_with_reached (good F U scope) (db_has F fuel) sha (content F U sha) [] (KPacked (c0 :: r)) _ (c_dbs c) 0 Hl); [|easy]. intros k' [<- |[]]. apply Hbase. now left.
    - apply (first_with_reached (good F U scope) (db_has F fuel) sha (content F U sha) (map kind_of match r_pack R with Some _ => [Packed (c0 :: r) packed_init] | None => [] end) (KLoose (c0 :: r)) _ (c_dbs c) 0 Hl); [|easy].
      intros k' Hk'. apply Hbase. apply in_app_iff in Hk' as [Hk'|[<- |[]]]; [|now right]. destruct (r_pack R); [|easy]. destruct Hk' as [<- |[]]. now left.
  Qed.
End Own.

(** ** An update after changes *)
Lemma nodup_app A (a b : list A) : NoDup a -> NoDup b -> (forall x, In x a -> ~ In x b) -> NoDup (a ++ b).
Proof.
  induction 1 as [|x a Hx _ IH]; intros Hb H; [easy|]. cbn [app]. constructor; [|apply IH; [easy|intros y Hy; apply H; now right]].
  rewrite in_app_iff. intros [H1|H1]; [contradiction|]. now apply (H x (or_introl eq_refl)).
Qed.
Definition grows (F F' : fs) (scope : list Z -> Prop) : Prop :=
  forall r R, scope r -> f_repo F r = Some R -> exists R', f_repo F' r = Some R' /\
    (r_pack R = None <-> r_pack R' = None) /\ (r_alt R = None <-> r_alt R' = None) /\ incl (map fst (r_loose R)) (map fst (r_loose R')).
Lemma each_moves {M K A} (Rel Rel' : K -> M -> Prop) (f : M -> res A * M) ks l t l' : Forall2 Rel ks l ->
  (forall k m a m', In k ks -> Rel k m -> f m = (Ok a, m') -> Rel' k m') -> each f l = (Ok t, l') -> Forall2 Rel' ks l'.
Proof.
  intros H. revert t l'. induction H as [|k m ks l Hk Hl IH]; intros t l' Hf E; cbn [each] in E; [injection E as _ <-; constructor|].
  destruct (f m) as [x m'] eqn:Em. destruct x as [a| |]; [|easy..]. destruct (each f l) as [y l2] eqn:El. destruct y as [t'| |]; cbn [bind] in E; [|easy..]. injection E as _ <-.
  constructor; [apply (Hf k m a m'); [now left|easy..]|]. apply (IH t' l2); [|easy]. intros k0 m0 a0 m0' H0. apply Hf. now right.
Qed.
Section Grow.
  Context (F F' : fs) (U : list Z -> bytes -> option pack) (scope scope' : list Z -> Prop).
  Hypothesis Horder' : forall l, Permutation (f_order F' l) l.
  Hypothesis Hscope' : forall r, scope' r -> proper_repo F' U r.
  Hypothesis Hclosed' : forall r p, scope' r -> alternate F' r p -> scope' p.
  Hypothesis Hgrow : grows F F' scope.

  Definition root_of (k : kind) : list Z := match k with KPacked r => r | KLoose r => r | KGit r => r | KRef r => r end.
  Lemma grow_usable r : scope r -> usable F r -> usable F' r.
  Proof. intros Hr [Hne (R & HR)]. split; [easy|]. destruct (Hgrow r R Hr HR) as (R' & HR' & _). now exists R'. Qed.
  Lemma grow_kinds r : scope r -> usable F r -> kinds F' r = kinds F r.
  Proof.
    intros Hr [Hne (R & HR)]. destruct (Hgrow r R Hr HR) as (R' & HR' & Hp & Ha & _). unfold kinds, git_members. rewrite HR, HR'. f_equal. f_equal; [|f_equal].
    - destruct (r_pack R), (r_pack R'); [easy|discriminate (proj2 Hp eq_refl)|discriminate (proj1 Hp eq_refl)|easy].
    - destruct (r_alt R), (r_alt R'); [easy|discriminate (proj2 Ha eq_refl)|discriminate (proj1 Ha eq_refl)|easy].
  Qed.
  Lemma good_usable k r d : k = KGit r -> good F U scope k d -> scope r /\ usable F r /\ db_root d = r.
  Proof. intros -> H. inversion H; subst; easy. Qed.

  (** What a refresh makes of the databases of a ReferenceDB. *)
  Lemma refreshed r R R' ks c paths : scope r -> scope' r -> f_repo F r = Some R -> f_repo F' r = Some R' -> ref_kinds F r ks -> Forall2 (good F U scope) ks (c_dbs c) ->
    (forall p, usable F' p -> In p paths <-> alternate F' r p) ->
    exists l ps', ref_refresh F' paths (c_dbs c) = (Ok tt, l) /\ NoDup ps' /\ (forall p, alternate F' r p <-> In p ps') /\
      Forall2 (fun k d => good F U scope k d \/ good F' U scope' k d) (map KGit ps') l.
  Proof.
    intros Hr Hr' HR HR' Hks Hl Hp.
    destruct Hks as (ps & -> & Hnd & Hps). pose proof (kinds_roots F U scope ps (c_dbs c) Hl) as Hroots.
    rewrite ref_refresh_ok; [|easy|now rewrite Hroots]. rewrite Hroots.
    set (kept := filter (fun d => mem (db_root d) paths) (c_dbs c)).
    match goal with |- context [filter ?f (once paths)] => set (new := filter f (once paths)) end.
    set (ps' := filter (fun p => mem p paths) ps ++ new).
    assert (Hps' : forall p, alternate F' r p <-> In p ps').
    { intros p. unfold ps', new. rewrite in_app_iff, !filter_In, once_in, andb_true_iff, negb_true_iff. split.
      - intros Ha. pose proof (alternate_usable F' r p Ha) as Hu. apply Hp in Ha; [|easy]. destruct (mem p ps) eqn:Em.
        + left. split; [now apply mem_in|now apply mem_in].
        + right. split; [easy|]. split; [easy|now apply usable_iff].
      - intros [[H1 H2]|(H1 & _ & H2)].
        + apply mem_in in H2. apply Hp; [|easy]. assert (In (KGit p) (map KGit ps)) as H3 by now apply in_map.
          assert (exists d0, good F U scope (KGit p) d0) as (d0 & Hd0).
          { clear - Hl H3. induction Hl as [|k d ks l Hk _ IHl]; [easy|]. destruct H3 as [-> |H3]; [now exists d|now apply IHl]. }
          destruct (good_usable (KGit p) p d0 eq_refl Hd0) as (Hs & Hu & _). now apply grow_usable.
        + apply Hp; [now apply usable_iff|easy]. }
    assert (Hnd' : NoDup ps').
    { unfold ps'. apply nodup_app; [now apply NoDup_filter|apply NoDup_filter, once_nodup|]. intros p H1 H2. unfold new in H2. apply filter_In in H1 as [H1 _], H2 as [_ H2].
      apply andb_true_iff in H2 as [H2 _]. apply negb_true_iff, mem_out in H2. contradiction. }
    assert (Hl' : Forall2 (fun k d => good F U scope k d \/ good F' U scope' k d) (map KGit ps') (kept ++ map (new_git F') new)).
    { unfold ps'. rewrite map_app. apply Forall2_app.
      - unfold kept. clear - Hl. revert Hl. generalize (c_dbs c). induction ps as [|p ps IHp]; intros l Hl; inversion Hl as [|? d ? l' Hd Hl']; subst; [constructor|]. cbn [filter].
        destruct (good_usable (KGit p) p d eq_refl Hd) as (_ & _ & ->). destruct (mem p paths); [cbn [map]; constructor; [now left|now apply IHp]|now apply IHp].
      - assert (Hall : forall p, In p new -> scope' p /\ usable F' p).
        { intros p Hin. assert (alternate F' r p) as Ha by (apply Hps'; unfold ps'; apply in_app_iff; now right). split; [now apply (Hclosed' r)|now apply alternate_usable in Ha]. }
        clear - Hall. induction new as [|p new IHn]; [constructor|]. cbn [map]. constructor; [|apply IHn; intros q Hq; apply Hall; now right].
        right. destruct (Hall p (or_introl eq_refl)). now apply new_git_good. }
    exists (kept ++ map (new_git F') new), ps'. now split.
  Qed.

  Lemma update_grows fuel : forall k d b d', scope' (root_of k) -> good F U scope k d -> db_update F' fuel true d = (Ok b, d') -> good F' U scope' k d'.
  Proof.
    assert (Hpacked : forall n r s b d', scope' r -> good F U scope (KPacked r) (Packed r s) -> db_update F' n true (Packed r s) = (Ok b, d') -> good F' U scope' (KPacked r) d').
    { intros n r s b d' Hr' H E. inversion H as [? ? v R d Hr HR Hd Hrep Hv| | | | |]; subst. destruct (Hgrow r R Hr HR) as (R' & HR' & Hp & _).
      destruct (r_pack R') as [dd|] eqn:Ed; [|rewrite (proj2 Hp eq_refl) in Hd; discriminate].
      destruct (Hscope' r Hr' R' HR') as (Hpk & _). destruct (Hpk dd Ed) as [Hn Ht].
      assert (Hop : proper_op (U r) (Update (pack_env F' r) true) v).
      { exists dd. split; [cbn [op_env]; unfold pack_env; rewrite HR', Ed; now split|]. split; [easy|]. now destruct (v_known v). }
      destruct (update_ok (U r) (pack_env F' r) true v s Hop Hrep) as (d2 & s' & _ & E2 & Hrep').
      assert (Packed r s' = d') as <- by (destruct n; cbn [db_update] in E; unfold in_packed in E; rewrite E2 in E; cbn [fst snd] in E; congruence).
      apply (good_packed F' U scope' r s' (view_after (Update (pack_env F' r) true) v) R' dd); try easy. right. exists (packs_in dd).
      split; [|easy]. unfold view_after. cbn [op_env]. assert (e_dir (pack_env F' r) = Some dd) as -> by (unfold pack_env; cbn [e_dir]; now rewrite HR'). reflexivity. }
    assert (Hloose : forall r known, scope' r -> good F U scope (KLoose r) (Loose r known) -> good F' U scope' (KLoose r) (Loose r known)).
    { intros r known Hr' H. inversion H as [|? ? R Hr HR Hk| | | |]; subst. destruct (Hgrow r R Hr HR) as (R' & HR' & _ & _ & Hi). apply (good_loose F' U scope' r known R'); try easy.
      intros sha Hs. apply Hk in Hs. destruct Hs as (R2 & c & HR2 & Hin). assert (R2 = R) by congruence. subst R2.
      assert (In sha (map fst (r_loose R'))) as Hin' by (apply Hi; apply in_map_iff; now exists (sha, c)). apply in_map_iff in Hin' as ([s c'] & E & Hin'). cbn in E. subst s. now exists R', c'. }
    induction fuel as [|fuel IH]; intros k d b d' Hr' Hd E.
    - destruct d as [r s|r known|r dbs|r dbs].
      + inversion Hd; subst. now apply (Hpacked 0%nat r s b).
      + cbn [db_update] in E. injection E as _ <-. inversion Hd; subst. now apply Hloose.
      + discriminate.
      + discriminate.
    - assert (Hnew : forall k0 d0 b0 d0', good F' U scope' k0 d0 -> db_update F' fuel true d0 = (Ok b0, d0') -> good F' U scope' k0 d0').
      { intros k0 d0 b0 d0' H0 E0. destruct (update_good F' U scope' Horder' Hscope' Hclosed' 0 fuel true k0 d0 H0) as (x & d2 & E2 & H2 & _). rewrite E2 in E0. now injection E0 as _ <-. }
      destruct d as [r s|r known|r dbs|r dbs].
      + inversion Hd; subst. now apply (Hpacked (S fuel) r s b).
      + cbn [db_update] in E. injection E as _ <-. inversion Hd; subst. now apply Hloose.
      + assert (k = KGit r) as -> by (inversion Hd; easy). cbn [root_of] in Hr'. inversion Hd as [| |? Hr Hu|? c Hr Hu Hl Hc| |]; subst.
        * destruct (update_good F' U scope' Horder' Hscope' Hclosed' 0 (S fuel) true (KGit r) (Git r None)) as (x & d2 & E2 & H2 & _); [constructor; [easy|now apply grow_usable]|].
          rewrite E2 in E. now injection E as _ <-.
        * cbn [db_update with_dbs] in E. unfold c_update, on_each in E. cbn [c_dbs c_cache] in E. destruct (each (db_update F' fuel true) (c_dbs c)) as [x l] eqn:El.
          unfold in_git in E. cbn [fst snd] in E. destruct x as [t| |]; cbn [bind] in E; [|easy..]. injection E as _ <-.
          apply good_git; [easy|now apply grow_usable| |apply empty_cache]. cbn [c_dbs]. rewrite grow_kinds by easy.
          apply (each_moves (good F U scope) (good F' U scope') (db_update F' fuel true) (kinds F r) (c_dbs c) t l Hl); [|easy]. intros k m a m' Hk Hm Em. apply (IH k m a m'); [|easy..].
          unfold kinds, git_members in Hk. destruct (f_repo F r) as [R|]; [|easy]. rewrite !map_app, !in_app_iff in Hk. destruct Hk as [Hk|[Hk|Hk]].
          -- destruct (r_pack R); [|easy]. now destruct Hk as [<- |[]].
          -- destruct r; [easy|]. now destruct Hk as [<- |[]].
          -- destruct (r_alt R); [|easy]. now destruct Hk as [<- |[]].
      + assert (k = KRef r) as -> by (inversion Hd; easy). cbn [root_of] in Hr'. inversion Hd as [| | | |? R Hr HR|? R ks c Hr HR Hks Hl Hc]; subst; destruct (Hgrow r R Hr HR) as (R' & HR' & _).
        * destruct (update_good F' U scope' Horder' Hscope' Hclosed' 0 (S fuel) true (KRef r) (Ref r None)) as (x & d2 & E2 & H2 & _); [now apply (good_ref_new _ _ _ _ R')|].
          rewrite E2 in E. now injection E as _ <-.
        * destruct (paths_ok F' U scope' Hscope' r R' Hr' HR') as (paths & Ep & Hp). cbn [db_update] in E. rewrite Ep in E. cbn [with_dbs] in E.
          destruct (refreshed r R R' ks c paths Hr Hr' HR HR' Hks Hl Hp) as (l0 & ps' & Eref & Hnd' & Hps' & Hl'). rewrite Eref in E.
          unfold c_update, on_each in E. cbn [c_dbs c_cache] in E. destruct (each (db_update F' fuel true) l0) as [x l] eqn:El.
          unfold in_ref in E. cbn [fst snd] in E. destruct x as [t| |]; cbn [bind] in E; [|easy..]. injection E as _ <-.
          apply (good_ref F' U scope' r R' (map KGit ps')); [easy|easy|now exists ps'| |apply empty_cache]. cbn [c_dbs].
          apply (each_moves _ (good F' U scope') (db_update F' fuel true) _ _ t l Hl'); [|easy]. intros k m a m' Hk Hm Em. destruct Hm as [Hm|Hm]; [|now apply (Hnew k m a m')].
          apply (IH k m a m'); [|easy..]. apply in_map_iff in Hk as (p & <- & Hin). cbn [root_of]. apply (Hclosed' r); [easy|now apply Hps'].
  Qed.
  Lemma each_returns {M K A} (Rel : K -> M -> Prop) (f : M -> res A * M) ks l : Forall2 Rel ks l ->
    (forall k m, In k ks -> Rel k m -> exists a m', f m = (Ok a, m')) -> exists t l', each f l = (Ok t, l').
  Proof.
    induction 1 as [|k m ks l Hk Hl IH]; intros Hf; cbn [each]; [now eexists _, _|]. destruct (Hf k m (or_introl eq_refl) Hk) as (a & m' & ->).
    destruct IH as (t & l' & ->); [|now eexists _, _]. intros k0 m0 H0. apply Hf. now right.
  Qed.
  (** The update returns. *)
  Lemma update_returns m fuel : forall k d, scope' (root_of k) -> good F U scope k d -> enough F' m fuel k -> exists b d', db_update F' fuel true d = (Ok b, d').
  Proof.
    assert (Hpacked : forall n r s, scope' r -> good F U scope (KPacked r) (Packed r s) -> exists b d', db_update F' n true (Packed r s) = (Ok b, d')).
    { intros n r s Hr' H. inversion H as [? ? v R d Hr HR Hd Hrep Hv| | | | |]; subst. destruct (Hgrow r R Hr HR) as (R' & HR' & Hp & _).
      destruct (r_pack R') as [dd|] eqn:Ed; [|rewrite (proj2 Hp eq_refl) in Hd; discriminate].
      destruct (Hscope' r Hr' R' HR') as (Hpk & _). destruct (Hpk dd Ed) as [Hn Ht].
      assert (Hop : proper_op (U r) (Update (pack_env F' r) true) v).
      { exists dd. split; [cbn [op_env]; unfold pack_env; rewrite HR', Ed; now split|]. split; [easy|]. now destruct (v_known v). }
      destruct (update_ok (U r) (pack_env F' r) true v s Hop Hrep) as (d2 & s' & _ & E2 & Hrep').
      destruct n; cbn [db_update]; unfold in_packed; rewrite E2; now eexists _, _. }
    induction fuel as [|fuel IH]; intros k d Hr' Hd He.
    - destruct d as [r s|r known|r dbs|r dbs].
      + inversion Hd; subst. now apply Hpacked.
      + now eexists _, _.
      + inversion Hd; subst; inversion He.
      + inversion Hd; subst; inversion He.
    - assert (Hnew : forall k0 d0, good F' U scope' k0 d0 -> enough F' m fuel k0 -> exists b d', db_update F' fuel true d0 = (Ok b, d')).
      { intros k0 d0 H0 E0. destruct (update_good F' U scope' Horder' Hscope' Hclosed' m fuel true k0 d0 H0) as (x & d2 & E2 & H2 & [[H3 _]|(b & ->)]); [contradiction|now exists b, d2]. }
      destruct d as [r s|r known|r dbs|r dbs].
      + inversion Hd; subst. now apply Hpacked.
      + now eexists _, _.
      + assert (k = KGit r) as -> by (inversion Hd; easy). cbn [root_of] in Hr'. inversion Hd as [| |? Hr Hu|? c Hr Hu Hl Hc| |]; subst.
        * destruct (update_good F' U scope' Horder' Hscope' Hclosed' m (S fuel) true (KGit r) (Git r None)) as (x & d2 & E2 & H2 & [[H3 _]|(b & ->)]); [constructor; [easy|now apply grow_usable]|contradiction|now exists b, d2].
        * cbn [db_update with_dbs]. unfold c_update, on_each. cbn [c_dbs c_cache].
          assert (exists t l, each (db_update F' fuel true) (c_dbs c) = (Ok t, l)) as (t & l & ->); [|now eexists _, _].
          apply (each_returns (good F U scope) _ (kinds F r) (c_dbs c) Hl). intros k d Hk Hkd. rewrite <- (grow_kinds r Hr Hu) in Hk. apply (IH k d); [|easy|].
          -- unfold kinds, git_members in Hk. destruct (f_repo F' r) as [R|]; [|easy]. rewrite !map_app, !in_app_iff in Hk. destruct Hk as [Hk|[Hk|Hk]].
             ++ destruct (r_pack R); [|easy]. now destruct Hk as [<- |[]].
             ++ destruct r; [easy|]. now destruct Hk as [<- |[]].
             ++ destruct (r_alt R); [|easy]. now destruct Hk as [<- |[]].
          -- apply (enough_member F' m r (KGit r) (kinds F' r)); [|easy..]. left. split; [easy|]. split; [now apply grow_usable|easy].
      + assert (k = KRef r) as -> by (inversion Hd; easy). cbn [root_of] in Hr'. inversion Hd as [| | | |? R Hr HR|? R ks c Hr HR Hks Hl Hc]; subst; destruct (Hgrow r R Hr HR) as (R' & HR' & _).
        * destruct (update_good F' U scope' Horder' Hscope' Hclosed' m (S fuel) true (KRef r) (Ref r None)) as (x & d2 & E2 & H2 & [[H3 _]|(b & ->)]); [now apply (good_ref_new _ _ _ _ R')|contradiction|now exists b, d2].
        * destruct (paths_ok F' U scope' Hscope' r R' Hr' HR') as (paths & Ep & Hp). cbn [db_update]. rewrite Ep. cbn [with_dbs].
          destruct (refreshed r R R' ks c paths Hr Hr' HR HR' Hks Hl Hp) as (l0 & ps' & -> & Hnd' & Hps' & Hl').
          unfold c_update, on_each. cbn [c_dbs c_cache]. assert (exists t l, each (db_update F' fuel true) l0 = (Ok t, l)) as (t & l & ->); [|now eexists _, _].
          apply (each_returns _ _ _ _ Hl'). intros k d Hk Hkd. assert (enough F' m fuel k) as Hek.
          { apply (enough_member F' m r (KRef r) (map KGit ps')); [|easy..]. right. split; [easy|]. split; [now exists R'|now exists ps']. }
          destruct Hkd as [Hkd|Hkd]; [|now apply (Hnew k d)]. apply (IH k d); [|easy..]. apply in_map_iff in Hk as (p & <- & Hin). cbn [root_of]. apply (Hclosed' r); [easy|now apply Hps'].
  Qed.
End Grow.
