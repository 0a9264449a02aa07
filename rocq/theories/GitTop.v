(** What GitDB answers: the members stand for parts of the file system. *)
From Coq Require Import ZifyBool ZifyNat Permutation Relations Sorting.Sorted.
From Verif Require Import Py PyFacts FunModel FunSpec IndexModel IndexSpec ZlibModel ReaderModel PackModel PackSpec OsModel LooseModel PackDbModel PackDbSpec PackDbProofs PackDbTop
  MemModel MemProofs CompoundModel CompoundSpec CompoundProofs GitModel GitSpec GitProofs.
Ltac Zify.zify_post_hook ::= Z.div_mod_to_equations.

(** What a database stands for. *)
Inductive kind := KPacked (r : list Z) | KLoose (r : list Z) | KGit (r : list Z) | KRef (r : list Z).
Definition kind_of (d : db) : kind :=
  match d with Packed r _ => KPacked r | Loose r _ => KLoose r | Git r _ => KGit r | Ref r _ => KRef r end.

Section Top.
  Context (F : fs) (U : list Z -> bytes -> option pack) (K : zlib) (scope : list Z -> Prop).
  Hypothesis Horder : forall l, Permutation (f_order F l) l.
  Hypothesis Hscope : forall r, scope r -> proper_repo F U r.
  Hypothesis Hclosed : forall r p, scope r -> alternate F r p -> scope p.

  Definition content (sha : bytes) (k : kind) : Prop :=
    match k with
    | KPacked r => in_packs F U r sha
    | KLoose r => is_loose_in F r sha
    | KGit r => found F U r sha
    | KRef r => exists p, alternate F r p /\ found F U p sha
    end.
  Definition kinds (r : list Z) : list kind := map kind_of (git_members F r).

  (** A member that has the object, and its place. *)
  Definition has_at (sha : bytes) (ks : list kind) (i : nat) (k : kind) : Prop := nth_error ks i = Some k /\ content sha k.
  Lemma has_first sha ks i k : first (content sha) ks i k -> has_at sha ks i k.
  Proof. now intros (H1 & H2 & _). Qed.
  Lemma has_in sha ks i k : has_at sha ks i k -> In k ks /\ content sha k.
  Proof. intros [H1 H2]. split; [now apply nth_error_In in H1|easy]. Qed.
  Definition cache_ok (ks : list kind) (c : compound db) : Prop :=
    forall sha i, sha_ok sha -> dict_get sha (c_cache c) = Some i -> exists k, has_at sha ks i k.
  (** The databases a ReferenceDB has. *)
  Definition ref_kinds (r : list Z) (ks : list kind) : Prop :=
    exists ps, ks = map KGit ps /\ NoDup ps /\ forall p, alternate F r p <-> In p ps.

  Inductive good : kind -> db -> Prop :=
  | good_packed r s v R d : scope r -> f_repo F r = Some R -> r_pack R = Some d -> rep (U r) v s ->
      (v_known v = None \/ exists P, v_known v = Some P /\ forall n, P n <-> packs_in d n) -> good (KPacked r) (Packed r s)
  | good_loose r known R : scope r -> f_repo F r = Some R -> (forall sha, In sha known -> is_loose_in F r sha) -> good (KLoose r) (Loose r known)
  | good_git_new r : scope r -> usable F r -> good (KGit r) (Git r None)
  | good_git r c : scope r -> usable F r -> Forall2 good (kinds r) (c_dbs c) -> cache_ok (kinds r) c -> good (KGit r) (Git r (Some c))
  | good_ref_new r R : scope r -> f_repo F r = Some R -> good (KRef r) (Ref r None)
  | good_ref r R ks c : scope r -> f_repo F r = Some R -> ref_kinds r ks -> Forall2 good ks (c_dbs c) -> cache_ok ks c -> good (KRef r) (Ref r (Some c)).

  (** ** Setting up *)
  Lemma empty_cache ks l : cache_ok ks (mk_compound l []).
  Proof. intros sha i _ H. discriminate. Qed.
  Lemma members_good r : scope r -> usable F r -> Forall2 good (kinds r) (git_members F r).
  Proof.
    intros Hr [Hne (R & HR)]. unfold kinds, git_members. rewrite HR. destruct r as [|c r]; [easy|]. rewrite !map_app. apply Forall2_app; [|apply Forall2_app].
    - destruct (r_pack R) as [d|] eqn:Ed; cbn [map]; [|constructor]. constructor; [|constructor]. apply (good_packed _ packed_init (mk_view None 0) R d); try easy. now left.
    - cbn [map]. constructor; [|constructor]. now apply (good_loose _ [] R).
    - destruct (r_alt R); cbn [map]; [|constructor]. constructor; [|constructor]. now apply (good_ref_new _ R).
  Qed.
  Lemma new_git_good r : scope r -> usable F r -> good (KGit r) (new_git F r).
  Proof. intros H1 H2. apply good_git; try easy. now apply members_good. Qed.

  Lemma paths_ok r R : scope r -> f_repo F r = Some R -> exists paths, ref_paths F r = Ok paths /\
    forall p, usable F p -> In p paths <-> alternate F r p.
  Proof.
    intros Hr HR. unfold ref_paths. rewrite HR. destruct (Hscope r Hr R HR) as (_ & _ & Halt).
    assert (Hiff : forall p, usable F p -> alternate F r p <-> exists text, r_alt R = Some (Ok text) /\ line_of text p).
    { intros p Hp. split.
      - intros ((R' & text & HR' & Ha & Hl) & _). assert (R' = R) by congruence. subst R'. now exists text.
      - intros (text & Ha & Hl). split; [now exists R, text|easy]. }
    destruct (r_alt R) as [t|] eqn:Et.
    - destruct (Halt t eq_refl) as [(text & ->)|Ht].
      + eexists. split; [reflexivity|]. intros p Hp. rewrite Hiff, lines_iff by (easy || apply Hp). split; [intros H; now exists text|intros (t & E & H); now injection E as ->].
      + exists []. split; [destruct Ht as [-> |[-> | ->]]; easy|]. intros p Hp. rewrite Hiff by easy. split; [easy|]. intros (text & E & _). destruct Ht as [Ht|[Ht|Ht]]; rewrite Ht in E; discriminate.
    - exists []. split; [easy|]. intros p Hp. rewrite Hiff by easy. split; [easy|]. now intros (text & E & _).
  Qed.
  Lemma alternate_usable r p : alternate F r p -> usable F p.
  Proof. now intros [_ H]. Qed.
  Lemma ref_load_ok r R : scope r -> f_repo F r = Some R -> exists l ks, ref_load F r = (Ok tt, l) /\ ref_kinds r ks /\ Forall2 good ks l.
  Proof.
    intros Hr HR. destruct (paths_ok r R Hr HR) as (paths & Ep & Hp). unfold ref_load. rewrite Ep, ref_refresh_ok; [|easy|constructor].
    match goal with |- context [filter ?f (once paths)] => set (ps := filter f (once paths)) end. cbn [filter map app].
    assert (Hps : forall p, alternate F r p <-> In p ps).
    { intros p. unfold ps. rewrite filter_In, once_in. unfold mem; cbn [map existsb negb andb]. rewrite usable_iff. split.
      - intros H. pose proof (alternate_usable r p H) as Hu. split; [now apply Hp|easy].
      - intros [H Hu]. now apply Hp. }
    eexists _, (map KGit ps). split; [reflexivity|]. split; [exists ps; split; [easy|]; split; [apply NoDup_filter, once_nodup|easy]|].
    assert (Hall : forall p, In p ps -> scope p /\ usable F p).
    { intros p H. apply Hps in H. split; [now apply (Hclosed r)|now apply alternate_usable in H]. }
    clearbody ps. clear - Hall Hscope. induction ps as [|p ps IH]; [constructor|]. cbn [map]. constructor; [|apply IH; intros q Hq; apply Hall; now right].
    destruct (Hall p (or_introl eq_refl)). now apply new_git_good.
  Qed.
  (** With the same file nothing changes. *)
  Lemma kinds_roots ps l : Forall2 good (map KGit ps) l -> map db_root l = ps.
  Proof.
    revert l. induction ps as [|p ps IH]; intros l H; inversion H as [|k d ks l' Hd Hl]; subst; [easy|]. cbn [map]. rewrite (IH l') by easy. f_equal. inversion Hd; easy.
  Qed.
  Lemma ref_again r R ks l paths : scope r -> f_repo F r = Some R -> ref_kinds r ks -> Forall2 good ks l -> ref_paths F r = Ok paths ->
    ref_refresh F paths l = (Ok tt, l).
  Proof.
    intros Hr HR (ps & -> & Hnd & Hps) Hl Ep. destruct (paths_ok r R Hr HR) as (paths' & Ep' & Hp). assert (paths' = paths) by congruence. subst paths'.
    pose proof (kinds_roots ps l Hl) as Hroots. rewrite ref_refresh_ok; [|easy|now rewrite Hroots]. f_equal. rewrite Hroots.
    replace (filter (fun p => negb (mem p ps) && is_usable F p) (once paths)) with ([] : list (list Z)).
    - cbn [map]. rewrite app_nil_r. apply filter_all. intros d Hd. apply mem_in. assert (alternate F r (db_root d)) as Ha by (apply Hps; rewrite <- Hroots; now apply in_map).
      apply Hp; [now apply alternate_usable in Ha|easy].
    - symmetry. match goal with |- ?x = [] => destruct x as [|p l'] eqn:E end; [easy|]. exfalso. assert (In p (p :: l')) as H by now left. rewrite <- E in H.
      apply filter_In in H as [H1 H2]. apply andb_true_iff in H2 as [H2 H3]. apply usable_iff in H3. apply (proj1 (once_in _ _)) in H1. apply Hp in H1; [|easy]. apply Hps in H1.
      apply negb_true_iff, mem_out in H2. contradiction.
  Qed.

  (** ** Contents *)
  Lemma content_git r sha : usable F r -> found F U r sha <-> exists k, In k (kinds r) /\ content sha k.
  Proof.
    intros [Hne (R & HR)]. unfold kinds, git_members. rewrite HR. split.
    - intros (r' & Hreach & Hhas). apply clos_rt_rt1n in Hreach. inversion Hreach as [|p ? Hp Hrest]; subst.
      + destruct Hhas as [Hh|Hh].
        * pose proof Hh as (R' & d & n & k & HR' & Hd & _). assert (R' = R) by congruence. subst R'. exists (KPacked r'). split; [|easy]. rewrite Hd. now left.
        * exists (KLoose r'). split; [|easy]. rewrite !map_app, !in_app_iff. right. left. destruct r'; [easy|now left].
      + exists (KRef r). split.
        * pose proof Hp as ((R' & text & HR' & Ha & _) & _). assert (R' = R) by congruence. subst R'. rewrite Ha, !map_app, !in_app_iff. right. right. now left.
        * exists p. split; [easy|]. exists r'. split; [now apply clos_rt1n_rt|easy].
    - intros (k & Hk & Hc). rewrite !map_app, !in_app_iff in Hk. destruct Hk as [Hk|[Hk|Hk]].
      + destruct (r_pack R); [|easy]. destruct Hk as [<- |[]]. exists r. split; [apply rt_refl|now left].
      + destruct r; [easy|]. destruct Hk as [<- |[]]. eexists. split; [apply rt_refl|now right].
      + destruct (r_alt R); [|easy]. destruct Hk as [<- |[]]. destruct Hc as (p & Hp & r' & Hr' & Hh). exists r'. split; [|easy]. apply rt_trans with p; [now apply rt_step|easy].
  Qed.
  Lemma content_ref r ks sha : ref_kinds r ks -> (exists p, alternate F r p /\ found F U p sha) <-> exists k, In k ks /\ content sha k.
  Proof.
    intros (ps & -> & _ & Hps). split.
    - intros (p & Hp & Hf). exists (KGit p). split; [apply in_map; now apply Hps|easy].
    - intros (k & Hk & Hc). apply in_map_iff in Hk as (p & <- & Hp). exists p. split; [now apply Hps|easy].
  Qed.

  (** ** How deep *)
  (** [m]: how much time there is at least for reading a pack *)
  Context (m : nat).
  Inductive enough : nat -> kind -> Prop :=
  | en_packed n r : (m <= n)%nat -> enough n (KPacked r)
  | en_loose n r : enough n (KLoose r)
  | en_git n r : (forall k, In k (kinds r) -> enough n k) -> enough (S n) (KGit r)
  | en_ref n r : (forall p, alternate F r p -> enough n (KGit p)) -> enough (S n) (KRef r).

  (** Using the members of a GitDB or ReferenceDB: they are set up if they were not. *)
  Definition ready (r : list Z) (k : kind) (ks : list kind) : Prop :=
    k = KGit r /\ usable F r /\ ks = kinds r \/ k = KRef r /\ (exists R, f_repo F r = Some R) /\ ref_kinds r ks.
  Definition state (ks : list kind) (c : compound db) : Prop := Forall2 good ks (c_dbs c) /\ cache_ok ks c.
  Lemma use_git {A} r dbs (f : compound db -> res A * compound db) : good (KGit r) (Git r dbs) ->
    scope r /\ exists c, with_dbs (git_load F r) dbs f = f c /\ ready r (KGit r) (kinds r) /\ state (kinds r) c.
  Proof.
    intros H. inversion H as [| |? Hr Hu|? c Hr Hu Hl Hc| |]; subst; (split; [easy|]).
    - exists (mk_compound (git_members F r) []). unfold with_dbs. rewrite git_load_ok by easy. split; [easy|]. split; [now left|]. split; [now apply members_good|apply empty_cache].
    - exists c. split; [easy|]. split; [now left|now split].
  Qed.
  Lemma use_ref {A} r dbs (f : compound db -> res A * compound db) : good (KRef r) (Ref r dbs) ->
    scope r /\ exists c ks, with_dbs (ref_load F r) dbs f = f c /\ ready r (KRef r) ks /\ state ks c.
  Proof.
    intros H. inversion H as [| | | |? R Hr HR|? R ks c Hr HR Hks Hl Hc]; subst; (split; [easy|]).
    - destruct (ref_load_ok r R Hr HR) as (l & ks & El & Hks & Hl). exists (mk_compound l []), ks. unfold with_dbs. rewrite El. split; [easy|]. split; [|split; [easy|apply empty_cache]].
      right. split; [easy|]. split; [now exists R|easy].
    - exists c, ks. split; [easy|]. split; [|now split]. right. split; [easy|]. split; [now exists R|easy].
  Qed.
  Lemma ready_content r k ks sha : ready r k ks -> content sha k <-> exists k', In k' ks /\ content sha k'.
  Proof. intros [(-> & Hu & ->)|(-> & _ & Hks)]; [now apply content_git|now apply content_ref]. Qed.
  Lemma ready_enough r k ks n : ready r k ks -> (forall k', In k' ks -> enough n k') -> enough (S n) k.
  Proof.
    intros [(-> & Hu & ->)|(-> & _ & ps & -> & _ & Hps)] H; [now constructor|]. constructor. intros p Hp. apply H. apply in_map. now apply Hps.
  Qed.
  Lemma enough_member r k ks n k' : ready r k ks -> In k' ks -> enough (S n) k -> enough n k'.
  Proof.
    intros [(-> & _ & ->)|(-> & _ & ps & -> & _ & Hps)] Hk' He; inversion He as [| |? ? H1|? ? H1]; subst; [now apply H1|].
    apply in_map_iff in Hk' as (p & <- & Hp). apply H1. now apply Hps.
  Qed.
  Lemma ready_git r ks c : scope r -> ready r (KGit r) ks -> state ks c -> good (KGit r) (Git r (Some c)).
  Proof. intros Hr [(_ & Hu & ->)|(E & _)] [H1 H2]; [now apply good_git|discriminate]. Qed.
  Lemma ready_ref r ks c : scope r -> ready r (KRef r) ks -> state ks c -> good (KRef r) (Ref r (Some c)).
  Proof. intros Hr [(E & _)|(_ & (R & HR) & Hks)] [H1 H2]; [discriminate|now apply (good_ref r R ks)]. Qed.
  Lemma state_after ks c c' sha : sha_ok sha -> state ks c -> Forall2 good ks (c_dbs c') ->
    (c_cache c' = c_cache c \/ exists i k, c_cache c' = dict_set sha i (c_cache c) /\ has_at sha ks i k) -> state ks c'.
  Proof.
    intros Hs [_ Hc] Hl H. split; [easy|]. intros sha' i Hs' Hi. destruct H as [H|(j & k & H & Hk)]; rewrite H in Hi; [now apply Hc|].
    rewrite dict_get_set in Hi. destruct (beq sha sha') eqn:E; [|now apply Hc]. apply beq_eq in E. subst sha'. injection Hi as <-. now exists k.
  Qed.

  (** ** Packs and loose objects *)
  Lemma pack_proper r R d v q : scope r -> f_repo F r = Some R -> r_pack R = Some d ->
    (v_known v = None \/ exists P, v_known v = Some P /\ forall n, P n <-> packs_in d n) -> proper_op (U r) (Query (pack_env F r) q) v.
  Proof.
    intros Hr HR Hd Hv. destruct (Hscope r Hr R HR) as (Hp & _ & _). destruct (Hp d Hd) as [Hn Ht]. exists d. split; [|split; [easy|]].
    - cbn [op_env]. unfold pack_env. rewrite HR, Hd. now split.
    - destruct Hv as [-> |(P & -> & HP)]; [easy|]. intros n Hn'. apply Ht. now apply HP.
  Qed.
  Lemma known_after r R d v q P : f_repo F r = Some R -> r_pack R = Some d ->
    (v_known v = None \/ exists P, v_known v = Some P /\ forall n, P n <-> packs_in d n) ->
    v_known (view_after (Query (pack_env F r) q) v) = Some P -> forall n, P n <-> packs_in d n.
  Proof.
    intros HR Hd Hv. unfold view_after, pack_env. cbn [op_env e_dir]. rewrite HR, Hd. cbn [look_again].
    destruct Hv as [Hv|(P' & Hv & HP)]; rewrite Hv; cbn [v_known]; intros H; [now injection H as <-|]. rewrite Hv in H. now injection H as <-.
  Qed.
  Lemma query_packed r s v R d q : scope r -> f_repo F r = Some R -> r_pack R = Some d -> rep (U r) v s ->
    (v_known v = None \/ exists P, v_known v = Some P /\ forall n, P n <-> packs_in d n) ->
    exists a s' P, do_op K (Query (pack_env F r) q) s = (a, s') /\ good (KPacked r) (Packed r s') /\
      (forall n, P n <-> packs_in d n) /\ right_answer (U r) P q a.
  Proof.
    intros Hr HR Hd Hs Hv. destruct (query_ok (U r) K (pack_env F r) q v s (pack_proper r R d v q Hr HR Hd Hv) Hs) as (a & s' & P & E & HP & Hrep & Ha).
    pose proof (known_after r R d v q P HR Hd Hv HP) as HPd. exists a, s', P. split; [easy|]. split; [|easy].
    apply (good_packed r s' (view_after (Query (pack_env F r) q) v) R d); try easy. right. now exists P.
  Qed.
  Lemma loose_iff r R sha : f_repo F r = Some R -> is_loose_in F r sha <-> In sha (loose_names F r).
  Proof.
    intros HR. unfold loose_names. rewrite HR. split.
    - intros (R' & c & HR' & H). assert (R' = R) by congruence. subst R'. apply in_map_iff. now exists (sha, c).
    - intros H. apply in_map_iff in H as ([x c] & E & H). cbn in E. subst x. now exists R, c.
  Qed.
  Lemma pack_has_iff r R d P sha : f_repo F r = Some R -> r_pack R = Some d -> (forall n, P n <-> packs_in d n) ->
    (exists n k, pack_has (U r) P n k sha) <-> in_packs F U r sha.
  Proof.
    intros HR Hd HP. split.
    - intros (n & k & H1 & H2). exists R, d, n, k. split; [easy|]. split; [easy|]. split; [now apply HP|easy].
    - intros (R' & d' & n & k & HR' & Hd' & H1 & H2). assert (R' = R) by congruence. subst R'. assert (d' = d) by congruence. subst d'. exists n, k. split; [now apply HP|easy].
  Qed.

  (** ** has_object *)
  Lemma has_ok fuel : forall k d sha, sha_ok sha -> good k d ->
    exists x d', db_has F fuel sha d = (x, d') /\ good k d' /\ (~ enough fuel k /\ x = Diverge \/ exists b, x = Ok b /\ (b = true <-> content sha k)).
  Proof.
    assert (Hpacked : forall n r s sha, sha_ok sha -> good (KPacked r) (Packed r s) -> exists x d', db_has F n sha (Packed r s) = (x, d') /\ good (KPacked r) d' /\
      (~ enough n (KPacked r) /\ x = Diverge \/ exists b, x = Ok b /\ (b = true <-> content sha (KPacked r)))).
    { intros n r s sha Hs H. inversion H as [? ? v R d Hr HR Hd Hrep Hv| | | | |]; subst.
      destruct (query_packed r s v R d (QHas sha) Hr HR Hd Hrep Hv) as (a & s' & P & E & Hg & HP & Ha). cbn [do_op] in E. unfold tag in E. injection E as <- <-. cbn [right_answer] in Ha.
      destruct (Ha Hs) as (b & Eb & Hb). exists (Ok b), (Packed r (snd (PackDbModel.has_object (pack_env F r) sha s))). split; [|split; [easy|]].
      - destruct n; cbn [db_has]; unfold in_packed; now rewrite Eb.
      - right. exists b. split; [easy|]. rewrite Hb. now apply (pack_has_iff r R d P). }
    assert (Hloose : forall n r known sha, good (KLoose r) (Loose r known) -> exists x d', db_has F n sha (Loose r known) = (x, d') /\ good (KLoose r) d' /\
      (~ enough n (KLoose r) /\ x = Diverge \/ exists b, x = Ok b /\ (b = true <-> content sha (KLoose r)))).
    { intros n r known sha H. inversion H as [|? ? R Hr HR Hk| | | |]; subst. cbn [content].
      assert (E : db_has F n sha (Loose r known) = let (b, known) := loose_has F r sha known in (Ok b, Loose r known)) by now destruct n. rewrite E. clear E.
      unfold loose_has. destruct (mem sha known) eqn:E1; [|destruct (mem sha (loose_names F r)) eqn:E2].
      - apply mem_in in E1. eexists _, _. split; [reflexivity|]. split; [easy|]. right. exists true. split; [easy|]. split; [intros _; now apply Hk|easy].
      - apply mem_in, (loose_iff r R sha HR) in E2. eexists _, _. split; [reflexivity|]. split.
        + apply (good_loose r _ R); try easy. intros x [<- |Hx]; [easy|now apply Hk].
        + right. exists true. split; [easy|]. now split.
      - apply mem_out in E2. rewrite <- (loose_iff r R sha HR) in E2. eexists _, _. split; [reflexivity|]. split; [easy|]. right. exists false. split; [easy|]. now split. }
    induction fuel as [|fuel IH]; intros k d sha Hs H.
    - destruct d as [r s|r known|r dbs|r dbs].
      + inversion H; subst. now apply Hpacked.
      + inversion H; subst. now apply Hloose.
      + exists Diverge, (Git r dbs). split; [easy|]. split; [easy|]. left. split; [|easy]. intros He. inversion H; subst; inversion He.
      + exists Diverge, (Ref r dbs). split; [easy|]. split; [easy|]. left. split; [|easy]. intros He. inversion H; subst; inversion He.
    - assert (Hcomp : forall r k ks c, ready r k ks -> state ks c -> exists x c', c_has (db_has F fuel) sha c = (x, c') /\ state ks c' /\
        (~ enough (S fuel) k /\ x = Diverge \/ exists b, x = Ok b /\ (b = true <-> content sha k))).
      { intros r k0 ks c Hready Hst.
        destruct (c_has_ok good (db_has F fuel) sha (content sha) (~ enough (S fuel) k0) (has_at sha) (has_first sha) (fun _ _ _ H => H) ks c) as (x & c' & -> & Hl & Hc & Hx).
        - split; [apply Hst|]. intros i Hi. now apply (proj2 Hst).
        - intros k' Hk' d0 Hm. destruct (IH k' d0 sha Hs Hm) as (x & d' & E & Hd' & Hx). exists x, d'. split; [easy|]. split; [easy|]. destruct Hx as [[Hx ->]|Hx]; [|now right].
          left. split; [|easy]. intros He. apply Hx. now apply (enough_member r k0 ks).
        - exists x, c'. split; [easy|]. split; [now apply (state_after ks c c' sha)|]. destruct Hx as [Hx|(b & -> & Hb)]; [now left|]. right. exists b. split; [easy|].
          rewrite Hb. symmetry. now apply (ready_content r k0 ks). }
      destruct d as [r s|r known|r dbs|r dbs].
      + inversion H; subst. now apply Hpacked.
      + inversion H; subst. now apply Hloose.
      + assert (k = KGit r) as -> by (inversion H; easy). cbn [db_has]. destruct (use_git r dbs (c_has (db_has F fuel) sha) H) as (Hr & c & -> & Hready & Hst).
        destruct (Hcomp r (KGit r) _ c Hready Hst) as (x & c' & -> & Hst' & Hx). unfold in_git. cbn [fst snd]. eexists _, _. split; [reflexivity|]. split; [now apply (ready_git r (kinds r))|easy].
      + assert (k = KRef r) as -> by (inversion H; easy). cbn [db_has]. destruct (use_ref r dbs (c_has (db_has F fuel) sha) H) as (Hr & c & ks & -> & Hready & Hst).
        destruct (Hcomp r (KRef r) _ c Hready Hst) as (x & c' & -> & Hst' & Hx). unfold in_ref. cbn [fst snd]. eexists _, _. split; [reflexivity|]. split; [now apply (ready_ref r ks)|easy].
  Qed.

  Lemma has_answers fuel r k ks sha : sha_ok sha -> ready r k ks ->
    forall k', In k' ks -> answers good (db_has F fuel) sha (content sha) (~ enough (S fuel) k) k'.
  Proof.
    intros Hs Hready k' Hk' d Hd. destruct (has_ok fuel k' d sha Hs Hd) as (x & d' & E & Hd' & Hx). exists x, d'. split; [easy|]. split; [easy|].
    destruct Hx as [[Hx ->]|Hx]; [|now right]. left. split; [|easy]. intros He. apply Hx. now apply (enough_member r k ks).
  Qed.

  (** ** info *)
  Definition says (sha : bytes) (k : kind) (x : res oinfo) : Prop :=
    match k with
    | KPacked r | KLoose r => repo_says F U K m r sha x
    | KGit r => exists r', reaches F r r' /\ repo_has F U r' sha /\ repo_says F U K m r' sha x
    | KRef r => exists p r', alternate F r p /\ reaches F p r' /\ repo_has F U r' sha /\ repo_says F U K m r' sha x
    end.
  Definition info_right (fuel : nat) (sha : bytes) (k : kind) (x : res oinfo) : Prop :=
    ~ enough fuel k /\ (m = 0%nat -> x = Diverge) \/ content sha k /\ says sha k x \/ ~ content sha k /\ x = Raise BadObject.
  Lemma info_ok fuel : forall k d sha, sha_ok sha -> good k d ->
    exists x d', db_info K F fuel sha d = (x, d') /\ good k d' /\ info_right fuel sha k x.
  Proof.
    assert (Hpacked : forall n r s sha, sha_ok sha -> good (KPacked r) (Packed r s) -> exists x d', db_info K F n sha (Packed r s) = (x, d') /\ good (KPacked r) d' /\ info_right n sha (KPacked r) x).
    { intros n r s sha Hs H. inversion H as [? ? v R d Hr HR Hd Hrep Hv| | | | |]; subst.
      destruct (query_packed r s v R d (QInfo n sha) Hr HR Hd Hrep Hv) as (a & s' & P & E & Hg & HP & Ha). cbn [do_op] in E. unfold tag in E. injection E as <- <-. cbn [right_answer] in Ha. specialize (Ha Hs).
      eexists _, (Packed r (snd (PackDbModel.info K n (pack_env F r) sha s))). split; [destruct n; cbn [db_info]; unfold in_packed; reflexivity|]. split; [easy|].
      destruct Ha as [(nm & kk & e & Hh & He & E)|[Hno E]].
      - destruct (le_dec m n) as [Hmn|Hmn]; [right; left|left].
        + assert (Hh' : pack_has (U r) (packs_in d) nm kk sha) by (destruct Hh as (H1 & H2); split; [now apply HP|easy]).
          split; [now exists R, d, nm, kk|]. left. exists R, d, nm, kk, e, n. tauto.
        + split; [intros H'; inversion H'; contradiction|lia].
      - right. right. split; [|easy]. cbn [content]. rewrite <- (pack_has_iff r R d P) by easy. intros (nm & kk & H'). now apply Hno in H'. }
    assert (Hloose : forall n r known sha, good (KLoose r) (Loose r known) -> exists x d', db_info K F n sha (Loose r known) = (x, d') /\ good (KLoose r) d' /\ info_right n sha (KLoose r) x).
    { intros n r known sha H. inversion H as [|? ? R Hr HR Hk| | | |]; subst.
      eexists _, (Loose r known). split; [destruct n; cbn [db_info]; reflexivity|]. split; [easy|]. right. unfold loose_map. rewrite HR.
      destruct (Hscope r Hr R HR) as (_ & Hnd & _). assert (Hdec : {c | In (sha, c) (r_loose R)} + {~ In sha (map fst (r_loose R))}).
      { clear. induction (r_loose R) as [|[a c] l IH]; [now right|]. destruct (list_eq_dec Z.eq_dec a sha) as [-> |Hne].
        - left. exists c. now left.
        - destruct IH as [[c' IH]|IH]; [left; exists c'; now right|right]. cbn [map fst In]. tauto. }
      destruct Hdec as [[c Hc]|Hno].
      - left. split; [now exists R, c|]. right. exists R, c. split; [easy|]. split; [easy|]. rewrite (file_named_in _ c) by easy. destruct c; reflexivity.
      - right. split.
        + intros (R' & c & HR' & H'). assert (R' = R) by congruence. subst R'. apply Hno. apply in_map_iff. now exists (sha, c).
        + replace (file_named sha (r_loose R)) with (@Raise bytes FileNotFound); [easy|]. clear - Hno. induction (r_loose R) as [|[a c] l IH]; [easy|]. cbn [file_named]. cbn [map fst In] in Hno.
          destruct (beq a sha) eqn:E; [apply beq_eq in E; tauto|]. apply IH. tauto. }
    induction fuel as [|fuel IH]; intros k d sha Hs H.
    - destruct d as [r s|r known|r dbs|r dbs].
      + inversion H; subst. now apply Hpacked.
      + inversion H; subst. now apply Hloose.
      + exists Diverge, (Git r dbs). split; [easy|]. split; [easy|]. left. split; [|easy]. intros He. inversion H; subst; inversion He.
      + exists Diverge, (Ref r dbs). split; [easy|]. split; [easy|]. left. split; [|easy]. intros He. inversion H; subst; inversion He.
    - assert (Hcomp : forall r k ks c, ready r k ks -> state ks c -> exists x c', c_ask (db_has F fuel) (db_info K F fuel) sha c = (x, c') /\ state ks c' /\ info_right (S fuel) sha k x).
      { intros r k0 ks c Hready Hst.
        destruct (c_ask_ok good (db_has F fuel) sha (content sha) (~ enough (S fuel) k0) (has_at sha) (has_first sha) (fun _ _ _ H => H) (db_info K F fuel) (info_right fuel sha) ks c) as (x & c' & -> & Hl & Hc & Hx).
        - split; [apply Hst|]. intros i Hi. now apply (proj2 Hst).
        - now apply (has_answers fuel r k0 ks).
        - intros k' d' Hk' _ Hd'. now apply IH.
        - exists x, c'. split; [easy|]. split; [now apply (state_after ks c c' sha)|]. destruct Hx as [[Hx ->]|[[-> Hx]|(i & k' & Hfst & Hx)]].
          + left. now split.
          + right. right. split; [|easy]. rewrite (ready_content r k0 ks) by easy. intros (k' & H1 & H2). now apply Hx in H2.
          + destruct (has_in _ _ _ _ Hfst) as [Hin Hcont]. destruct Hx as [[Hx1 Hx2]|[[_ Hx]|[Hx _]]]; [| |contradiction].
            * left. split; [|easy]. intros He. apply Hx1. now apply (enough_member r k0 ks).
            * right. left. split; [rewrite (ready_content r k0 ks) by easy; now exists k'|].
              destruct Hready as [(-> & Hu & ->)|(-> & _ & ps & -> & _ & Hps)].
              -- cbn [says]. destruct Hu as [Hne (R & HR)]. unfold kinds, git_members in Hin. rewrite HR in Hin. rewrite !map_app, !in_app_iff in Hin. destruct Hin as [Hin|[Hin|Hin]].
                 ++ destruct (r_pack R); [|easy]. destruct Hin as [<- |[]]. exists r. split; [apply rt_refl|]. split; [now left|easy].
                 ++ destruct r; [easy|]. destruct Hin as [<- |[]]. eexists. split; [apply rt_refl|]. split; [now right|easy].
                 ++ destruct (r_alt R); [|easy]. destruct Hin as [<- |[]]. destruct Hx as (p & r' & H1 & H2 & H3). exists r'. split; [|easy]. apply rt_trans with p; [now apply rt_step|easy].
              -- apply in_map_iff in Hin as (p & <- & Hp). destruct Hx as (r' & Hx). exists p, r'. split; [now apply Hps|easy]. }
      destruct d as [r s|r known|r dbs|r dbs].
      + inversion H; subst. now apply Hpacked.
      + inversion H; subst. now apply Hloose.
      + assert (k = KGit r) as -> by (inversion H; easy). cbn [db_info]. destruct (use_git r dbs (c_ask (db_has F fuel) (db_info K F fuel) sha) H) as (Hr & c & -> & Hready & Hst).
        destruct (Hcomp r (KGit r) _ c Hready Hst) as (x & c' & -> & Hst' & Hx). unfold in_git. cbn [fst snd]. eexists _, _. split; [reflexivity|]. split; [now apply (ready_git r (kinds r))|easy].
      + assert (k = KRef r) as -> by (inversion H; easy). cbn [db_info]. destruct (use_ref r dbs (c_ask (db_has F fuel) (db_info K F fuel) sha) H) as (Hr & c & ks & -> & Hready & Hst).
        destruct (Hcomp r (KRef r) _ c Hready Hst) as (x & c' & -> & Hst' & Hx). unfold in_ref. cbn [fst snd]. eexists _, _. split; [reflexivity|]. split; [now apply (ready_ref r ks)|easy].
  Qed.

  (** ** update_cache *)
  Lemma update_good fuel : forall force k d, good k d ->
    exists x d', db_update F fuel force d = (x, d') /\ good k d' /\ (~ enough fuel k /\ x = Diverge \/ exists b, x = Ok b).
  Proof.
    assert (Hpacked : forall n force r s, good (KPacked r) (Packed r s) -> exists x d', db_update F n force (Packed r s) = (x, d') /\ good (KPacked r) d' /\ (~ enough n (KPacked r) /\ x = Diverge \/ exists b, x = Ok b)).
    { intros n force r s H. inversion H as [? ? v R d Hr HR Hd Hrep Hv| | | | |]; subst. assert (He : proper_env (pack_env F r) d) by (destruct (Hscope r Hr R HR) as (Hp & _ & _); destruct (Hp d Hd) as [Hn Ht]; unfold pack_env; rewrite HR, Hd; now split).
      assert (Ht : forall n, packs_in d n -> there (U r) d n) by (destruct (Hscope r Hr R HR) as (Hp & _ & _); now destruct (Hp d Hd)).
      destruct (update_ok (U r) (pack_env F r) force v s) as (d2 & s' & Ed & E & Hrep'); [exists d; split; [easy|]; split; [easy|now destruct (v_known v)]|easy|].
      eexists _, (Packed r s'). split; [destruct n; cbn [db_update]; unfold in_packed; rewrite E; reflexivity|]. split.
      - apply (good_packed r s' (view_after (Update (pack_env F r) force) v) R d); try easy. unfold view_after. cbn [op_env]. assert (e_dir (pack_env F r) = Some d) as -> by (unfold pack_env; cbn [e_dir]; now rewrite HR).
        destruct (look_again _ v d); [|easy]. right. now exists (packs_in d).
      - right. now eexists. }
    induction fuel as [|fuel IH]; intros force k d H.
    - destruct d as [r s|r known|r dbs|r dbs].
      + inversion H; subst. now apply Hpacked.
      + inversion H; subst. exists (Ok false), (Loose r known). split; [easy|]. split; [easy|]. right. now exists false.
      + exists Diverge, (Git r dbs). split; [easy|]. split; [easy|]. left. split; [|easy]. intros He. inversion H; subst; inversion He.
      + exists Diverge, (Ref r dbs). split; [easy|]. split; [easy|]. left. split; [|easy]. intros He. inversion H; subst; inversion He.
    - assert (Hcomp : forall r k ks c, ready r k ks -> state ks c -> exists x c', c_update (db_update F fuel force) c = (x, c') /\ state ks c' /\ (~ enough (S fuel) k /\ x = Diverge \/ exists b, x = Ok b)).
      { intros r k0 ks c Hready Hst. unfold c_update.
        destruct (on_each_ok good (db_update F fuel force) (fun l => existsb (fun b => b) l) (fun _ _ => True) (~ enough (S fuel) k0) ks (mk_compound (c_dbs c) []) (proj1 Hst)) as (x & c' & -> & Hl & Hc & Hx).
        - intros k' d' Hk' Hd'. destruct (IH force k' d' Hd') as (x & d2 & E & Hd2 & Hx). exists x, d2. split; [easy|]. split; [easy|]. destruct Hx as [[Hx ->]|(b & ->)]; [left|right; now exists b].
          split; [|easy]. intros He. apply Hx. now apply (enough_member r k0 ks).
        - exists x, c'. split; [easy|]. split; [split; [easy|]; intros sha i _ Hi; now rewrite Hc in Hi|]. destruct Hx as [Hx|(t & -> & _)]; [now left|right; now eexists]. }
      destruct d as [r s|r known|r dbs|r dbs].
      + inversion H; subst. now apply Hpacked.
      + inversion H; subst. exists (Ok false), (Loose r known). split; [easy|]. split; [easy|]. right. now exists false.
      + assert (k = KGit r) as -> by (inversion H; easy). cbn [db_update]. destruct (use_git r dbs (c_update (db_update F fuel force)) H) as (Hr & c & -> & Hready & Hst).
        destruct (Hcomp r (KGit r) _ c Hready Hst) as (x & c' & -> & Hst' & Hx). unfold in_git. cbn [fst snd]. eexists _, _. split; [reflexivity|]. split; [now apply (ready_git r (kinds r))|easy].
      + assert (k = KRef r) as -> by (inversion H; easy). cbn [db_update]. assert (exists R, f_repo F r = Some R) as (R & HR) by (inversion H; subst; eauto).
        assert (scope r) as Hr0 by (inversion H; easy). destruct (paths_ok r R Hr0 HR) as (paths & Ep & _). rewrite Ep.
        match goal with |- context [with_dbs (ref_load F r) dbs ?f] => destruct (use_ref r dbs f H) as (Hr & c & ks & -> & Hready & Hst) end. cbv beta.
        assert (Hks : ref_kinds r ks) by (destruct Hready as [(E & _)|(_ & _ & Hks)]; [discriminate|easy]).
        rewrite (ref_again r R ks (c_dbs c) paths Hr HR Hks (proj1 Hst) Ep). replace (mk_compound (c_dbs c) (c_cache c)) with c by now destruct c.
        destruct (Hcomp r (KRef r) _ c Hready Hst) as (x & c' & -> & Hst' & Hx). unfold in_ref. cbn [fst snd]. eexists _, _. split; [reflexivity|]. split; [now apply (ready_ref r ks)|easy].
  Qed.

  (** ** sha_iter and size *)
  Definition klist (k : kind) (l : list bytes) : Prop :=
    match k with
    | KPacked r => exists l', packs_list F U r l' /\ Permutation l l'
    | KLoose r => loose_list F r l
    | KGit r => exists l', listing F U r l' /\ Permutation l l'
    | KRef r => exists ps ls, NoDup ps /\ (forall p, alternate F r p <-> In p ps) /\ Forall2 (listing F U) ps ls /\ Permutation l (concat ls)
    end.
  Lemma klist_git_all ps ts : Forall2 klist (map KGit ps) ts -> exists ls, Forall2 (listing F U) ps ls /\ Permutation (concat ts) (concat ls).
  Proof.
    revert ts. induction ps as [|p ps IH]; intros ts H; inversion H as [|k t ks ts' Ht Hts]; subst.
    - exists []. split; [constructor|easy].
    - destruct Ht as (l' & Hl' & Hp). destruct (IH ts' Hts) as (ls & Hls & Hp'). exists (l' :: ls). split; [now constructor|]. cbn [concat]. now apply Permutation_app.
  Qed.
  Lemma klist_members r k ks ts : ready r k ks -> Forall2 klist ks ts -> klist k (concat ts).
  Proof.
    intros [(-> & Hu & ->)|(-> & _ & ps & -> & Hnd & Hps)] H.
    - destruct Hu as [Hne (R & HR)]. unfold kinds, git_members in H. rewrite HR in H. rewrite !map_app in H.
      apply Forall2_app_inv_l in H as (t1 & t' & H1 & H' & ->). apply Forall2_app_inv_l in H' as (t2 & t3 & H2 & H3 & ->). rewrite !concat_app.
      assert (E1 : exists lp, packs_list F U r lp /\ Permutation (concat t1) lp).
      { destruct (r_pack R) as [d|] eqn:Ed; cbn [map] in H1.
        - inversion H1 as [|? t ? t' Ht Hn]; subst. inversion Hn; subst. destruct Ht as (lp & Hlp & Hp). exists lp. split; [easy|]. cbn [concat]. now rewrite app_nil_r.
        - inversion H1; subst. exists []. split; [|easy]. exists R. split; [easy|]. now rewrite Ed. }
      assert (E2 : loose_list F r (concat t2)).
      { destruct r; [easy|]. cbn [map kind_of] in H2. inversion H2 as [|? t ? t' Ht Hn]; subst. inversion Hn; subst. cbn [concat klist] in *. now rewrite app_nil_r. }
      assert (E3 : exists ps ls, NoDup ps /\ (forall p, alternate F r p <-> In p ps) /\ Forall2 (listing F U) ps ls /\ Permutation (concat t3) (concat ls)).
      { destruct (r_alt R) as [a|] eqn:Ea; cbn [map] in H3.
        - inversion H3 as [|? t ? t' Ht Hn]; subst. inversion Hn; subst. destruct Ht as (ps & ls & Ht). exists ps, ls. cbn [concat]. now rewrite app_nil_r.
        - inversion H3; subst. exists [], []. split; [constructor|]. split; [|split; [constructor|easy]]. intros p. split; [|easy]. intros ((R' & text & HR' & Ha & _) & _).
          assert (R' = R) by congruence. subst R'. congruence. }
      destruct E1 as (lp & Hlp & Hp1). destruct E3 as (ps & ls & Hnd & Hps & Hls & Hp3).
      exists (lp ++ concat t2 ++ concat ls). split; [now apply (listing_repo F U r lp (concat t2) ps ls)|]. apply Permutation_app; [easy|]. now apply Permutation_app.
    - destruct (klist_git_all ps ts H) as (ls & Hls & Hp). exists ps, ls. easy.
  Qed.
  Lemma iter_ok fuel : forall k d, good k d ->
    exists x d', db_iter F fuel d = (x, d') /\ good k d' /\ (~ enough fuel k /\ x = Diverge \/ exists l, x = Ok l /\ klist k l).
  Proof.
    assert (Hpacked : forall n r s, good (KPacked r) (Packed r s) -> exists x d', db_iter F n (Packed r s) = (x, d') /\ good (KPacked r) d' /\
      (~ enough n (KPacked r) /\ x = Diverge \/ exists l, x = Ok l /\ klist (KPacked r) l)).
    { intros n r s H. inversion H as [? ? v R d Hr HR Hd Hrep Hv| | | | |]; subst.
      destruct (query_packed r s v R d QIter Hr HR Hd Hrep Hv) as (a & s' & P & E & Hg & HP & Ha). cbn [do_op] in E. unfold tag in E. injection E as <- <-. cbn [right_answer] in Ha.
      destruct Ha as (ks & l & Hks & El & Hp). exists (Ok l), (Packed r (snd (PackDbModel.sha_iter (pack_env F r) s))). split; [|split; [easy|]].
      - destruct n; cbn [db_iter]; unfold in_packed; now rewrite El.
      - right. exists l. split; [easy|]. eexists. split; [|exact Hp]. exists R. split; [easy|]. rewrite Hd. exists ks. split; [|easy].
        destruct Hks as (H1 & H2 & H3). split; [easy|]. split; [easy|]. intros n0. now rewrite <- HP, H3. }
    assert (Hloose : forall n r known, good (KLoose r) (Loose r known) -> exists x d', db_iter F n (Loose r known) = (x, d') /\ good (KLoose r) d' /\
      (~ enough n (KLoose r) /\ x = Diverge \/ exists l, x = Ok l /\ klist (KLoose r) l)).
    { intros n r known H. inversion H as [|? ? R Hr HR Hk| | | |]; subst. exists (Ok (loose_names F r)), (Loose r known). split; [now destruct n|]. split; [easy|]. right.
      eexists. split; [reflexivity|]. exists R. split; [easy|]. unfold loose_names. now rewrite HR. }
    induction fuel as [|fuel IH]; intros k d H.
    - destruct d as [r s|r known|r dbs|r dbs].
      + inversion H; subst. now apply Hpacked.
      + inversion H; subst. now apply Hloose.
      + exists Diverge, (Git r dbs). split; [easy|]. split; [easy|]. left. split; [|easy]. intros He. inversion H; subst; inversion He.
      + exists Diverge, (Ref r dbs). split; [easy|]. split; [easy|]. left. split; [|easy]. intros He. inversion H; subst; inversion He.
    - assert (Hcomp : forall r k ks c, ready r k ks -> state ks c -> exists x c', c_iter (db_iter F fuel) c = (x, c') /\ state ks c' /\
        (~ enough (S fuel) k /\ x = Diverge \/ exists l, x = Ok l /\ klist k l)).
      { intros r k0 ks c Hready Hst. unfold c_iter.
        destruct (on_each_ok good (db_iter F fuel) (@concat bytes) klist (~ enough (S fuel) k0) ks c (proj1 Hst)) as (x & c' & -> & Hl & Hc & Hx).
        - intros k' d' Hk' Hd'. destruct (IH k' d' Hd') as (x & d2 & E & Hd2 & Hx). exists x, d2. split; [easy|]. split; [easy|]. destruct Hx as [[Hx ->]|Hx]; [left|now right].
          split; [|easy]. intros He. apply Hx. now apply (enough_member r k0 ks).
        - exists x, c'. split; [easy|]. split; [split; [easy|]; intros sha i Hs Hi; rewrite Hc in Hi; now apply (proj2 Hst)|]. destruct Hx as [Hx|(t & -> & Ht)]; [now left|right].
          eexists. split; [reflexivity|]. now apply (klist_members r k0 ks). }
      destruct d as [r s|r known|r dbs|r dbs].
      + inversion H; subst. now apply Hpacked.
      + inversion H; subst. now apply Hloose.
      + assert (k = KGit r) as -> by (inversion H; easy). cbn [db_iter]. destruct (use_git r dbs (c_iter (db_iter F fuel)) H) as (Hr & c & -> & Hready & Hst).
        destruct (Hcomp r (KGit r) _ c Hready Hst) as (x & c' & -> & Hst' & Hx). unfold in_git. cbn [fst snd]. eexists _, _. split; [reflexivity|]. split; [now apply (ready_git r (kinds r))|easy].
      + assert (k = KRef r) as -> by (inversion H; easy). cbn [db_iter]. destruct (use_ref r dbs (c_iter (db_iter F fuel)) H) as (Hr & c & ks & -> & Hready & Hst).
        destruct (Hcomp r (KRef r) _ c Hready Hst) as (x & c' & -> & Hst' & Hx). unfold in_ref. cbn [fst snd]. eexists _, _. split; [reflexivity|]. split; [now apply (ready_ref r ks)|easy].
  Qed.

  Definition kcount (k : kind) (n : Z) : Prop := exists l, klist k l /\ n = len l.
  Lemma kcount_members ks ns : Forall2 kcount ks ns -> exists ls, Forall2 klist ks ls /\ fold_right Z.add 0 ns = len (concat ls).
  Proof.
    induction 1 as [|k n ks ns (l & Hl & ->) _ (ls & Hls & E)]; [exists []; split; [constructor|easy]|].
    exists (l :: ls). split; [now constructor|]. cbn [fold_right concat]. rewrite E, len_app. lia.
  Qed.
  Lemma size_ok fuel : forall k d, good k d ->
    exists x d', db_size F fuel d = (x, d') /\ good k d' /\ (~ enough fuel k /\ x = Diverge \/ exists n, x = Ok n /\ kcount k n).
  Proof.
    assert (Hpacked : forall n r s, good (KPacked r) (Packed r s) -> exists x d', db_size F n (Packed r s) = (x, d') /\ good (KPacked r) d' /\
      (~ enough n (KPacked r) /\ x = Diverge \/ exists n, x = Ok n /\ kcount (KPacked r) n)).
    { intros n r s H. inversion H as [? ? v R d Hr HR Hd Hrep Hv| | | | |]; subst.
      destruct (query_packed r s v R d QSize Hr HR Hd Hrep Hv) as (a & s' & P & E & Hg & HP & Ha). cbn [do_op] in E. unfold tag in E. injection E as <- <-. cbn [right_answer] in Ha.
      destruct Ha as (ks & Hks & El). eexists _, (Packed r (snd (PackDbModel.size (pack_env F r) s))). split; [|split; [easy|]].
      - destruct n; cbn [db_size]; unfold in_packed; rewrite El; reflexivity.
      - right. eexists. split; [reflexivity|]. eexists. split; [|reflexivity]. eexists. split; [|reflexivity]. exists R. split; [easy|]. rewrite Hd. exists ks. split; [|easy].
        destruct Hks as (H1 & H2 & H3). split; [easy|]. split; [easy|]. intros n0. now rewrite <- HP, H3. }
    assert (Hloose : forall n r known, good (KLoose r) (Loose r known) -> exists x d', db_size F n (Loose r known) = (x, d') /\ good (KLoose r) d' /\
      (~ enough n (KLoose r) /\ x = Diverge \/ exists n, x = Ok n /\ kcount (KLoose r) n)).
    { intros n r known H. inversion H as [|? ? R Hr HR Hk| | | |]; subst. exists (Ok (len (loose_names F r))), (Loose r known). split; [now destruct n|]. split; [easy|]. right.
      eexists. split; [reflexivity|]. eexists. split; [|reflexivity]. exists R. split; [easy|]. unfold loose_names. now rewrite HR. }
    induction fuel as [|fuel IH]; intros k d H.
    - destruct d as [r s|r known|r dbs|r dbs].
      + inversion H; subst. now apply Hpacked.
      + inversion H; subst. now apply Hloose.
      + exists Diverge, (Git r dbs). split; [easy|]. split; [easy|]. left. split; [|easy]. intros He. inversion H; subst; inversion He.
      + exists Diverge, (Ref r dbs). split; [easy|]. split; [easy|]. left. split; [|easy]. intros He. inversion H; subst; inversion He.
    - assert (Hcomp : forall r k ks c, ready r k ks -> state ks c -> exists x c', c_size (db_size F fuel) c = (x, c') /\ state ks c' /\
        (~ enough (S fuel) k /\ x = Diverge \/ exists n, x = Ok n /\ kcount k n)).
      { intros r k0 ks c Hready Hst. unfold c_size.
        destruct (on_each_ok good (db_size F fuel) (fun l => fold_left Z.add l 0) kcount (~ enough (S fuel) k0) ks c (proj1 Hst)) as (x & c' & -> & Hl & Hc & Hx).
        - intros k' d' Hk' Hd'. destruct (IH k' d' Hd') as (x & d2 & E & Hd2 & Hx). exists x, d2. split; [easy|]. split; [easy|]. destruct Hx as [[Hx ->]|Hx]; [left|now right].
          split; [|easy]. intros He. apply Hx. now apply (enough_member r k0 ks).
        - exists x, c'. split; [easy|]. split; [split; [easy|]; intros sha i Hs Hi; rewrite Hc in Hi; now apply (proj2 Hst)|]. destruct Hx as [Hx|(t & -> & Ht)]; [now left|right].
          eexists. split; [reflexivity|]. rewrite fold_symmetric by (intros; lia). destruct (kcount_members ks t Ht) as (ls & Hls & ->). exists (concat ls). split; [now apply (klist_members r k0 ks)|easy]. }
      destruct d as [r s|r known|r dbs|r dbs].
      + inversion H; subst. now apply Hpacked.
      + inversion H; subst. now apply Hloose.
      + assert (k = KGit r) as -> by (inversion H; easy). cbn [db_size]. destruct (use_git r dbs (c_size (db_size F fuel)) H) as (Hr & c & -> & Hready & Hst).
        destruct (Hcomp r (KGit r) _ c Hready Hst) as (x & c' & -> & Hst' & Hx). unfold in_git. cbn [fst snd]. eexists _, _. split; [reflexivity|]. split; [now apply (ready_git r (kinds r))|easy].
      + assert (k = KRef r) as -> by (inversion H; easy). cbn [db_size]. destruct (use_ref r dbs (c_size (db_size F fuel)) H) as (Hr & c & ks & -> & Hready & Hst).
        destruct (Hcomp r (KRef r) _ c Hready Hst) as (x & c' & -> & Hst' & Hx). unfold in_ref. cbn [fst snd]. eexists _, _. split; [reflexivity|]. split; [now apply (ready_ref r ks)|easy].
  Qed.

  (** ** Histories *)
  Lemma do_right fuel o r d : g_proper o -> good (KGit r) d -> exists a d', g_do F K fuel o d = (a, d') /\ good (KGit r) d' /\
    (g_right F U K m r o a \/ ~ enough fuel (KGit r) /\ (m = 0%nat -> never_returns a)).
  Proof.
    intros Ho H. destruct o as [sha|sha| | |force]; cbn [g_do g_proper] in *.
    - destruct (has_ok fuel (KGit r) d sha Ho H) as (x & d' & -> & Hd & Hx). eexists _, d'. split; [reflexivity|]. split; [easy|]. destruct Hx as [[Hx ->]|Hx]; [now right|now left].
    - destruct (info_ok fuel (KGit r) d sha Ho H) as (x & d' & -> & Hd & Hx). eexists _, d'. split; [reflexivity|]. split; [easy|]. destruct Hx as [Hx|[[H1 H2]|Hx]]; [now right|left; left; exact H2|left; now right].
    - destruct (iter_ok fuel (KGit r) d H) as (x & d' & -> & Hd & Hx). eexists _, d'. split; [reflexivity|]. split; [easy|]. destruct Hx as [[Hx ->]|(l & -> & l' & H1 & H2)]; [now right|left].
      now exists l, l'.
    - destruct (size_ok fuel (KGit r) d H) as (x & d' & -> & Hd & Hx). eexists _, d'. split; [reflexivity|]. split; [easy|].
      destruct Hx as [[Hx ->]|(n & -> & l & (l' & H1 & H2) & ->)]; [now right|left]. exists l'. split; [easy|]. unfold len. now rewrite (Permutation_length H2).
    - destruct (update_good fuel force (KGit r) d H) as (x & d' & -> & Hd & Hx). eexists _, d'. split; [reflexivity|]. split; [easy|]. destruct Hx as [[Hx ->]|Hx]; [now right|now left].
  Qed.
  Lemma run_right_or fuel r ops : Forall g_proper ops -> forall d, good (KGit r) d -> exists l d', g_run F K fuel ops d = (l, d') /\ good (KGit r) d' /\
    Forall2 (fun o a => g_right F U K m r o a \/ ~ enough fuel (KGit r) /\ (m = 0%nat -> never_returns a)) ops l.
  Proof.
    induction 1 as [|o ops Ho _ IH]; intros d H; cbn [g_run].
    - exists [], d. split; [easy|]. split; [easy|constructor].
    - destruct (do_right fuel o r d Ho H) as (a & d1 & -> & H1 & Ha). destruct (IH d1 H1) as (l & d2 & -> & H2 & Hl). exists (a :: l), d2. split; [easy|]. split; [easy|now constructor].
  Qed.
End Top.
