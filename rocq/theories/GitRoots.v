(** ReferenceDB: its databases over any history; a GitDB as a member of a CompoundDB; lists
    of names are determined up to their order. *)
From Coq Require Import ZifyBool ZifyNat Permutation Relations Sorting.Sorted.
From Verif Require Import Py PyFacts FunModel FunSpec IndexModel IndexSpec ZlibModel ReaderModel PackModel PackSpec OsModel LooseModel PackDbModel PackDbSpec PackDbProofs PackDbTop
  MemModel MemProofs CompoundModel CompoundSpec CompoundProofs GitModel GitSpec GitProofs GitTop GitMain GitGrow.
Ltac Zify.zify_post_hook ::= Z.div_mod_to_equations.

(** ** Paths do not change *)
Section Keep.
  Context {M : Type} (root : M -> list Z).
  Lemma first_with_keeps (has : bytes -> M -> res bool * M) sha : (forall m, root (snd (has sha m)) = root m) ->
    forall l i, map root (snd (first_with has sha i l)) = map root l.
  Proof.
    intros H. induction l as [|m l IH]; intros i; [easy|]. cbn [first_with]. specialize (H m). destruct (has sha m) as [[[]| |] m']; cbn [snd map] in *; try now rewrite H.
    specialize (IH (S i)). destruct (first_with has sha (S i) l) as [r l']. cbn [snd map] in *. now rewrite H, IH.
  Qed.
  Lemma at_place_keeps {A} (f : M -> res A * M) : (forall m, root (snd (f m)) = root m) -> forall l i, map root (snd (at_place f i l)) = map root l.
  Proof.
    intros H. induction l as [|m l IH]; intros [|i]; cbn [at_place]; try easy.
    - specialize (H m). destruct (f m) as [r m']. cbn [snd map] in *. now rewrite H.
    - specialize (IH i). destruct (at_place f i l) as [r l']. cbn [snd map] in *. now rewrite IH.
  Qed.
  Lemma each_same {A} (f : M -> res A * M) l : Forall2 (fun m m' => m' = m \/ m' = snd (f m)) l (snd (each f l)).
  Proof.
    assert (Hs : forall l, Forall2 (fun m m' => m' = m \/ m' = snd (f m)) l l) by (intros x; induction x; constructor; auto).
    induction l as [|m l IH]; [constructor|]. cbn [each]. destruct (f m) as [[a|e|] m'] eqn:E; cbn [snd].
    - destruct (each f l) as [r l']. cbn [snd] in *. constructor; [right; now rewrite E|easy].
    - constructor; [right; now rewrite E|easy].
    - constructor; [right; now rewrite E|easy].
  Qed.
  Lemma each_keeps {A} (f : M -> res A * M) : (forall m, root (snd (f m)) = root m) -> forall l, map root (snd (each f l)) = map root l.
  Proof.
    intros H l. pose proof (each_same f l) as Hs. induction Hs as [|m m' l l' Hm _ IH]; [easy|]. cbn [map]. rewrite IH. f_equal. destruct Hm as [-> | ->]; [easy|apply H].
  Qed.
  Definition roots_of (c : compound M) := map root (c_dbs c).
  Lemma query_keeps (has : bytes -> M -> res bool * M) sha c : (forall m, root (snd (has sha m)) = root m) -> roots_of (snd (db_query has sha c)) = roots_of c.
  Proof.
    intros H. unfold db_query. destruct (dict_get sha (c_cache c)); [easy|]. pose proof (first_with_keeps has sha H (c_dbs c) 0) as E.
    destruct (first_with has sha 0 (c_dbs c)) as [[[i|]| |] l]; exact E.
  Qed.
  Lemma c_has_keeps (has : bytes -> M -> res bool * M) sha c : (forall m, root (snd (has sha m)) = root m) -> roots_of (snd (c_has has sha c)) = roots_of c.
  Proof. intros H. unfold c_has. pose proof (query_keeps has sha c H) as E. destruct (db_query has sha c) as [[|[]|] c']; exact E. Qed.
  Lemma c_ask_keeps {A} (has : bytes -> M -> res bool * M) (f : bytes -> M -> res A * M) sha c : (forall m, root (snd (has sha m)) = root m) ->
    (forall m, root (snd (f sha m)) = root m) -> roots_of (snd (c_ask has f sha c)) = roots_of c.
  Proof.
    intros H H'. unfold c_ask. pose proof (query_keeps has sha c H) as E. destruct (db_query has sha c) as [[i| |] c']; [|exact E..]. cbn [snd] in E.
    pose proof (at_place_keeps (f sha) H' (c_dbs c') i) as E'. destruct (at_place (f sha) i (c_dbs c')) as [r l]. cbn [snd] in *. unfold roots_of in *. cbn [c_dbs]. congruence.
  Qed.
  Lemma on_each_keeps {A B} (f : M -> res A * M) (g : list A -> B) c : (forall m, root (snd (f m)) = root m) -> roots_of (snd (on_each f g c)) = roots_of c.
  Proof. intros H. unfold on_each. pose proof (each_keeps f H (c_dbs c)) as E. destruct (each f (c_dbs c)) as [r l]. exact E. Qed.
End Keep.

Section Roots.
  Context (F : fs) (K : zlib).
  Lemma has_root fuel sha d : db_root (snd (db_has F fuel sha d)) = db_root d.
  Proof. destruct d as [r s|r known|r dbs|r dbs], fuel; cbn [db_has]; try reflexivity; destruct (loose_has F r sha known); reflexivity. Qed.
  Lemma info_root fuel sha d : db_root (snd (db_info K F fuel sha d)) = db_root d.
  Proof. destruct d as [r s|r known|r dbs|r dbs], fuel; reflexivity. Qed.
  Lemma iter_root fuel d : db_root (snd (db_iter F fuel d)) = db_root d.
  Proof. destruct d as [r s|r known|r dbs|r dbs], fuel; reflexivity. Qed.
  Lemma size_root fuel d : db_root (snd (db_size F fuel d)) = db_root d.
  Proof. destruct d as [r s|r known|r dbs|r dbs], fuel; reflexivity. Qed.
  Lemma update_root fuel force d : db_root (snd (db_update F fuel force d)) = db_root d.
  Proof. destruct d as [r s|r known|r dbs|r dbs], fuel; cbn [db_update]; try reflexivity. destruct (ref_paths F r) as [paths|e|]; reflexivity. Qed.
End Roots.

(** ** ReferenceDB *)
Section Refs.
  Context (F : fs).
  Hypothesis Horder : forall l, Permutation (f_order F l) l.
  Definition after (paths : list (list Z)) (l : list db) : list db :=
    filter (fun d => mem (db_root d) paths) l ++ map (new_git F) (filter (fun p => negb (mem p (map db_root l)) && is_usable F p) (once paths)).
  Lemma roots_filter paths l : map db_root (filter (fun d => mem (db_root d) paths) l) = filter (fun p => mem p paths) (map db_root l).
  Proof. induction l as [|d l IH]; [easy|]. cbn [map filter]. destruct (mem (db_root d) paths); cbn [map]; now rewrite IH. Qed.
  Lemma after_roots paths l : map db_root (after paths l) = filter (fun p => mem p paths) (map db_root l) ++ filter (fun p => negb (mem p (map db_root l)) && is_usable F p) (once paths).
  Proof. unfold after. rewrite map_app, roots_filter, map_map. f_equal. cbn [db_root new_git]. apply map_id. Qed.
  Lemma after_nodup paths l : NoDup (map db_root l) -> NoDup (map db_root (after paths l)).
  Proof.
    intros H. rewrite after_roots. apply nodup_app; [now apply NoDup_filter|apply NoDup_filter, once_nodup|]. intros p H1 H2. apply filter_In in H1 as [H1 _], H2 as [_ H2].
    apply andb_true_iff in H2 as [H2 _]. apply negb_true_iff, mem_out in H2. contradiction.
  Qed.
  Lemma after_twice paths : after paths (after paths []) = after paths [].
  Proof.
    assert (Hin : forall p, In p (map db_root (after paths [])) <-> In p paths /\ is_usable F p = true).
    { intros p. rewrite after_roots. cbn [map filter app]. rewrite filter_In, once_in. unfold mem; cbn [existsb negb andb]. easy. }
    unfold after at 1. match goal with |- _ ++ map _ ?x = _ => replace x with ([] : list (list Z)) end.
    - cbn [map]. rewrite app_nil_r. apply filter_all. intros d Hd. apply mem_in. apply Hin. now apply in_map.
    - symmetry. match goal with |- ?x = [] => destruct x as [|p x'] eqn:E end; [easy|]. exfalso. assert (In p (p :: x')) as H by now left. rewrite <- E in H.
      apply filter_In in H as [H1 H2]. apply andb_true_iff in H2 as [H2 H3]. apply negb_true_iff, mem_out in H2. apply (proj1 (once_in _ _)) in H1. apply H2. now apply Hin.
  Qed.
  Lemma load_nodup root : NoDup (map db_root (snd (ref_load F root))).
  Proof.
    unfold ref_load. destruct (ref_paths F root) as [paths|e|]; try constructor. rewrite ref_refresh_ok by (easy || constructor). apply (after_nodup paths []). constructor.
  Qed.
  Definition ref_inv (root : list Z) (d : db) : Prop := exists dbs, d = Ref root dbs /\ NoDup (map db_root (members d)).
  Lemma with_inv {A} root dbs (k : compound db -> res A * compound db) : ref_inv root (Ref root dbs) ->
    (forall c, NoDup (map db_root (c_dbs c)) -> NoDup (map db_root (c_dbs (snd (k c))))) -> ref_inv root (snd (in_ref root (with_dbs (ref_load F root) dbs k))).
  Proof.
    intros (dbs' & E & Hn) Hk. injection E as <-. unfold in_ref. cbn [snd]. eexists. split; [reflexivity|]. cbn [members]. destruct dbs as [c|]; cbn [with_dbs].
    - now apply Hk.
    - pose proof (load_nodup root) as Hl. destruct (ref_load F root) as [[[]| |] l]; cbn [snd] in *; [now apply Hk|exact Hl..].
  Qed.
  Lemma roots_nodup (c c' : compound db) : roots_of db_root c' = roots_of db_root c -> NoDup (map db_root (c_dbs c)) -> NoDup (map db_root (c_dbs c')).
  Proof. unfold roots_of. intros ->. easy. Qed.
  Lemma refresh_update fuel force root dbs paths : ref_inv root (Ref root dbs) -> ref_paths F root = Ok paths ->
    exists x c, db_update F (S fuel) force (Ref root dbs) = (x, Ref root (Some c)) /\
      Forall2 (fun m m' => m' = m \/ m' = snd (db_update F fuel force m)) (after paths (members (Ref root dbs))) (c_dbs c).
  Proof.
    intros (dbs' & E & Hn) Ep. injection E as <-. cbn [db_update]. rewrite Ep.
    assert (Hk : forall c, after paths (c_dbs c) = after paths (members (Ref root dbs)) -> NoDup (map db_root (c_dbs c)) ->
      exists x c', (match ref_refresh F paths (c_dbs c) with
              | (Ok _, l) => c_update (db_update F fuel force) (mk_compound l (c_cache c))
              | (Raise x, l) => (Raise x, mk_compound l (c_cache c))
              | (Diverge, l) => (Diverge, mk_compound l (c_cache c))
              end) = (x, c') /\ Forall2 (fun m m' => m' = m \/ m' = snd (db_update F fuel force m)) (after paths (members (Ref root dbs))) (c_dbs c')).
    { intros c Hc Hnd. rewrite ref_refresh_ok by easy. fold (after paths (c_dbs c)). rewrite Hc. unfold c_update, on_each. cbn [c_dbs c_cache].
      pose proof (each_same (db_update F fuel force) (after paths (members (Ref root dbs)))) as H. destruct (each (db_update F fuel force) (after paths (members (Ref root dbs)))) as [r l]. now eexists _, _. }
    destruct dbs as [c|]; cbn [with_dbs members] in *.
    - destruct (Hk c eq_refl Hn) as (x & c' & -> & H). unfold in_ref. cbn [fst snd]. now eexists _, _.
    - unfold ref_load. rewrite Ep, ref_refresh_ok by (easy || constructor). cbv beta iota.
      destruct (Hk (mk_compound (after paths []) [])) as (x & c' & E & H); [apply after_twice|apply after_nodup; constructor|]. cbn [c_dbs c_cache] in E. change (filter (fun d => mem (db_root d) paths) [] ++ map (new_git F) (filter (fun p => negb (mem p (map db_root [])) && is_usable F p) (once paths))) with (after paths []).
      cbn [c_dbs c_cache]. rewrite E.
      unfold in_ref. cbn [fst snd]. now eexists _, _.
  Qed.
  Lemma do_inv K fuel o root d : ref_inv root d -> ref_inv root (snd (g_do F K fuel o d)).
  Proof.
    intros (dbs & -> & Hn). assert (Hi : ref_inv root (Ref root dbs)) by now exists dbs. destruct fuel as [|fuel]; [now destruct o|].
    destruct o as [sha|sha| | |force]; cbn [g_do].
    - assert (E : forall p : res bool * db, snd (let (r, d) := p in (HHas r, d)) = snd p) by now intros []. rewrite E. cbn [db_has]. apply with_inv; [easy|]. intros c. apply roots_nodup. apply c_has_keeps. intros m. apply has_root.
    - assert (E : forall p : res oinfo * db, snd (let (r, d) := p in (HInfo r, d)) = snd p) by now intros []. rewrite E. cbn [db_info]. apply with_inv; [easy|]. intros c. apply roots_nodup. apply c_ask_keeps; intros m; [apply has_root|apply info_root].
    - assert (E : forall p : res (list bytes) * db, snd (let (r, d) := p in (HIter r, d)) = snd p) by now intros []. rewrite E. cbn [db_iter]. apply with_inv; [easy|]. intros c. apply roots_nodup. apply on_each_keeps. intros m. apply iter_root.
    - assert (E : forall p : res Z * db, snd (let (r, d) := p in (HSize r, d)) = snd p) by now intros []. rewrite E. cbn [db_size]. apply with_inv; [easy|]. intros c. apply roots_nodup. apply on_each_keeps. intros m. apply size_root.
    - assert (E : forall p : res bool * db, snd (let (r, d) := p in (HUpdate r, d)) = snd p) by now intros []. rewrite E. destruct (ref_paths F root) as [paths| |] eqn:Ep.
      + destruct (refresh_update fuel force root dbs paths Hi Ep) as (x & c & -> & H). cbn [snd]. eexists. split; [reflexivity|]. cbn [members].
        assert (map db_root (c_dbs c) = map db_root (after paths (members (Ref root dbs)))) as ->; [|now apply after_nodup].
        clear - H. induction H as [|m m' l l' Hm _ IH]; [easy|]. cbn [map]. rewrite IH. f_equal. destruct Hm as [-> | ->]; [easy|apply update_root].
      + cbn [db_update]. rewrite Ep. cbn [snd]. easy.
      + cbn [db_update]. rewrite Ep. cbn [snd]. easy.
  Qed.
End Refs.
Lemma ref_state_inv root d : ref_state root d -> ref_inv root d.
Proof. induction 1 as [|F K fuel o d Ho _ IH]; [exists None; split; [easy|constructor]|]. now apply do_inv. Qed.

(** ** Lists of names *)
Section Lists.
  Context (F : fs) (U : list Z -> bytes -> option pack).
  Lemma packs_unique r l l' : packs_list F U r l -> packs_list F U r l' -> Permutation l l'.
  Proof.
    intros (R & HR & H) (R' & HR' & H'). assert (R' = R) by congruence. subst R'. destruct (r_pack R) as [d|]; [|now subst].
    destruct H as (ks & (H1 & H2 & H3) & ->), H' as (ks' & (H1' & H2' & H3') & ->). assert (Permutation ks ks') as Hp.
    { apply NoDup_Permutation; [now apply (NoDup_map_inv fst)|now apply (NoDup_map_inv fst)|]. intros [n k].
      assert (Hone : forall ks ks' : list (bytes * pack), (forall n k, In (n, k) ks -> U r n = Some k) -> (forall n k, In (n, k) ks' -> U r n = Some k) ->
        (forall n, packs_in d n <-> In n (map fst ks)) -> (forall n, packs_in d n <-> In n (map fst ks')) -> In (n, k) ks -> In (n, k) ks').
      { intros a b Ha Hb Ha' Hb' Hin. assert (In n (map fst b)) as Hn by (apply Hb', Ha'; apply in_map_iff; now exists (n, k)). apply in_map_iff in Hn as ([n' k'] & E & Hn). cbn in E. subst n'.
        pose proof (Ha n k Hin) as E1. pose proof (Hb n k' Hn) as E2. assert (k' = k) as -> by congruence. easy. }
      split; apply Hone; easy. }
    clear - Hp. rewrite (Permutation_map (fun p : bytes * pack => k_shas (snd p)) Hp). easy.
  Qed.
  Lemma concat_perm (ps ps' : list (list Z)) : Permutation ps ps' -> forall ls ls', Forall2 (fun p l => listing F U p l /\ forall l', listing F U p l' -> Permutation l l') ps ls ->
    Forall2 (listing F U) ps' ls' -> Permutation (concat ls) (concat ls').
  Proof.
    induction 1 as [|p ps ps' Hp IH|p q ps|ps ps1 ps2 H1 IH1 H2 IH2]; intros ls ls' Hls Hls'.
    - inversion Hls; inversion Hls'; subst. easy.
    - inversion Hls as [|? l ? ls0 [Ha Hb] Hc]; inversion Hls' as [|? l' ? ls0' Ha' Hc']; subst. cbn [concat]. apply Permutation_app; [now apply Hb|now apply IH].
    - inversion Hls as [|? l ? ls0 [Ha Hb] Hc]; subst. inversion Hc as [|? l2 ? ls2 [Ha2 Hb2] Hc2]; subst. inversion Hls' as [|? l' ? ls0' Ha' Hc']; subst. inversion Hc' as [|? l2' ? ls2' Ha2' Hc2']; subst.
      cbn [concat]. rewrite !app_assoc. apply Permutation_app.
      + rewrite Permutation_app_comm. apply Permutation_app; [now apply Hb2|now apply Hb].
      + clear - Hc2 Hc2'. revert ls2' Hc2'. induction Hc2 as [|p l ps ls [_ H] _ IH]; intros ls' H'; inversion H' as [|? l' ? ls0 Ha Hc]; subst; [easy|]. cbn [concat]. apply Permutation_app; [now apply H|now apply IH].
    - assert (exists ls1, Forall2 (fun p l => listing F U p l /\ forall l', listing F U p l' -> Permutation l l') ps1 ls1) as (ls1 & Hls1).
      { assert (Hall : forall p, In p ps -> exists l, listing F U p l /\ forall l', listing F U p l' -> Permutation l l').
        { clear - Hls. induction Hls as [|p l ps ls Hp _ IH]; [easy|]. intros q [<- |Hq]; [now exists l|now apply IH]. }
        assert (Hall1 : forall p, In p ps1 -> exists l, listing F U p l /\ forall l', listing F U p l' -> Permutation l l').
        { intros p Hp. apply Hall. now apply (Permutation_in p (Permutation_sym H1)). }
        clear - Hall1. induction ps1 as [|p ps1 IH]; [exists []; constructor|]. destruct (Hall1 p (or_introl eq_refl)) as (l & Hl). destruct IH as (ls & Hls); [intros q Hq; apply Hall1; now right|].
        exists (l :: ls). now constructor. }
      rewrite (IH1 ls ls1 Hls); [now apply IH2|]. clear - Hls1. induction Hls1 as [|p l ps ls [H _] _ IH]; constructor; easy.
  Qed.
  Lemma listing_unique r l : listing F U r l -> forall l', listing F U r l' -> Permutation l l'.
  Proof.
    revert r l. apply (listing_ind' F U (fun r l => forall l', listing F U r l' -> Permutation l l')). intros r lp ll ps ls Hp Hl Hnd Hps Hls IH l' H'.
    inversion H' as [? lp' ll' ps' ls' Hp' Hl' Hnd' Hps' Hls']; subst. apply Permutation_app; [now apply (packs_unique r)|]. apply Permutation_app.
    - destruct Hl as (R & HR & ->), Hl' as (R' & HR' & ->). assert (R' = R) by congruence. now subst R'.
    - apply (concat_perm ps ps'); [|clear - Hls IH|easy].
      + apply NoDup_Permutation; [easy|easy|]. intros p. now rewrite <- Hps, Hps'.
      + induction Hls as [|p l ps ls H _ IHl]; [constructor|]. inversion IH; subst. constructor; [now split|now apply IHl].
  Qed.
End Lists.

(** ** A GitDB or one of its members as a member of a CompoundDB *)
Section Faithful.
  Context (F : fs) (U : list Z -> bytes -> option pack) (K : zlib) (scope : list Z -> Prop).
  Hypothesis Horder : forall l, Permutation (f_order F l) l.
  Hypothesis Hscope : forall r, scope r -> proper_repo F U r.
  Hypothesis Hclosed : forall r p, scope r -> alternate F r p -> scope p.
  Context (m n : nat).
  Definition git_methods : methods db oinfo := mk_methods (db_has F n) (db_info K F n) (db_size F n) (db_iter F n) (db_update F n).
  Definition contents_of (k : kind) : contents oinfo :=
    mk_contents (fun sha => content F U sha k) (fun sha x => content F U sha k /\ says F U K m sha k x \/ ~ content F U sha k /\ x = Raise BadObject) (klist F U k) (kcount F U k).
  Definition goes_with (c : contents oinfo) (d : db) : Prop := exists k, c = contents_of k /\ good F U scope k d /\ enough F m n k.
  Lemma git_faithful : faithful git_methods goes_with.
  Proof.
    intros c d (k & -> & Hd & He). split; [|split; [|split; [|split]]].
    - intros sha Hs. destruct (has_ok F U K scope Horder Hscope Hclosed m n k d sha Hs Hd) as (x & d' & E & Hd' & [[Hx _]|(b & -> & Hb)]); [contradiction|]. exists b, d'. split; [easy|]. split; [easy|now exists k].
    - intros sha Hs. destruct (info_ok F U K scope Horder Hscope Hclosed m n k d sha Hs Hd) as (x & d' & E & Hd' & [[Hx _]|Hx]); [contradiction|]. exists x, d'. split; [easy|]. split; [exact Hx|now exists k].
    - destruct (size_ok F U K scope Horder Hscope Hclosed m n k d Hd) as (x & d' & E & Hd' & [[Hx _]|(b & -> & Hb)]); [contradiction|]. exists b, d'. split; [easy|]. split; [easy|now exists k].
    - destruct (iter_ok F U K scope Horder Hscope Hclosed m n k d Hd) as (x & d' & E & Hd' & [[Hx _]|(b & -> & Hb)]); [contradiction|]. exists b, d'. split; [easy|]. split; [easy|now exists k].
    - intros force. destruct (update_good F U scope Horder Hscope Hclosed m n force k d Hd) as (x & d' & E & Hd' & [[Hx _]|(b & ->)]); [contradiction|]. exists b, d'. split; [easy|now exists k].
  Qed.
End Faithful.
