(** PackedDB over a directory where a pack cannot be opened or lacks its index. *)
From Coq Require Import ZifyBool ZifyNat Permutation Sorting.Sorted.
From Verif Require Import Py PyFacts FunModel FunSpec IndexModel IndexSpec IndexProofs IndexSearch ZlibModel ReaderModel PackModel PackSpec PackDbModel PackDbSpec PackDbProofs PackDbTop.

(** ** A pack that cannot be opened *)
Section Fail.
  Variable U : bytes -> option pack.
  Context (K : zlib).

  Lemma add_fails e d n after x before l : proper_env e d -> (forall m, In m before -> there U d m) -> (let! data := map_file e n in pack_open data) = Raise x ->
    exists added, add_packs e (before ++ n :: after) l = (Raise x, l ++ added) /\ map it_name added = before /\ Forall (item_ok U) added.
  Proof.
    intros He Hb Hx. revert l. induction before as [|m before IH]; intros l; cbn [app add_packs].
    - exists []. rewrite app_nil_r. destruct (map_file e n) as [c| |]; cbn [bind] in *; [|injection Hx as ->; easy|easy].
      rewrite Hx. easy.
    - destruct (there_opens U e d m He (Hb m (or_introl eq_refl))) as (k & v & c & Hk & Hg & Hm & Hp). rewrite Hm. cbn [bind]. rewrite Hp. cbn [bind].
      destruct (IH (fun m' H => Hb m' (or_intror H)) (l ++ [mk_item c m (k_data k) None])) as (added & -> & Hn & Hok).
      exists (mk_item c m (k_data k) None :: added). rewrite <- app_assoc. split; [easy|]. split; [cbn [map it_name]; now f_equal|]. constructor; [|easy].
      exists k. cbn. split; [easy|]. split; [easy|]. split; [easy|now left].
  Qed.
  Lemma filter_all A (f : A -> bool) l : (forall a, f a = true) -> filter f l = l.
  Proof. intros H. induction l as [|a l IH]; [easy|]. cbn [filter]. rewrite H. now f_equal. Qed.
  Lemma load_fails e d before n after x : proper_env e d -> e_order e (glob_packs d) = before ++ n :: after -> (forall m, In m before -> there U d m) ->
    (let! data := map_file e n in pack_open data) = Raise x ->
    exists s, load e packed_init = (Raise x, s) /\ rep U (mk_view (Some (fun m => In m before)) (d_mtime d)) s.
  Proof.
    intros He Ho Hb Hx. pose proof He as (He' & Hn & Hord). unfold load. cbn [p_entities packed_init]. rewrite He'. unfold refresh. cbn [map dedup].
    rewrite filter_all by easy. rewrite Ho. destruct (add_fails e d n after x before [] He Hb Hx) as (added & -> & Hnm & Hok). cbn [app].
    eexists. split; [reflexivity|]. split; [easy|]. cbn [v_known p_entities]. split.
    - split; [|exact Hok]. rewrite Hnm. apply (nodup_front _ before (n :: after)). rewrite <- Ho. eapply Permutation_NoDup; [apply Permutation_sym, Hord|]. now apply glob_nodup.
    - intros m. now rewrite Hnm.
  Qed.
  Lemma query_fails e s s' q x : load e s = (Raise x, s') -> x <> BadObject ->
    exists a, do_op K (Query e q) s = (a, s') /\ raised x a.
  Proof.
    intros Hl Hx. destruct q as [sha|fuel sha|fuel sha| | |p n|]; cbn [do_op].
    - unfold has_object, pack_info. rewrite Hl. eexists. split; [|shelve]. destruct x; try easy; reflexivity.
      Unshelve. now destruct x.
    - unfold info, pack_info. rewrite Hl. eexists. now split.
    - unfold stream, pack_info. rewrite Hl. eexists. now split.
    - unfold sha_iter, on_indices. rewrite Hl. eexists. now split.
    - unfold size, on_indices. rewrite Hl. eexists. now split.
    - unfold partial_to_complete_sha. rewrite Hl. eexists. now split.
    - unfold entities. rewrite Hl. eexists. now split.
  Qed.
  Lemma after_failure e d before n after x q ops : proper_env e d -> e_order e (glob_packs d) = before ++ n :: after -> (forall m, In m before -> there U d m) ->
    (let! data := map_file e n in pack_open data) = Raise x -> x <> BadObject ->
    all_proper U (mk_view (Some (fun m => In m before)) (d_mtime d)) ops ->
    exists a l s v, run_ops K (Query e q :: ops) packed_init = (a :: l, s) /\ raised x a /\
      all_right U (mk_view (Some (fun m => In m before)) (d_mtime d)) ops l v.
  Proof.
    intros He Ho Hb Hx Hne Hp. destruct (load_fails e d before n after x He Ho Hb Hx) as (s1 & Hl & Hrep).
    destruct (query_fails e packed_init s1 q x Hl Hne) as (a & Hq & Ha). destruct (run_right U K ops _ s1 Hp Hrep) as (l & s2 & v & Hr & Hall & _).
    exists a, l, s2, v. split; [|easy]. cbn [run_ops]. now rewrite Hq, Hr.
  Qed.
  Lemma said_missing e d before n after x q sha : proper_env e d -> e_order e (glob_packs d) = before ++ n :: after -> (forall m, In m before -> there U d m) ->
    (let! data := map_file e n in pack_open data) = Raise x -> x <> BadObject ->
    sha_ok sha -> (forall m k, In m before -> U m = Some k -> ~ In sha (k_shas k)) ->
    exists a, fst (run_ops K [Query e q; Query e (QHas sha); Update e false; Query e (QHas sha)] packed_init) =
      [a; AHas (Ok false); AUpdate (Ok false); AHas (Ok false)] /\ raised x a.
  Proof.
    intros He Ho Hb Hx Hne Hs Hno. pose proof He as (He' & _).
    set (v := mk_view (Some (fun m => In m before)) (d_mtime d)).
    assert (Hvq : forall q, view_after (Query e q) v = v) by (intros q'; unfold view_after; cbn [op_env]; rewrite He'; easy).
    assert (Hla : look_again (Update e false) v d = false) by (cbn; lia).
    assert (Hvu : view_after (Update e false) v = v) by (unfold view_after; cbn [op_env]; rewrite He', Hla; easy).
    assert (Hpq : forall q, proper_op U (Query e q) v) by (intros q'; exists d; split; [exact He|]; split; [easy|]; cbn; exact Hb).
    assert (Hpu : proper_op U (Update e false) v) by (exists d; split; [exact He|]; split; [now rewrite Hla|easy]).
    destruct (after_failure e d before n after x q [Query e (QHas sha); Update e false; Query e (QHas sha)] He Ho Hb Hx Hne) as (a & l & s & v' & Hr & Ha & Hall).
    { cbn [all_proper]. fold v. rewrite !Hvq, Hvu. easy. }
    exists a. rewrite Hr. split; [|exact Ha]. cbn [fst]. f_equal. fold v in Hall.
    assert (Hanswer : forall a, right_answer U (fun m => In m before) (QHas sha) a -> a = (AHas (Ok false) : answer K)).
    { intros a' H. destruct a' as [r| | | | | | |]; try easy. destruct (H Hs) as (b & -> & Hb'). destruct b; [|easy]. destruct (proj1 Hb' eq_refl) as (m & k & Hm & Hk & Hi). now apply (Hno m k) in Hi. }
    inversion Hall as [|? ? ? ? a1 l1 ? P1 HP1 Hr1 Hall1|]; subst. rewrite Hvq in *. injection HP1 as <-. apply Hanswer in Hr1 as ->. f_equal.
    inversion Hall1 as [| |? ? ? d1 ? l2 ? Hd1 Hall2]; subst. rewrite Hvu in *. assert (d1 = d) by congruence. subst d1. rewrite Hla. f_equal.
    inversion Hall2 as [|? ? ? ? a3 l3 ? P3 HP3 Hr3 Hall3|]; subst. rewrite Hvq in *. injection HP3 as <-. apply Hanswer in Hr3 as ->. f_equal.
    now inversion Hall3.
  Qed.
End Fail.

(** ** A pack without its index *)
Definition descending (a b : item) : Prop := it_hits b <= it_hits a.
Lemma insert_sorted it l : StronglySorted descending l -> StronglySorted descending (insert_item it l).
Proof.
  induction 1 as [|y l Hl IH Hy]; cbn [insert_item]; [constructor; constructor|]. destruct (it_hits it <? it_hits y) eqn:E.
  - constructor; [exact IH|]. rewrite Forall_forall in *. intros z Hz. apply (Permutation_in _ (insert_perm it l)) in Hz as [<- |Hz]; [unfold descending; lia|now apply Hy].
  - constructor; [now constructor|]. constructor; [unfold descending; lia|]. rewrite Forall_forall in *. intros z Hz. specialize (Hy z Hz). unfold descending in *. lia.
Qed.
Lemma sort_sorted l : StronglySorted descending (sort_items l).
Proof. induction l as [|it l IH]; [constructor|]. cbn [sort_items]. now apply insert_sorted. Qed.
Lemma map_file_missing e d n : e_dir e = Some d -> ~ listed d n -> map_file e n = Raise FileNotFound.
Proof.
  intros He Hn. unfold map_file. rewrite He. assert (file_named n (d_files d) = Raise FileNotFound) as ->; [|easy].
  unfold listed in Hn. induction (d_files d) as [|[m c] l IH]; [easy|]. cbn [file_named]. destruct (beq m n) eqn:E.
  - apply beq_eq in E as ->. exfalso. apply Hn. exists c. now left.
  - apply IH. intros [c' H]. apply Hn. exists c'. now right.
Qed.

Section NoIndex.
  Variable U : bytes -> option pack.
  Context (e : env) (d : dir) (n idx : bytes) (count : Z) (data : bytes) (He : proper_env e d) (Hn : packs_in d n) (Hopen : openable d n count data)
    (Hidx : pack_and_index n idx) (Hno : ~ listed d idx) (Hothers : forall m, packs_in d m -> m <> n -> there U d m).

  (** What the first use loads. *)
  Definition loaded (l : list item) : Prop := NoDup (map it_name l) /\ (forall m, In m (map it_name l) <-> packs_in d m) /\
    forall it, In it l -> it_idx it = None /\ map_file e (it_name it) = Ok (it_pack it) /\ exists v, pack_open (it_pack it) = Ok (v, it_hits it).
  Lemma load_all : exists l m, load e packed_init = (Ok l, mk_pdb (Some l) 0 m) /\ loaded l.
  Proof.
    pose proof He as (He' & _). unfold load. cbn [p_entities packed_init]. rewrite He'. destruct (refresh e d []) as [r l] eqn:E.
    destruct (refresh_ok e d [] r l He (NoDup_nil _) E) as (H1 & H2 & _ & H4).
    assert (Hr : exists b, r = Ok b).
    { assert (Hbad : ~ exists m, packs_in d m /\ ~ In m (map it_name (@nil item)) /\ forall c v k, map_file e m = Ok c -> pack_open c <> Ok (v, k)).
      { intros (m & Hm & _ & Hbad). destruct (list_eq_dec Z.eq_dec m n) as [-> |Hne].
        - destruct (openable_opens e d n count data He Hopen) as (Hf & v & Hp). now apply (Hbad data v count) in Hf.
        - destruct (there_opens U e d m He (Hothers m Hm Hne)) as (k & v & c & _ & _ & Hf & Hp). now apply (Hbad _ v c) in Hf. }
      destruct r as [b| |]; [now exists b|exfalso; now apply Hbad..]. }
    destruct Hr as [b ->]. exists l, (d_mtime d). split; [reflexivity|]. split; [exact H1|]. split; [apply H4|].
    intros it Hi. destruct (H2 it Hi) as [[]|(_ & _ & A & B & C)]. easy.
  Qed.
  Lemma loaded_perm l l' : Permutation l l' -> loaded l -> loaded l'.
  Proof.
    intros Hp (H1 & H2 & H3). split; [|split].
    - eapply Permutation_NoDup; [apply Permutation_map, Hp|exact H1].
    - intros m. rewrite <- H2. split; apply Permutation_in; [apply Permutation_sym|]; now apply Permutation_map.
    - intros it Hi. apply H3. now apply (Permutation_in _ (Permutation_sym Hp)).
  Qed.
  Lemma open_missing it : it_name it = n -> it_idx it = None -> open_index e it = (Raise FileNotFound, it).
  Proof.
    intros E Ei. unfold open_index. rewrite Ei, E, (idx_name_spec _ _ Hidx). now rewrite (map_file_missing e d idx (proj1 He) Hno).
  Qed.
  Lemma loaded_ok l it : loaded l -> In it l -> it_name it <> n -> item_ok U it /\ there U d (it_name it).
  Proof.
    intros (_ & H2 & H3) Hi Hne. assert (Ht : there U d (it_name it)) by (apply Hothers; [apply H2; now apply in_map|easy]). split; [|exact Ht].
    destruct (H3 it Hi) as (A & B & _). destruct (there_opens U e d _ He Ht) as (k & v & c & Hk & Hg & Hf & _). exists k. split; [easy|]. split; [easy|]. split; [congruence|now left].
  Qed.
  Lemma loaded_split l : loaded l -> exists l1 it l2, l = l1 ++ it :: l2 /\ it_name it = n /\ it_idx it = None /\ it_hits it = count /\
    (forall it', In it' l1 -> item_ok U it' /\ there U d (it_name it')).
  Proof.
    intros Hl. pose proof Hl as (H1 & H2 & H3). apply H2 in Hn. apply in_map_iff in Hn as (it & En & Hi). destruct (in_split _ _ Hi) as (l1 & l2 & E).
    exists l1, it, l2. split; [easy|]. split; [easy|]. destruct (H3 it Hi) as (A & B & v & C). split; [easy|]. split.
    - destruct (openable_opens e d n count data He Hopen) as (Hf & v' & Hp). rewrite En in B. assert (it_pack it = data) by congruence. congruence.
    - intros it' Hi'. apply (loaded_ok l); [exact Hl|rewrite E; apply in_or_app; now left|]. intros En'. rewrite E, map_app in H1. cbn [map] in H1.
      apply NoDup_remove_2 in H1. apply H1, in_or_app. left. rewrite En, <- En'. now apply in_map.
  Qed.

  Lemma has_no_index sha : sha_ok sha ->
    (forall m k version c rest, packs_in d m -> m <> n -> U m = Some k -> In sha (k_shas k) -> 0 <= version < 2 ^ 32 -> 0 <= c < 2 ^ 32 ->
       k_data k = [80; 65; 67; 75] ++ be_enc 4 version ++ be_enc 4 c ++ rest -> c < count) ->
    fst (has_object e sha packed_init) = Raise FileNotFound.
  Proof.
    intros Hs Hsmall. destruct load_all as (l & mt & El & Hl). unfold has_object, pack_info. rewrite El. cbn [p_hit_count]. change (0 mod sort_interval =? 0) with true. cbn [p_hit_count].
    assert (Hl' : loaded (sort_items l)) by (apply (loaded_perm l); [apply Permutation_sym, sort_perm|exact Hl]). pose proof (sort_sorted l) as Hsort.
    destruct (loaded_split _ Hl') as (l1 & it & l2 & E & En & Ei & Eh & Hok). pose proof Hl' as (_ & Hin & Hinfo). rewrite E in *. clear E.
    assert (Hlook : exists l3, look e sha (l1 ++ it :: l2) = (Raise FileNotFound, l3)).
    { assert (Hone : forall it', In it' l1 -> exists k, U (it_name it') = Some k /\ ~ In sha (k_shas k)).
      { intros it' Hi'. destruct (Hok it' Hi') as [(k & Hk & Hg & Hp & _) Ht]. exists k. split; [easy|]. intros Hsh. pose proof Hg as (_ & _ & v & c & rest & Hv & Hc & Ed).
        assert (Hin' : In it' (l1 ++ it :: l2)) by (apply in_or_app; now left). destruct (Hinfo it' Hin') as (_ & _ & v' & Hpo). rewrite Hp, Ed, pack_open_head in Hpo by easy. injection Hpo as <- Hh.
        assert (Hne : it_name it' <> n).
        { intros En'. destruct Hl' as (Hnd & _). rewrite map_app in Hnd. cbn [map] in Hnd. apply NoDup_remove_2 in Hnd. apply Hnd, in_or_app. left. rewrite En, <- En'. now apply in_map. }
        assert (c < count) by (apply (Hsmall (it_name it') k v c rest); try easy; apply Hin; now apply in_map).
        assert (Hge : it_hits it <= it_hits it').
        { clear - Hsort Hi'. induction l1 as [|a l1 IH]; [easy|]. cbn [app] in Hsort. inversion Hsort as [|? ? H1 H2]; subst. destruct Hi' as [<- |Hi'].
          - rewrite Forall_forall in H2. apply H2, in_or_app. right. now left.
          - now apply IH. }
        lia. }
      clear Hsort Hl' Hin Hinfo. revert Hok Hone. induction l1 as [|it1 l1 IH]; intros Hok Hone; cbn [app look].
      - rewrite (open_missing it En Ei). cbn [bind]. now eexists.
      - destruct (Hok it1 (or_introl eq_refl)) as [H1 H2]. destruct (open_ok U e d it1 He H1 H2) as (k & ix & it1' & Hk & Hg & Hp & -> & Hx & Ho & _).
        cbn [bind]. destruct Hg as (_ & Hss & _). destruct (sha_to_index_complete ix (k_shas k) sha Ho (strictly_sorted_sorted _ Hss) Hs) as (r & Hr & Hr'). rewrite Hr. cbn [bind].
        destruct (Hone it1 (or_introl eq_refl)) as (k' & Hk' & Hni). assert (k' = k) by congruence. subst k'.
        destruct r as [i|].
        + destruct Hr' as [Hi0 Hi]. exfalso. apply Hni. apply index_ok_split in Hi as (a & b & -> & _); [|lia]. apply in_or_app. right. now left.
        + destruct IH as (l3 & ->); [intros x Hx'; apply Hok; now right|intros x Hx'; apply Hone; now right|]. now eexists. }
    destruct Hlook as (l3 & ->). reflexivity.
  Qed.

  Lemma each_no_index A (f : pidx -> res A) : (forall k ix, good_pack k -> index_open (k_idx k) = Ok ix -> opened ix (k_shas k) -> ix_size ix = Ok (len (k_shas k)) -> exists a, f ix = Ok a) ->
    fst (on_indices e f packed_init) = Raise FileNotFound.
  Proof.
    intros Hf. destruct load_all as (l & mt & El & Hl). unfold on_indices. rewrite El. destruct (loaded_split _ Hl) as (l1 & it & l2 & -> & En & Ei & _ & Hok).
    assert (Hl3 : exists l3, each_index e f (l1 ++ it :: l2) = (Raise FileNotFound, l3)); [|destruct Hl3 as (l3 & ->); reflexivity].
    clear Hl El. induction l1 as [|it1 l1 IH]; cbn [app each_index].
    - rewrite (open_missing it En Ei). cbn [bind]. now eexists.
    - destruct (Hok it1 (or_introl eq_refl)) as [H1 H2]. destruct (open_ok U e d it1 He H1 H2) as (k & ix & it1' & Hk & Hg & Hp & -> & Hx & Ho & Hsz & _).
      cbn [bind]. destruct (Hf k ix Hg Hx Ho Hsz) as [a ->]. destruct IH as (l3 & ->); [intros x Hx'; apply Hok; now right|]. now eexists.
  Qed.
  Lemma all_no_index : fst (size e packed_init) = Raise FileNotFound /\ fst (sha_iter e packed_init) = Raise FileNotFound.
  Proof.
    unfold size, sha_iter. split.
    - pose proof (each_no_index Z ix_size) as H. destruct (on_indices e ix_size packed_init) as [r s]. cbn [fst] in *. rewrite H; [easy|]. intros k ix _ _ _ Hs. eexists. exact Hs.
    - pose proof (each_no_index (list bytes) index_shas) as H. destruct (on_indices e index_shas packed_init) as [r s]. cbn [fst] in *. rewrite H; [easy|].
      intros k ix Hg Hx Ho Hs. exists (k_shas k). now apply (index_shas_ok k ix).
  Qed.
End NoIndex.
