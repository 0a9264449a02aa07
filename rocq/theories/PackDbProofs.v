(** Proofs about PackedDB. *)
From Coq Require Import Permutation ZifyBool ZifyNat.
From Verif Require Import Py PyFacts FunModel FunSpec FunProofs IndexModel IndexSpec IndexProofs IndexSearch ZlibModel ReaderModel PackModel PackSpec PackDbModel PackDbSpec.
Ltac Zify.zify_post_hook ::= Z.div_mod_to_equations.

(** ** Lists of names *)
Lemma mem_in n l : mem n l = true <-> In n l.
Proof.
  unfold mem. rewrite existsb_exists. split; [intros (x & H1 & H2); apply beq_eq in H2; now subst|].
  intros H. exists n. split; [easy|apply beq_refl].
Qed.
Lemma mem_out n l : mem n l = false <-> ~ In n l.
Proof. rewrite <- mem_in. now destruct (mem n l). Qed.
Lemma dedup_in n l : In n (dedup l) <-> In n l.
Proof.
  induction l as [|x l IH]; [easy|]. cbn [dedup]. destruct (mem x l) eqn:E; cbn [In]; rewrite IH; [|easy].
  apply mem_in in E. split; [tauto|]. intros [<- | H]; easy.
Qed.
Lemma dedup_nodup l : NoDup (dedup l).
Proof.
  induction l as [|x l IH]; cbn [dedup]; [constructor|]. destruct (mem x l) eqn:E; [easy|]. constructor; [|easy].
  rewrite dedup_in. now apply mem_out.
Qed.

Lemma nodup_front A (a b : list A) : NoDup (a ++ b) -> NoDup a.
Proof.
  induction a as [|x a IH]; cbn [app]; intros H; [constructor|]. inversion H; subst. constructor; [|now apply IH].
  intros Hi. apply H2. rewrite in_app_iff. now left.
Qed.

(** ** Sorting *)
Lemma insert_perm x l : Permutation (insert_item x l) (x :: l).
Proof.
  induction l as [|y l IH]; cbn [insert_item]; [easy|]. destruct (_ <? _); [|easy]. rewrite IH. apply perm_swap.
Qed.
Lemma sort_perm l : Permutation (sort_items l) l.
Proof. induction l as [|x l IH]; cbn [sort_items]; [easy|]. rewrite insert_perm. now constructor. Qed.

(** ** File names *)
Lemma pack_name_iff n : is_pack_name n = true <-> exists idx, pack_and_index n idx.
Proof.
  unfold is_pack_name, pack_and_index, str_pack_dash, str_dot_pack. rewrite !andb_true_iff, startswith_iff, beq_eq. split.
  - intros [[(y & ->) H2] H3]. assert (10 <= len ([112; 97; 99; 107; 45] ++ y)) as Hl by lia. clear H3.
    rewrite len_app in Hl. change (len [112; 97; 99; 107; 45]) with 5 in Hl.
    unfold slice_from, norm_idx in H2. cbn [Z.ltb Z.compare] in H2. rewrite len_app in H2. change (len [112; 97; 99; 107; 45]) with 5 in H2.
    replace (Z.to_nat (Z.max 0 (-5 + (5 + len y)))) with (5 + (length y - 5))%nat in H2 by (unfold len in *; lia).
    rewrite skipn_app in H2. change (length [112; 97; 99; 107; 45]) with 5%nat in H2.
    rewrite (skipn_all2 [112; 97; 99; 107; 45]) in H2 by (cbn; lia). replace (5 + (length y - 5) - 5)%nat with (length y - 5)%nat in H2 by lia.
    cbn [app] in H2. exists ([112; 97; 99; 107; 45] ++ firstn (length y - 5) y ++ [46; 105; 100; 120]), (firstn (length y - 5) y).
    split; [|easy]. rewrite <- H2, firstn_skipn. easy.
  - intros (idx & x & -> & _). split; [split|].
    + eexists. reflexivity.
    + unfold slice_from, norm_idx. cbn [Z.ltb Z.compare]. rewrite !len_app. change (len [112; 97; 99; 107; 45]) with 5. change (len [46; 112; 97; 99; 107]) with 5.
      pose proof (len_nonneg _ x). replace (Z.to_nat (Z.max 0 (-5 + (5 + (len x + 5))))) with (5 + length x)%nat by (unfold len in *; lia).
      rewrite app_assoc, skipn_app. rewrite skipn_all2 by (rewrite app_length; cbn; lia). rewrite app_length. change (length [112; 97; 99; 107; 45]) with 5%nat.
      now rewrite Nat.sub_diag.
    + rewrite !len_app. change (len [112; 97; 99; 107; 45]) with 5. change (len [46; 112; 97; 99; 107]) with 5. pose proof (len_nonneg _ x). lia.
Qed.
Lemma idx_name_spec n idx : pack_and_index n idx -> idx_name n = idx.
Proof.
  intros (x & -> & ->). unfold idx_name, slice_to, norm_idx, str_dot_idx. cbn [Z.ltb Z.compare]. rewrite !len_app. change (len [112; 97; 99; 107; 45]) with 5. change (len [46; 112; 97; 99; 107]) with 5.
  pose proof (len_nonneg _ x). replace (Z.to_nat (Z.max 0 (-5 + (5 + (len x + 5))))) with (length ([112; 97; 99; 107; 45] ++ x)) by (rewrite app_length; change (length [112; 97; 99; 107; 45]) with 5%nat; unfold len in *; lia).
  rewrite app_assoc, firstn_app, Nat.sub_diag, firstn_all, app_nil_r. cbn [firstn]. now rewrite <- app_assoc.
Qed.

Lemma glob_in d n : In n (glob_packs d) <-> packs_in d n.
Proof.
  unfold glob_packs, packs_in, listed. rewrite filter_In, pack_name_iff, in_map_iff. split.
  - intros [((m & c) & <- & H1) H2]. split; [now exists c|easy].
  - intros [(c & H1) H2]. split; [|easy]. now exists (n, c).
Qed.
Lemma glob_nodup d : NoDup (map fst (d_files d)) -> NoDup (glob_packs d).
Proof. intros H. unfold glob_packs. now apply NoDup_filter. Qed.

Lemma file_named_in n c l : NoDup (map fst l) -> In (n, c) l -> file_named n l = c.
Proof.
  induction l as [|(m, c') l IH]; [easy|]. cbn [map fst file_named]. intros Hn [H|H].
  - injection H as -> ->. now rewrite beq_refl.
  - inversion Hn; subst. destruct (beq m n) eqn:E; [|now apply IH]. apply beq_eq in E. subst.
    exfalso. apply H2. apply in_map_iff. now exists (n, c).
Qed.
Lemma map_file_in e d n c : proper_env e d -> In (n, Ok c) (d_files d) -> c <> [] -> map_file e n = Ok c.
Proof.
  intros (He & Hn & _) Hi Hc. unfold map_file. rewrite He, (file_named_in _ _ _ Hn Hi). cbn [bind].
  destruct c; [easy|]. rewrite len_cons. pose proof (len_nonneg _ c). destruct (_ =? 0) eqn:E; [lia|easy].
Qed.

Lemma pack_open_head version n rest : 0 <= version < 2 ^ 32 -> 0 <= n < 2 ^ 32 ->
  pack_open ([80; 65; 67; 75] ++ be_enc 4 version ++ be_enc 4 n ++ rest) = Ok (version, n).
Proof.
  intros Hv Hn. unfold pack_open. change [80; 65; 67; 75] with (be_enc 4 1346454347).
  assert (unpack_be 4 (be_enc 4 1346454347 ++ be_enc 4 version ++ be_enc 4 n ++ rest) 0 = Ok 1346454347) as ->.
  { apply (unpack_be_app 4 1346454347 []); [cbn; lia|easy]. }
  rewrite (unpack_be_app 4 version (be_enc 4 1346454347)) by (easy || (cbn; lia)). rewrite (app_assoc (be_enc 4 1346454347)).
  rewrite (unpack_be_app 4 n) by (easy || (cbn; lia)). easy.
Qed.

(** ** Updating *)
Lemma add_packs_ok e new l r l' : add_packs e new l = (r, l') ->
  exists added, l' = l ++ added /\
    (forall it, In it added -> it_idx it = None /\ map_file e (it_name it) = Ok (it_pack it) /\ exists v, pack_open (it_pack it) = Ok (v, it_hits it)) /\
    match r with
    | Ok _ => map it_name added = new
    | _ => exists n rest, new = map it_name added ++ n :: rest /\
             forall c v k, map_file e n = Ok c -> pack_open c <> Ok (v, k)
    end.
Proof.
  revert l. induction new as [|n new IH]; cbn [add_packs]; intros l H.
  - injection H as <- <-. exists []. now rewrite app_nil_r.
  - destruct (map_file e n) as [d| |] eqn:Em; cbn [bind] in H.
    + destruct (pack_open d) as [[v k]| |] eqn:Ep; cbn [bind] in H.
      * apply IH in H as (added & -> & Ha & Hr). exists (mk_item k n d None :: added). rewrite <- app_assoc. split; [easy|]. split.
        -- intros it [<- | Hi]; [|now apply Ha]. cbn. split; [easy|]. split; [easy|]. now exists v.
        -- destruct r; cbn [map it_name]; [now f_equal|destruct Hr as (m & rest & -> & Hr); now exists m, rest..].
      * injection H as <- <-. exists []. rewrite app_nil_r. split; [easy|]. split; [easy|]. exists n, new. split; [easy|]. intros c v k H. congruence.
      * injection H as <- <-. exists []. rewrite app_nil_r. split; [easy|]. split; [easy|]. exists n, new. split; [easy|]. intros c v k H. congruence.
    + injection H as <- <-. exists []. rewrite app_nil_r. split; [easy|]. split; [easy|]. exists n, new. split; [easy|]. intros c v k H. congruence.
    + injection H as <- <-. exists []. rewrite app_nil_r. split; [easy|]. split; [easy|]. exists n, new. split; [easy|]. intros c v k H. congruence.
Qed.

Lemma remove_first_ok n l : NoDup (map it_name l) -> In n (map it_name l) ->
  exists l', remove_first n l = Some l' /\ NoDup (map it_name l') /\ forall it, In it l' <-> In it l /\ it_name it <> n.
Proof.
  induction l as [|x l IH]; [easy|]. cbn [map remove_first]. intros Hn Hi. inversion Hn as [|? ? Hx Hn']; subst.
  destruct (beq (it_name x) n) eqn:E.
  - apply beq_eq in E. subst n. exists l. split; [easy|]. split; [easy|]. intros it. cbn [In]. split.
    + intros H. split; [tauto|]. intros E. apply Hx. rewrite <- E. now apply in_map.
    + intros [[-> | H] H']; easy.
  - apply beq_neq in E. destruct IH as (l' & -> & H1 & H2); [easy|destruct Hi; [easy|easy]|]. cbn [option_map]. exists (x :: l'). split; [easy|]. split.
    + cbn [map]. constructor; [|easy]. intros H. apply Hx. apply in_map_iff in H as (y & <- & H). apply in_map. now apply H2.
    + intros it. cbn [In]. rewrite H2. split; [|tauto]. intros [-> | H]; tauto.
Qed.
Lemma remove_packs_ok gone l : NoDup (map it_name l) -> NoDup gone -> (forall n, In n gone -> In n (map it_name l)) ->
  exists l', remove_packs gone l = (Ok tt, l') /\ NoDup (map it_name l') /\ forall it, In it l' <-> In it l /\ ~ In (it_name it) gone.
Proof.
  revert l. induction gone as [|n gone IH]; cbn [remove_packs]; intros l Hl Hg Hi.
  - exists l. split; [easy|]. split; [easy|]. intros it. cbn. tauto.
  - inversion Hg as [|? ? Hn Hg']; subst. destruct (remove_first_ok n l Hl) as (l1 & -> & Hl1 & H1); [apply Hi; now left|].
    destruct (IH l1) as (l2 & -> & Hl2 & H2); [easy|easy| |].
    + intros m Hm. specialize (Hi m (or_intror Hm)). apply in_map_iff in Hi as (it & <- & Hit). apply in_map. apply H1. split; [easy|]. intros E. apply Hn. now rewrite <- E.
    + exists l2. split; [easy|]. split; [easy|]. intros it. rewrite H2, H1. cbn [In]. intuition congruence.
Qed.

Lemma nodup_app_items a b : NoDup (map it_name a) -> NoDup (map it_name b) -> (forall it, In it b -> ~ In (it_name it) (map it_name a)) ->
  NoDup (map it_name (a ++ b)).
Proof.
  intros Ha Hb H. induction a as [|x a IH]; [easy|]. cbn [app map]. cbn [map] in Ha. inversion Ha as [|? ? Hx Ha']; subst. constructor.
  - rewrite map_app, in_app_iff. intros [Hi|Hi]; [easy|]. apply in_map_iff in Hi as (it & E & Hi). apply (H it Hi). left. now symmetry.
  - apply IH; [easy|]. intros it Hi Hm. apply (H it Hi). now right.
Qed.

(** What an update does, whatever it finds. *)
Lemma refresh_ok e d l r l' : proper_env e d -> NoDup (map it_name l) -> refresh e d l = (r, l') ->
  NoDup (map it_name l') /\ (forall it, In it l' -> In it l \/ (packs_in d (it_name it) /\ ~ In (it_name it) (map it_name l) /\
    it_idx it = None /\ map_file e (it_name it) = Ok (it_pack it) /\ exists v, pack_open (it_pack it) = Ok (v, it_hits it))) /\
  (forall it, In it l -> packs_in d (it_name it) -> In it l') /\
  match r with
  | Ok b => b = true /\ forall n, In n (map it_name l') <-> packs_in d n
  | _ => exists n, packs_in d n /\ ~ In n (map it_name l) /\ forall c v k, map_file e n = Ok c -> pack_open c <> Ok (v, k)
  end.
Proof.
  intros (He & Hd & Hord) Hl Hr. unfold refresh in Hr.
  set (new := e_order e _) in Hr. set (gone := e_order e (filter _ (dedup _))) in Hr.
  assert (Hnew : forall n, In n new <-> packs_in d n /\ ~ In n (map it_name l)).
  { intros n. unfold new. split; intros H.
    - apply (Permutation_in _ (Hord _)) in H. apply filter_In in H as [H1 H2]. rewrite <- glob_in. split; [easy|]. rewrite <- dedup_in. apply mem_out. now destruct (mem n _).
    - apply (Permutation_in _ (Permutation_sym (Hord _))). apply filter_In. rewrite glob_in. split; [easy|]. destruct H as [_ H]. rewrite <- dedup_in in H. apply mem_out in H. now rewrite H. }
  assert (Hgone : forall n, In n gone <-> ~ packs_in d n /\ In n (map it_name l)).
  { intros n. unfold gone. split; intros H.
    - apply (Permutation_in _ (Hord _)) in H. apply filter_In in H as [H1 H2]. rewrite dedup_in in H1. split; [|easy]. rewrite <- glob_in. apply mem_out. now destruct (mem n _).
    - apply (Permutation_in _ (Permutation_sym (Hord _))). apply filter_In. rewrite dedup_in. split; [easy|]. destruct H as [H _]. rewrite <- glob_in in H. apply mem_out in H. now rewrite H. }
  assert (NoDup new) as Hnn.
  { unfold new. apply (Permutation_NoDup (Permutation_sym (Hord _))). apply NoDup_filter. now apply glob_nodup. }
  assert (NoDup gone) as Hgn.
  { unfold gone. apply (Permutation_NoDup (Permutation_sym (Hord _))). apply NoDup_filter. apply dedup_nodup. }
  clearbody new gone.
  destruct (add_packs e new l) as [r1 l1] eqn:Ea. apply add_packs_ok in Ea as (added & -> & Ha & Hr1).
  assert (Hsub : forall it, In it added -> In (it_name it) new).
  { intros it Hi. assert (In (it_name it) (map it_name added)) as Hm by now apply in_map.
    destruct r1; [now rewrite Hr1 in Hm|destruct Hr1 as (n & rest & -> & _); rewrite in_app_iff; now left..]. }
  assert (NoDup (map it_name added)) as Hadd.
  { destruct r1; [now rewrite Hr1|destruct Hr1 as (n & rest & -> & _); now apply nodup_front in Hnn..]. }
  assert (NoDup (map it_name (l ++ added))) as Hl1.
  { apply nodup_app_items; [easy|easy|]. intros it Hi. now apply Hsub, Hnew in Hi as [_ Hi]. }
  assert (Horig : forall it, In it (l ++ added) -> In it l \/ (packs_in d (it_name it) /\ ~ In (it_name it) (map it_name l) /\
    it_idx it = None /\ map_file e (it_name it) = Ok (it_pack it) /\ exists v, pack_open (it_pack it) = Ok (v, it_hits it))).
  { intros it Hi. apply in_app_iff in Hi as [Hi|Hi]; [now left|right]. pose proof (Hsub it Hi) as Hs. apply Hnew in Hs as [Hs1 Hs2]. destruct (Ha it Hi) as (H1 & H2 & H3). tauto. }
  destruct r1 as [u|x|].
  - destruct (remove_packs_ok gone (l ++ added)) as (l2 & Erem & Hl2 & H2); [easy|easy| |].
    { intros n Hi. rewrite map_app, in_app_iff. left. now apply Hgone. }
    rewrite Erem in Hr. injection Hr as <- <-.
    split; [apply (Permutation_NoDup (Permutation_map it_name (Permutation_sym (sort_perm l2)))); exact Hl2|].
    split; [|split; [|split; [easy|]]].
    + intros it Hi. apply (Permutation_in _ (sort_perm l2)) in Hi. apply H2 in Hi as [Hi _]. now apply Horig.
    + intros it Hi Hp. apply (Permutation_in _ (Permutation_sym (sort_perm l2))). apply H2. rewrite in_app_iff. split; [now left|]. rewrite Hgone. tauto.
    + intros n. split.
      * intros Hi. apply (Permutation_in _ (Permutation_map it_name (sort_perm l2))) in Hi. apply in_map_iff in Hi as (it & <- & Hi). apply H2 in Hi as [Hi Hng].
        rewrite Hgone in Hng. apply in_app_iff in Hi as [Hi|Hi].
        -- assert (In (it_name it) (map it_name l)) by now apply in_map. destruct (mem (it_name it) (glob_packs d)) eqn:E.
           ++ apply mem_in in E. now apply glob_in.
           ++ apply mem_out in E. rewrite glob_in in E. tauto.
        -- now apply Hsub, Hnew in Hi.
      * intros Hp. apply (Permutation_in _ (Permutation_map it_name (Permutation_sym (sort_perm l2)))).
        destruct (mem n (map it_name l)) eqn:E.
        -- apply mem_in in E. apply in_map_iff in E as (it & <- & Hi). apply in_map. apply H2. rewrite in_app_iff. split; [now left|]. rewrite Hgone. tauto.
        -- apply mem_out in E. assert (In n new) as Hn by now apply Hnew. rewrite <- Hr1 in Hn. apply in_map_iff in Hn as (it & <- & Hi). apply in_map. apply H2.
           rewrite in_app_iff. split; [now right|]. rewrite Hgone. tauto.
  - injection Hr as <- <-. split; [easy|]. split; [easy|]. split; [intros it Hi _; rewrite in_app_iff; now left|].
    destruct Hr1 as (n & rest & E & Hf). exists n. assert (In n new) as Hn by (rewrite E, in_app_iff; right; now left). apply Hnew in Hn as [Hn1 Hn2]. now split.
  - injection Hr as <- <-. split; [easy|]. split; [easy|]. split; [intros it Hi _; rewrite in_app_iff; now left|].
    destruct Hr1 as (n & rest & E & Hf). exists n. assert (In n new) as Hn by (rewrite E, in_app_iff; right; now left). apply Hnew in Hn as [Hn1 Hn2]. now split.
Qed.

(** ** Indices *)
Lemma good_index k : good_pack k -> exists ix, index_open (k_idx k) = Ok ix /\ opened ix (k_shas k) /\ ix_size ix = Ok (len (k_shas k)).
Proof.
  intros (Hf & _). destruct (open_file _ _ _ _ _ Hf) as (ix & H1 & (_ & H2 & _) & H3 & _). now exists ix.
Qed.
Lemma good_nonempty k : good_pack k -> k_idx k <> [] /\ k_data k <> [].
Proof.
  intros H. split.
  - intros E. destruct (good_index k H) as (ix & H1 & _). rewrite E in H1. discriminate.
  - destruct H as (_ & _ & v & n & rest & _ & _ & ->). discriminate.
Qed.

Section World.
  Variable U : bytes -> option pack.

  Definition item_ok (it : item) : Prop :=
    exists k, U (it_name it) = Some k /\ good_pack k /\ it_pack it = k_data k /\ (it_idx it = None \/ it_idx it = Some (k_idx k)).
  (** The same, but for the hit counter and the index having been opened. *)
  Definition same (a b : item) : Prop := it_name a = it_name b /\ it_pack a = it_pack b.
  Definition state_ok (l : list item) : Prop := NoDup (map it_name l) /\ Forall item_ok l.
  Definition all_there (d : dir) (l : list item) : Prop := forall it, In it l -> there U d (it_name it).

  Lemma open_ok e d it : proper_env e d -> item_ok it -> there U d (it_name it) ->
    exists k ix it', U (it_name it) = Some k /\ good_pack k /\ it_pack it = k_data k /\ open_index e it = (Ok ix, it') /\
      index_open (k_idx k) = Ok ix /\ opened ix (k_shas k) /\ ix_size ix = Ok (len (k_shas k)) /\
      item_ok it' /\ it_name it' = it_name it /\ it_pack it' = it_pack it.
  Proof.
    intros He (k & Hk & Hg & Hp & Hi) (k' & idx & Hk' & _ & Hn & Hf1 & Hf2). assert (k' = k) as -> by congruence.
    destruct (good_index k Hg) as (ix & Hx & Ho & Hs). destruct (good_nonempty k Hg) as [Hne _].
    unfold open_index. destruct Hi as [Ei|Ei]; rewrite Ei.
    - rewrite (idx_name_spec _ _ Hn), (map_file_in e d idx _ He Hf2 Hne), Hx.
      exists k, ix, (mk_item (it_hits it) (it_name it) (it_pack it) (Some (k_idx k))). repeat (split; [easy|]). split; [|easy].
      exists k. cbn. repeat (split; [easy|]). now right.
    - rewrite Hx. exists k, ix, it. repeat (split; [easy|]). split; [|easy]. exists k. repeat (split; [easy|]). tauto.
  Qed.

  (** The list before and after a query. *)
  Definition moved (l l' : list item) : Prop := Permutation (map it_name l) (map it_name l') /\ Forall item_ok l'.
  Lemma moved_state l l' : state_ok l -> moved l l' -> state_ok l'.
  Proof. intros [H1 _] [H2 H3]. split; [|easy]. now apply (Permutation_NoDup H2). Qed.
  Lemma moved_in l l' n : moved l l' -> In n (map it_name l) <-> In n (map it_name l').
  Proof. intros [H _]. split; intros Hi; [now apply (Permutation_in _ H)|now apply (Permutation_in _ (Permutation_sym H))]. Qed.

  Lemma look_ok e d sha l : proper_env e d -> Forall item_ok l -> all_there d l -> sha_ok sha ->
    exists r l', look e sha l = (Ok r, l') /\ moved l l' /\
    match r with
    | Some (en, i) => exists it k, In it l /\ U (it_name it) = Some k /\ In sha (k_shas k) /\ entity_of k en /\
        sha_to_index (en_index en) sha = Ok (Some i) /\ ix_sha (en_index en) i = sha
    | None => forall it k, In it l -> U (it_name it) = Some k -> ~ In sha (k_shas k)
    end.
  Proof.
    intros He Hl Ht Hsha. induction Hl as [|it l Hit Hl IH]; cbn [look].
    - exists None, []. split; [easy|]. split; [now split|]. easy.
    - destruct (open_ok e d it He Hit (Ht it (or_introl eq_refl))) as (k & ix & it' & Hk & Hg & Hp & -> & Hx & Ho & Hs & Hit' & Hn & Hpk).
      cbn [bind]. destruct Hg as (Hf & Hss & Hhead).
      destruct (sha_to_index_complete ix (k_shas k) sha Ho (strictly_sorted_sorted _ Hss) Hsha) as (r & Hr & Hr'). rewrite Hr. cbn [bind].
      destruct r as [i|].
      + destruct Hr' as [Hi0 Hi]. exists (Some (mk_entity ix (it_pack it'), i)), (mk_item (it_hits it' + 1) (it_name it') (it_pack it') (it_idx it') :: l).
        split; [easy|]. split.
        * split; [cbn [map it_name]; now rewrite Hn|]. constructor; [|easy]. destruct Hit' as (k' & A & B & C & D). exists k'. cbn. tauto.
        * exists it, k. split; [now left|]. split; [easy|]. split; [apply index_ok_split in Hi as (a & b & -> & _); [|lia]; rewrite in_app_iff; right; now left|].
          split; [split; cbn; [easy|congruence]|]. split; [exact Hr|]. cbn. destruct Ho as [_ Ho]. now apply Ho.
      + destruct IH as (r & l' & -> & [Hm1 Hm2] & Hr2); [intros x Hx'; apply Ht; now right|]. exists r, (it' :: l').
        split; [easy|]. split; [split; [cbn [map]; rewrite Hn; now constructor|now constructor]|].
        destruct r as [[en i]|].
        * destruct Hr2 as (x & kx & Hi & Hr2). exists x, kx. split; [now right|easy].
        * intros x kx [<- | Hi] Hkx; [congruence|now apply (Hr2 x)].
  Qed.

  Lemma each_ok A e d (f : pidx -> res A) (val : pack -> A) l : proper_env e d -> Forall item_ok l -> all_there d l ->
    (forall k ix, good_pack k -> index_open (k_idx k) = Ok ix -> opened ix (k_shas k) -> ix_size ix = Ok (len (k_shas k)) -> f ix = Ok (val k)) ->
    exists l' ks, each_index e f l = (Ok (map (fun p => val (snd p)) ks), l') /\ moved l l' /\
      map fst ks = map it_name l /\ forall n k, In (n, k) ks -> U n = Some k.
  Proof.
    intros He Hl Ht Hf. induction Hl as [|it l Hit Hl IH]; cbn [each_index].
    - exists [], []. split; [easy|]. split; [now split|]. easy.
    - destruct (open_ok e d it He Hit (Ht it (or_introl eq_refl))) as (k & ix & it' & Hk & Hg & Hp & -> & Hx & Ho & Hs & Hit' & Hn & Hpk).
      cbn [bind]. rewrite (Hf k ix Hg Hx Ho Hs). destruct IH as (l' & ks & -> & [Hm1 Hm2] & Hks & HU); [intros x Hx'; apply Ht; now right|].
      cbn [bind]. exists (it' :: l'), ((it_name it, k) :: ks). split; [easy|]. split; [split; [cbn [map]; rewrite Hn; now constructor|now constructor]|].
      split; [cbn [map fst]; now f_equal|]. intros n k' [E|Hi]; [congruence|now apply HU].
  Qed.

  Lemma index_shas_ok k ix : good_pack k -> index_open (k_idx k) = Ok ix -> opened ix (k_shas k) -> ix_size ix = Ok (len (k_shas k)) ->
    index_shas ix = Ok (k_shas k).
  Proof.
    intros _ _ [_ Ho] Hs. unfold index_shas. rewrite Hs. cbn [bind]. f_equal. unfold len. rewrite Nat2Z.id.
    apply (nth_ext _ _ [] []); [now rewrite map_length, seq_length|]. intros n Hn. rewrite map_length, seq_length in Hn.
    rewrite (nth_indep _ [] (ix_sha ix (Z.of_nat 0))) by now rewrite map_length, seq_length.
    rewrite (map_nth (fun i => ix_sha ix (Z.of_nat i))), seq_nth by easy. cbn [Nat.add]. apply Ho; [lia|].
    rewrite (index_nth bytes (k_shas k) (Z.of_nat n) []) by (unfold len; lia). now rewrite Nat2Z.id.
  Qed.

  (** What the packs of a list offer for a prefix. *)
  Definition offered (l : list item) (prefix s : bytes) : Prop :=
    exists it k i, In it l /\ U (it_name it) = Some k /\
      first_index (fun s => startswith (bin_to_hex s) prefix) (k_shas k) = Some i /\ index (k_shas k) i = Ok s.
  Lemma offered_cons it k l prefix s : U (it_name it) = Some k ->
    offered (it :: l) prefix s <->
    (exists i, first_index (fun s => startswith (bin_to_hex s) prefix) (k_shas k) = Some i /\ index (k_shas k) i = Ok s) \/ offered l prefix s.
  Proof.
    intros Hk. split.
    - intros (x & kx & i & [<- | Hi] & Hkx & H); [left; assert (kx = k) as -> by congruence; now exists i|right; now exists x, kx, i].
    - intros [(i & H)|(x & kx & i & Hi & H)]; [exists it, k, i; split; [now left|easy]|exists x, kx, i; split; [now right|easy]].
  Qed.
  Lemma scan_ok e d prefix mtch l cand : proper_env e d -> Forall item_ok l -> all_there d l ->
    lower_hex prefix -> 3 <= len prefix <= 40 -> hex_to_bin (pad_even prefix) = Ok mtch ->
    match cand with None => True | Some c => sha_ok c end ->
    exists r l', partial_scan e mtch (len prefix) l cand = (r, l') /\ moved l l' /\
    match r with
    | Ok s => (cand = Some s \/ offered l prefix s) /\ (forall s', offered l prefix s' \/ cand = Some s' -> s' = s)
    | Raise AmbiguousObjectName => exists s s', (offered l prefix s \/ cand = Some s) /\ (offered l prefix s' \/ cand = Some s') /\ s <> s'
    | Raise BadObject => cand = None /\ forall s, ~ offered l prefix s
    | _ => False
    end.
  Proof.
    intros He Hl Ht Hlow Hlen Hbin Hc. revert cand Hc. induction Hl as [|it l Hit Hl IH]; intros cand Hc; cbn [partial_scan].
    - eexists _, []. split; [reflexivity|]. split; [now split|].
      destruct cand as [[|b c]|].
      + destruct Hc as [Hc _]. discriminate.
      + split; [now left|]. intros s' [(x & _ & _ & [] & _)|E]; congruence.
      + split; [easy|]. intros s (x & _ & _ & [] & _).
    - destruct (open_ok e d it He Hit (Ht it (or_introl eq_refl))) as (k & ix & it' & Hk & Hg & Hp & -> & Hx & Ho & Hs & Hit' & Hn & Hpk).
      cbn [bind]. assert (strictly_sorted_shas (k_shas k)) as Hss by (destruct Hg as (_ & ? & _); easy).
      rewrite (partial_lookup ix (k_shas k) prefix mtch Ho Hs Hss Hlow Hlen Hbin). cbn [bind].
      specialize (IH (fun x Hx' => Ht x (or_intror Hx'))).
      assert (Hfst : forall i, first_index (fun s => startswith (bin_to_hex s) prefix) (k_shas k) = Some i ->
                exists s, index (k_shas k) i = Ok s /\ ix_sha ix i = s /\ sha_ok s).
      { intros i E. assert (0 <= i < len (k_shas k)) as Hr.
        { clear - E. revert i E. induction (k_shas k) as [|s l IH]; [easy|]. cbn [first_index]. intros i. destruct (startswith _ _).
          - intros [= <-]. rewrite len_cons. pose proof (len_nonneg _ l). lia.
          - destruct (first_index _ l) as [j|]; [|easy]. cbn [option_map]. intros [= <-]. specialize (IH j eq_refl). rewrite len_cons. lia. }
        destruct (index_in _ (k_shas k) i Hr) as (s & Hs'). exists s. split; [easy|]. destruct Ho as [_ Ho]. split; [apply Ho; [lia|easy]|].
        destruct Hss as [Hall _]. apply index_ok_split in Hs' as (a & b & E2 & _); [|lia]. rewrite E2, Forall_app in Hall. destruct Hall as [_ Hall]. now inversion Hall. }
      destruct (first_index _ (k_shas k)) as [i|] eqn:Ef; cbn [bind].
      + destruct (Hfst i eq_refl) as (s & Hsi & Hsx & Hsok). rewrite Hsx.
        assert (Hoff : forall s', offered (it :: l) prefix s' <-> s' = s \/ offered l prefix s').
        { intros s'. rewrite (offered_cons it k l prefix s' Hk), Ef. split; intros [H|H]; try tauto.
          - destruct H as (j & [= <-] & H). left. congruence.
          - subst. left. now exists i. }
        assert (Hcont : exists r l', partial_scan e mtch (len prefix) l (Some s) = (r, l') /\ moved l l' /\
           match r with
           | Ok s0 => (Some s = Some s0 \/ offered l prefix s0) /\ (forall s', offered l prefix s' \/ Some s = Some s' -> s' = s0)
           | Raise AmbiguousObjectName => exists s0 s', (offered l prefix s0 \/ Some s = Some s0) /\ (offered l prefix s' \/ Some s = Some s') /\ s0 <> s'
           | Raise BadObject => Some s = None /\ forall s0, ~ offered l prefix s0
           | _ => False
           end) by now apply IH.
        destruct Hcont as (r & l' & Hscan & [Hm1 Hm2] & Hr).
        assert (moved (it :: l) (it' :: l')) as Hmv by (split; [cbn [map]; rewrite Hn; now constructor|now constructor]).
        assert (Hgo : forall c, c = None \/ c = Some s -> exists r0 l'0,
          (let (r1, l'1) := partial_scan e mtch (len prefix) l (Some s) in (r1, it' :: l'1)) = (r0, l'0) /\ moved (it :: l) l'0 /\
          match r0 with
          | Ok s0 => (c = Some s0 \/ offered (it :: l) prefix s0) /\ (forall s', offered (it :: l) prefix s' \/ c = Some s' -> s' = s0)
          | Raise AmbiguousObjectName => exists s0 s', (offered (it :: l) prefix s0 \/ c = Some s0) /\ (offered (it :: l) prefix s' \/ c = Some s') /\ s0 <> s'
          | Raise BadObject => c = None /\ (forall s0, ~ offered (it :: l) prefix s0)
          | _ => False
          end).
        { intros c Hcc. rewrite Hscan. exists r, (it' :: l'). split; [easy|]. split; [easy|]. destruct r as [s0|x|].
          - destruct Hr as [H1 H2]. split.
            + right. rewrite Hoff. destruct H1 as [[= ->]|H1]; tauto.
            + intros s'. rewrite Hoff. intros [[-> | H]|H]; [apply H2; now right|apply H2; now left|apply H2; right; destruct Hcc; congruence].
          - destruct x; try easy.
            destruct Hr as (s0 & s' & H1 & H2 & H3). exists s0, s'. rewrite !Hoff. split; [destruct H1 as [H1|[= H1]]; [tauto|left; left; now symmetry]|].
            split; [destruct H2 as [H2|[= H2]]; [tauto|left; left; now symmetry]|easy].
          - easy. }
        destruct cand as [[|b c]|]; [destruct Hc as [Hc _]; discriminate| |now apply Hgo; left].
        destruct (beq (b :: c) s) eqn:Eb.
        * apply beq_eq in Eb. rewrite Eb. apply Hgo. now right.
        * apply beq_neq in Eb. eexists _, _. split; [reflexivity|]. split.
          -- split; [cbn [map]; now rewrite Hn|now constructor].
          -- exists s, (b :: c). split; [left; rewrite Hoff; now left|]. split; [now right|congruence].
      + destruct (IH cand Hc) as (r & l' & Hscan & [Hm1 Hm2] & Hr). rewrite Hscan. exists r, (it' :: l'). split; [easy|].
        split; [split; [cbn [map]; rewrite Hn; now constructor|now constructor]|].
        assert (Hoff : forall s', offered (it :: l) prefix s' <-> offered l prefix s').
        { intros s'. rewrite (offered_cons it k l prefix s' Hk), Ef. split; [|tauto]. intros [(j & H & _)|H]; easy. }
        destruct r as [s0|x|]; [|destruct x; try easy|easy].
        * rewrite Hoff. destruct Hr as [H1 H2]. split; [easy|]. intros s'. rewrite Hoff. apply H2.
        * destruct Hr as [H1 H2]. split; [easy|]. intros s0. rewrite Hoff. apply H2.
        * destruct Hr as (s0 & s' & H1 & H2 & H3). exists s0, s'. now rewrite !Hoff.
  Qed.
End World.
