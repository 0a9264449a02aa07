(** PackedDB over any sequence of calls. *)
From Coq Require Import Permutation ZifyBool ZifyNat.
From Verif Require Import Py PyFacts FunModel FunSpec FunProofs IndexModel IndexSpec IndexProofs IndexSearch ZlibModel ReaderModel PackModel PackSpec PackDbModel PackDbSpec PackDbProofs.
Ltac Zify.zify_post_hook ::= Z.div_mod_to_equations.

Lemma fold_add_len {A} (ls : list (list A)) z : fold_left Z.add (map (fun l => len l) ls) z = z + len (concat ls).
Proof.
  revert z. induction ls as [|l ls IH]; intros z; cbn [map fold_left concat]; [change (len (@nil A)) with 0; lia|].
  rewrite IH, len_app. lia.
Qed.

Section Top.
  Variable U : bytes -> option pack.
  Context (K : zlib).

  Lemma there_opens e d n : proper_env e d -> there U d n ->
    exists k version count, U n = Some k /\ good_pack k /\ map_file e n = Ok (k_data k) /\ pack_open (k_data k) = Ok (version, count).
  Proof.
    intros He (k & idx & Hk & Hg & _ & Hf & _). destruct (good_nonempty k Hg) as [_ Hne].
    pose proof Hg as (_ & _ & v & c & rest & Hv & Hc & E). exists k, v, c. split; [easy|]. split; [easy|].
    split; [now apply (map_file_in e d)|]. rewrite E. now apply pack_open_head.
  Qed.
  Lemma refresh_good e d l : proper_env e d -> (forall n, packs_in d n -> there U d n) -> state_ok U l ->
    exists l', refresh e d l = (Ok true, l') /\ state_ok U l' /\ forall n, In n (map it_name l') <-> packs_in d n.
  Proof.
    intros He Hd [Hl1 Hl2]. destruct (refresh e d l) as [r l'] eqn:E. destruct (refresh_ok e d l r l' He Hl1 E) as (H1 & H2 & H3 & H4).
    assert (Forall (item_ok U) l') as Hok.
    { apply Forall_forall. intros it Hi. destruct (H2 it Hi) as [Ho|(Hp & _ & Hx & Hm & _)]; [now apply (proj1 (Forall_forall _ _) Hl2)|].
      destruct (there_opens e d (it_name it) He (Hd _ Hp)) as (k & v & c & Hk & Hg & Hm' & _). exists k. split; [easy|]. split; [easy|]. split; [congruence|now left]. }
    destruct r as [b| |].
    - destruct H4 as [-> H4]. exists l'. split; [easy|]. split; [now split|easy].
    - exfalso. destruct H4 as (n & Hp & _ & Hno). destruct (there_opens e d n He (Hd _ Hp)) as (k & v & c & _ & _ & Hm & Ho). now apply (Hno _ v c) in Hm.
    - exfalso. destruct H4 as (n & Hp & _ & Hno). destruct (there_opens e d n He (Hd _ Hp)) as (k & v & c & _ & _ & Hm & Ho). now apply (Hno _ v c) in Hm.
  Qed.

  Definition rep (v : view) (s : pdb) : Prop :=
    p_mtime s = v_mtime v /\
    match v_known v, p_entities s with
    | None, None => True
    | Some P, Some l => state_ok U l /\ forall n, P n <-> In n (map it_name l)
    | _, _ => False
    end.

  (** The list a query works on. *)
  Lemma load_ok e q v s : proper_op U (Query e q) v -> rep v s ->
    exists d l s' P, load e s = (Ok l, s') /\ proper_env e d /\ v_known (view_after (Query e q) v) = Some P /\
      (forall n, P n <-> In n (map it_name l)) /\ state_ok U l /\ all_there U d l /\
      p_entities s' = Some l /\ p_mtime s' = v_mtime (view_after (Query e q) v).
  Proof.
    intros (d & He & Hd & Hk) [Hm Hr]. cbn [op_env look_again] in He, Hd. unfold view_after. cbn [op_env]. destruct He as (He & Hdn & Hord). rewrite He. cbn [look_again].
    unfold load. destruct (v_known v) as [P|] eqn:EP, (p_entities s) as [l|] eqn:El; try easy.
    - destruct Hr as [Hr1 Hr2]. exists d, l, s, P. split; [easy|]. split; [easy|]. split; [easy|]. split; [easy|]. split; [easy|]. split; [|easy].
      intros it Hi. apply Hk, Hr2. now apply in_map.
    - specialize (Hd eq_refl). rewrite He. destruct (refresh_good e d [] (conj He (conj Hdn Hord)) Hd) as (l & -> & Hs & Hn); [split; constructor|].
      eexists d, l, _, (packs_in d). split; [reflexivity|]. split; [easy|]. split; [easy|]. split; [intros n; now rewrite Hn|]. split; [easy|].
      split; [|easy]. intros it Hi. apply Hd, Hn. now apply in_map.
  Qed.

  Lemma moved_rep v P l l' h m : v_known v = Some P -> v_mtime v = m -> state_ok U l -> (forall n, P n <-> In n (map it_name l)) ->
    moved U l l' -> rep v (mk_pdb (Some l') h m).
  Proof.
    intros Hk Hm Hs Hn Hmv. split; [easy|]. rewrite Hk. cbn. split; [now apply (moved_state U l)|].
    intros n. rewrite Hn. now apply (moved_in U).
  Qed.

  (** _pack_info *)
  Lemma look_moved e d sha l r l' : proper_env e d -> Forall (item_ok U) l -> all_there U d l -> look e sha l = (r, l') -> moved U l l'.
  Proof.
    intros He Hl. revert r l'. induction Hl as [|it l Hit Hl IH]; intros r l' Ht H; cbn [look] in H.
    - injection H as _ <-. now split.
    - destruct (open_ok U e d it He Hit (Ht it (or_introl eq_refl))) as (k & ix & it' & Hk & Hg & Hp & Eo & Hx & Ho & Hsz & Hit' & Hn & Hpk).
      rewrite Eo in H. destruct (bind (Ok ix) _) as [[ix' [i|]]| |] in H.
      + injection H as _ <-. split; [cbn [map it_name]; now rewrite Hn|]. constructor; [|easy]. destruct Hit' as (k' & A & B & C & D). exists k'. cbn. tauto.
      + destruct (look e sha l) as [r1 l1] eqn:E1. injection H as _ <-.
        destruct (IH _ _ (fun x Hx' => Ht x (or_intror Hx')) eq_refl) as [A B]. split; [cbn [map]; rewrite Hn; now constructor|now constructor].
      + injection H as _ <-. split; [cbn [map]; now rewrite Hn|now constructor].
      + injection H as _ <-. split; [cbn [map]; now rewrite Hn|now constructor].
  Qed.
  Lemma pack_info_ok e q v s sha : proper_op U (Query e q) v -> rep v s ->
    exists P r s', pack_info e sha s = (r, s') /\ v_known (view_after (Query e q) v) = Some P /\ rep (view_after (Query e q) v) s' /\
    (sha_ok sha ->
     (exists n k en i, pack_has U P n k sha /\ entity_of k en /\ r = Ok (en, i) /\ sha_to_index (en_index en) sha = Ok (Some i) /\ ix_sha (en_index en) i = sha) \/
     ((forall n k, ~ pack_has U P n k sha) /\ r = Raise BadObject)).
  Proof.
    intros Ho Hr. destruct (load_ok e q v s Ho Hr) as (d & l & s1 & P & El & He & HP & Hn & Hs & Ht & Hl & Hm).
    unfold pack_info. rewrite El. set (l1 := if _ =? 0 then sort_items l else l).
    assert (Permutation l1 l) as Hp by (unfold l1; destruct (_ =? 0); [apply sort_perm|easy]). clearbody l1.
    assert (state_ok U l1) as Hs1.
    { destruct Hs as [H1 H2]. split; [apply (Permutation_NoDup (Permutation_map it_name (Permutation_sym Hp))); easy|apply (Permutation_Forall (Permutation_sym Hp)); easy]. }
    assert (all_there U d l1) as Ht1 by (intros it Hi; apply Ht; now apply (Permutation_in _ Hp)).
    assert (Hn1 : forall n, P n <-> In n (map it_name l1)).
    { intros n. rewrite Hn. split; intros Hi; [now apply (Permutation_in _ (Permutation_map it_name (Permutation_sym Hp)))|now apply (Permutation_in _ (Permutation_map it_name Hp))]. }
    destruct (look e sha l1) as [r0 l2] eqn:Elk. pose proof (look_moved e d sha l1 r0 l2 He (proj2 Hs1) Ht1 Elk) as Hmv.
    assert (Hsh : sha_ok sha -> exists r, r0 = Ok r /\ match r with
      | Some (en, i) => exists it k, In it l1 /\ U (it_name it) = Some k /\ In sha (k_shas k) /\ entity_of k en /\
          sha_to_index (en_index en) sha = Ok (Some i) /\ ix_sha (en_index en) i = sha
      | None => forall it k, In it l1 -> U (it_name it) = Some k -> ~ In sha (k_shas k)
      end).
    { intros Hsha. destruct (look_ok U e d sha l1 He (proj2 Hs1) Ht1 Hsha) as (r & l2' & E2 & _ & Hr2). exists r. split; [congruence|easy]. }
    exists P. destruct r0 as [[[en i]|]|x|].
    - eexists _, _. split; [reflexivity|]. split; [easy|]. split; [now apply (moved_rep _ P l1)|]. intros Hsha. left.
      destruct (Hsh Hsha) as (r & [= <-] & Hr2). destruct Hr2 as (it & k & Hi & Hk & Hin & Hen & H1 & H2). exists (it_name it), k, en, i. split; [|easy]. split; [|easy]. apply Hn1. now apply in_map.
    - eexists _, _. split; [reflexivity|]. split; [easy|]. split; [now apply (moved_rep _ P l1)|]. intros Hsha. right. split; [|easy].
      destruct (Hsh Hsha) as (r & [= <-] & Hr2). intros n k (H1 & H2 & H3). apply Hn1 in H1. apply in_map_iff in H1 as (it & <- & Hi). now apply (Hr2 it k).
    - eexists _, _. split; [reflexivity|]. split; [easy|]. split; [now apply (moved_rep _ P l1)|]. intros Hsha. now destruct (Hsh Hsha) as (r & E & _).
    - eexists _, _. split; [reflexivity|]. split; [easy|]. split; [now apply (moved_rep _ P l1)|]. intros Hsha. now destruct (Hsh Hsha) as (r & E & _).
  Qed.
  (** The queries that need no name to be given. *)
  Lemma each_top A e q v s (f : pidx -> res A) (val : pack -> A) : proper_op U (Query e q) v -> rep v s ->
    (forall k ix, good_pack k -> index_open (k_idx k) = Ok ix -> opened ix (k_shas k) -> ix_size ix = Ok (len (k_shas k)) -> f ix = Ok (val k)) ->
    exists P ks s', on_indices e f s = (Ok (map (fun p => val (snd p)) ks), s') /\ v_known (view_after (Query e q) v) = Some P /\
      rep (view_after (Query e q) v) s' /\ all_packs U P ks.
  Proof.
    intros Ho Hr Hf. destruct (load_ok e q v s Ho Hr) as (d & l & s1 & P & El & He & HP & Hn & Hs & Ht & Hl & Hm).
    unfold on_indices. rewrite El. destruct (each_ok U A e d f val l He (proj2 Hs) Ht Hf) as (l' & ks & -> & Hmv & Hks & HU).
    eexists P, ks, _. split; [reflexivity|]. split; [easy|]. split; [now apply (moved_rep _ P l)|].
    unfold all_packs. rewrite Hks. split; [apply Hs|]. split; [easy|exact Hn].
  Qed.

  Lemma query_ok e q v s : proper_op U (Query e q) v -> rep v s ->
    exists a s' P, do_op K (Query e q) s = (a, s') /\ v_known (view_after (Query e q) v) = Some P /\
      rep (view_after (Query e q) v) s' /\ right_answer U P q a.
  Proof.
    intros Ho Hr. destruct q as [sha|fuel sha|fuel sha| | |p n|]; cbn [do_op].
    - destruct (pack_info_ok e _ v s sha Ho Hr) as (P & r & s' & E & HP & Hrep & H). unfold has_object. rewrite E.
      destruct r as [x|x|]; [|destruct x|]; eexists _, s', P; (split; [reflexivity|]; split; [easy|]; split; [easy|]); intros Hq;
        destruct (H Hq) as [(n & k & en & i & Hh & _ & E2 & _)|[Hno E2]]; try discriminate; eexists; (split; [reflexivity|]).
      + split; [intros _; now exists n, k|easy].
      + split; [easy|]. intros (n & k & H'). now apply Hno in H'.
    - destruct (pack_info_ok e _ v s sha Ho Hr) as (P & r & s' & E & HP & Hrep & H). unfold info. rewrite E.
      eexists _, s', P. split; [reflexivity|]. split; [easy|]. split; [easy|]. intros Hq.
      destruct (H Hq) as [(n & k & en & i & Hh & Hen & -> & H1 & H2)|[Hno ->]]; [left|right; easy].
      exists n, k, en. split; [easy|]. split; [easy|]. cbn [fst bind]. unfold info_at_index, entity_info, entity_index. rewrite H1, H2. easy.
    - destruct (pack_info_ok e _ v s sha Ho Hr) as (P & r & s' & E & HP & Hrep & H). unfold stream. rewrite E.
      eexists _, s', P. split; [reflexivity|]. split; [easy|]. split; [easy|]. intros Hq.
      destruct (H Hq) as [(n & k & en & i & Hh & Hen & -> & H1 & H2)|[Hno ->]]; [left|right; easy].
      exists n, k, en. split; [easy|]. split; [easy|]. cbn [fst bind]. unfold stream_at_index, entity_stream, entity_index. rewrite H1, H2. easy.
    - destruct (each_top _ e QIter v s index_shas k_shas Ho Hr index_shas_ok) as (P & ks & s' & E & HP & Hrep & Hall).
      unfold sha_iter. rewrite E. eexists _, s', P. split; [reflexivity|]. split; [easy|]. split; [easy|].
      eexists ks, _. split; [easy|]. cbn [fst bind]. split; [reflexivity|]. easy.
    - destruct (each_top _ e QSize v s ix_size (fun k => len (k_shas k)) Ho Hr (fun k ix _ _ _ H => H)) as (P & ks & s' & E & HP & Hrep & Hall).
      unfold size. rewrite E. eexists _, s', P. split; [reflexivity|]. split; [easy|]. split; [easy|].
      exists ks. split; [easy|]. cbn [fst bind]. f_equal. rewrite <- (Z.add_0_l (len _)), <- (fold_add_len _ 0), map_map. easy.
    - destruct (load_ok e _ v s Ho Hr) as (d & l & s1 & P & El & He & HP & Hn & Hs & Ht & Hl & Hm).
      unfold partial_to_complete_sha. rewrite El. destruct (partial_scan e p n l None) as [r l'] eqn:Esc.
      (* the state does not depend on the prefix being proper *)
      assert (moved U l l') as Hmv.
      { clear - Hs Ht He Esc. destruct Hs as [_ Hs]. revert r l' Esc. generalize (@None bytes) as c. induction Hs as [|it l Hit Hl IH]; intros c r l' H; cbn [partial_scan] in H.
        - injection H as _ <-. now split.
        - destruct (open_ok U e d it He Hit (Ht it (or_introl eq_refl))) as (k & ix & it' & Hk & Hg & Hp & Eo & Hx & Ho & Hsz & Hit' & Hn & Hpk).
          rewrite Eo in H. destruct (bind (Ok ix) _) as [c'| |] in H.
          + destruct (partial_scan e p n l c') as [r1 l1] eqn:E1. injection H as _ <-.
            destruct (IH (fun x Hx' => Ht x (or_intror Hx')) _ _ _ E1) as [A B]. split; [cbn [map]; rewrite Hn; now constructor|now constructor].
          + injection H as _ <-. split; [cbn [map]; now rewrite Hn|now constructor].
          + injection H as _ <-. split; [cbn [map]; now rewrite Hn|now constructor]. }
      eexists _, _, P. split; [reflexivity|]. split; [easy|]. split; [now apply (moved_rep _ P l)|].
      intros prefix Hlow -> Hlen Hbin. destruct (scan_ok U e d prefix p l None He (proj2 Hs) Ht Hlow Hlen Hbin I) as (r' & l2 & E2 & _ & Hr2).
      rewrite E2 in Esc. injection Esc as -> _. cbn [fst].
      assert (Hoff : forall s0, offered U l prefix s0 <-> offers U P prefix s0).
      { intros s0. split.
        - intros (it & k & i & Hi & Hk & H). exists (it_name it), k, i. split; [apply Hn; now apply in_map|easy].
        - intros (m & k & i & Hi & Hk & H). apply Hn in Hi. apply in_map_iff in Hi as (it & <- & Hi). now exists it, k, i. }
      destruct r as [s0|x|]; [|destruct x; try easy|easy].
      + destruct Hr2 as [H1 H2]. split; [apply Hoff; destruct H1; [discriminate|easy]|]. intros s' Hs'. apply H2. left. now apply Hoff.
      + destruct Hr2 as [_ H2]. intros s0. rewrite <- Hoff. apply H2.
      + destruct Hr2 as (s0 & s' & H1 & H2 & H3). exists s0, s'. rewrite <- !Hoff. split; [destruct H1; [easy|discriminate]|]. split; [destruct H2; [easy|discriminate]|easy].
    - destruct (load_ok e _ v s Ho Hr) as (d & l & s1 & P & El & He & HP & Hn & Hs & Ht & Hl & Hm).
      unfold entities. rewrite El. eexists _, s1, P. split; [reflexivity|]. split; [easy|]. split.
      + split; [easy|]. rewrite HP, Hl. easy.
      + exists l. cbn [fst]. split; [easy|]. split; [apply Hs|exact Hn].
  Qed.

  Lemma update_ok e force v s : proper_op U (Update e force) v -> rep v s ->
    exists d s', e_dir e = Some d /\ update_cache e force s = (Ok (look_again (Update e force) v d), s') /\ rep (view_after (Update e force) v) s'.
  Proof.
    intros (d & Hp & Hd & _) [Hm Hr]. cbn [op_env look_again] in Hp, Hd. pose proof Hp as (He & _). exists d. revert Hd. unfold update_cache, view_after. cbn [op_env look_again]. rewrite He, Hm.
    replace (v_mtime v <? d_mtime d) with (negb (d_mtime d <=? v_mtime v)) by (destruct (_ <=? _) eqn:E1; symmetry; lia).
    replace (force || negb (d_mtime d <=? v_mtime v)) with (negb (negb force && (d_mtime d <=? v_mtime v))) by (now rewrite negb_andb, negb_involutive).
    destruct (negb force && _); cbn [negb]; intros Hd.
    - exists s. split; [easy|]. split; [easy|]. now split.
    - specialize (Hd eq_refl). assert (exists l s1, load e (mk_pdb (p_entities s) (p_hit_count s) (d_mtime d)) = (Ok l, s1) /\ state_ok U l /\ p_mtime s1 = d_mtime d) as (l & s1 & -> & Hs & Hm1).
      { unfold load. cbn [p_entities]. destruct (v_known v) as [P|] eqn:EP, (p_entities s) as [l|] eqn:El; try easy.
        - exists l. eexists. split; [reflexivity|]. now split.
        - rewrite He. destruct (refresh_good e d [] Hp Hd) as (l & -> & Hs & Hn); [split; constructor|]. exists l. eexists. split; [reflexivity|]. now split. }
      destruct (refresh_good e d l Hp Hd Hs) as (l' & -> & Hs' & Hn). eexists. split; [easy|]. split; [reflexivity|].
      split; [easy|]. cbn [v_known p_entities]. split; [easy|]. intros n. now rewrite Hn.
  Qed.

  Lemma run_right ops v s : all_proper U v ops -> rep v s ->
    exists l s' v', run_ops K ops s = (l, s') /\ all_right U v ops l v' /\ rep v' s'.
  Proof.
    revert v s. induction ops as [|o ops IH]; intros v s Hp Hr; cbn [run_ops].
    - exists [], s, v. split; [easy|]. split; [constructor|easy].
    - destruct Hp as [Hp Hps]. destruct o as [e q|e force].
      + destruct (query_ok e q v s Hp Hr) as (a & s1 & P & -> & HP & Hr1 & Ha).
        destruct (IH _ s1 Hps Hr1) as (l & s2 & v' & -> & Hl & Hr2). exists (a :: l), s2, v'. split; [easy|]. split; [|easy]. now apply (ar_query U v e q ops a l v' P).
      + destruct (update_ok e force v s Hp Hr) as (d & s1 & He & E & Hr1). cbn [do_op]. rewrite E. unfold tag. cbn [fst snd].
        destruct (IH _ s1 Hps Hr1) as (l & s2 & v' & -> & Hl & Hr2). eexists _, s2, v'. split; [reflexivity|]. split; [|easy]. now apply ar_update.
  Qed.
End Top.

(** ** Any sequence of calls, with whatever they find *)

Lemma open_index_name e it r it' : open_index e it = (r, it') -> it_name it' = it_name it.
Proof.
  unfold open_index. destruct (it_idx it); [intros [= _ <-]; easy|]. destruct (map_file _ _); intros [= _ <-]; easy.
Qed.
Lemma look_names e sha l r l' : look e sha l = (r, l') -> map it_name l' = map it_name l.
Proof.
  revert r l'. induction l as [|it l IH]; intros r l'; cbn [look]; [intros [= _ <-]; easy|].
  destruct (open_index e it) as [ri it1] eqn:Eo. apply open_index_name in Eo.
  destruct (bind ri _) as [[ix [i|]]| |]; try (intros [= _ <-]; cbn [map it_name]; now rewrite Eo).
  destruct (look e sha l) as [r1 l1]. intros [= _ <-]. cbn [map]. rewrite Eo. f_equal. now apply (IH r1).
Qed.
Lemma each_names A e (f : pidx -> res A) l r l' : each_index e f l = (r, l') -> map it_name l' = map it_name l.
Proof.
  revert r l'. induction l as [|it l IH]; intros r l'; cbn [each_index]; [intros [= _ <-]; easy|].
  destruct (open_index e it) as [ri it1] eqn:Eo. apply open_index_name in Eo.
  destruct (bind ri _) as [a| |]; try (intros [= _ <-]; cbn [map it_name]; now rewrite Eo).
  destruct (each_index e f l) as [r1 l1]. intros [= _ <-]. cbn [map]. rewrite Eo. f_equal. now apply (IH r1).
Qed.
Lemma scan_names e p n l c r l' : partial_scan e p n l c = (r, l') -> map it_name l' = map it_name l.
Proof.
  revert c r l'. induction l as [|it l IH]; intros c r l'; cbn [partial_scan]; [intros [= _ <-]; easy|].
  destruct (open_index e it) as [ri it1] eqn:Eo. apply open_index_name in Eo.
  destruct (bind ri _) as [a| |]; try (intros [= _ <-]; cbn [map it_name]; now rewrite Eo).
  destruct (partial_scan e p n l a) as [r1 l1] eqn:E1. intros [= _ <-]. cbn [map]. rewrite Eo. f_equal. now apply (IH a r1).
Qed.

Lemma load_distinct e s r s' : possible_env e -> distinct s -> load e s = (r, s') ->
  distinct s' /\ match r with Ok l => p_entities s' = Some l /\ NoDup (map it_name l) | _ => True end.
Proof.
  unfold load, distinct. intros He Hs. destruct (p_entities s) as [l|] eqn:El; [intros [= <- <-]; rewrite El; easy|].
  destruct He as [E|(d & He)]; [rewrite E; intros [= <- <-]; split; [constructor|easy]|]. pose proof He as (E & _). rewrite E.
  destruct (refresh e d []) as [r1 l1] eqn:Er. destruct (refresh_ok e d [] r1 l1 He (NoDup_nil _) Er) as (H1 & _).
  destruct r1; intros [= <- <-]; cbn; easy.
Qed.
Lemma update_distinct e force s r s' : possible_env e -> distinct s -> update_cache e force s = (r, s') -> distinct s'.
Proof.
  unfold update_cache. intros He Hs. destruct He as [E|(d & He)]; [rewrite E; now intros [= _ <-]|]. pose proof He as (E & _). rewrite E.
  destruct (_ && _); [now intros [= _ <-]|].
  destruct (load e _) as [r1 s1] eqn:El. apply load_distinct in El as [H1 H2]; [|right; now exists d|exact Hs].
  destruct r1 as [l| |]; [|now intros [= _ <-]..]. destruct H2 as [H2 H3].
  destruct (refresh e d l) as [r2 l2] eqn:Er. intros [= _ <-]. now apply (refresh_ok e d l r2 l2) in Er.
Qed.
Lemma pack_info_distinct e sha s r s' : possible_env e -> distinct s -> pack_info e sha s = (r, s') -> distinct s'.
Proof.
  unfold pack_info. intros He Hs. destruct (load e s) as [r1 s1] eqn:El. apply load_distinct in El as [H1 H2]; [|easy|easy].
  destruct r1 as [l| |]; [|now intros [= _ <-]..]. destruct H2 as [H2 H3].
  destruct (look e sha _) as [r2 l2] eqn:Er. apply look_names in Er.
  assert (NoDup (map it_name l2)) as Hn.
  { rewrite Er. destruct (_ =? 0); [|easy]. apply (Permutation_NoDup (Permutation_map it_name (Permutation_sym (sort_perm l)))). easy. }
  destruct r2 as [[p|]| |]; intros [= _ <-]; exact Hn.
Qed.
Lemma do_distinct K o s a s' : possible_env (op_env o) -> distinct s -> do_op K o s = (a, s') -> distinct s'.
Proof.
  intros He Hs. destruct o as [e q|e force]; cbn [op_env] in He; unfold do_op, tag.
  - destruct q as [sha|fuel sha|fuel sha| | |p n|].
    + unfold has_object. destruct (pack_info e sha s) as [r1 s1] eqn:E. apply pack_info_distinct in E; [|easy|easy].
      destruct r1 as [x|x|]; [|destruct x|]; intros [= _ <-]; exact E.
    + unfold info. destruct (pack_info e sha s) as [r1 s1] eqn:E. apply pack_info_distinct in E; [|easy|easy]. intros [= _ <-]; exact E.
    + unfold stream. destruct (pack_info e sha s) as [r1 s1] eqn:E. apply pack_info_distinct in E; [|easy|easy]. intros [= _ <-]; exact E.
    + unfold sha_iter, on_indices. destruct (load e s) as [r1 s1] eqn:El. apply load_distinct in El as [H1 H2]; [|easy|easy].
      destruct r1 as [l| |]; [|now intros [= _ <-]..]. destruct (each_index e _ l) as [r2 l2] eqn:Er. apply each_names in Er.
      intros [= _ <-]. unfold distinct. cbn. now rewrite Er.
    + unfold size, on_indices. destruct (load e s) as [r1 s1] eqn:El. apply load_distinct in El as [H1 H2]; [|easy|easy].
      destruct r1 as [l| |]; [|now intros [= _ <-]..]. destruct (each_index e _ l) as [r2 l2] eqn:Er. apply each_names in Er.
      intros [= _ <-]. unfold distinct. cbn. now rewrite Er.
    + unfold partial_to_complete_sha. destruct (load e s) as [r1 s1] eqn:El. apply load_distinct in El as [H1 H2]; [|easy|easy].
      destruct r1 as [l| |]; [|now intros [= _ <-]..]. destruct (partial_scan e _ _ l _) as [r2 l2] eqn:Er. apply scan_names in Er.
      intros [= _ <-]. unfold distinct. cbn. now rewrite Er.
    + unfold entities. destruct (load e s) as [r1 s1] eqn:El. apply load_distinct in El as [H1 H2]; [|easy|easy]. now intros [= _ <-].
  - destruct (update_cache e force s) as [r1 s1] eqn:E. apply update_distinct in E; [|easy|easy]. intros [= _ <-]; exact E.
Qed.
Lemma run_distinct K ops s l s' : Forall (fun o => possible_env (op_env o)) ops -> distinct s -> run_ops K ops s = (l, s') -> distinct s'.
Proof.
  intros Hops. revert s l s'. induction Hops as [|o ops Ho Hops IH]; intros s l s' Hs; cbn [run_ops]; [now intros [= _ <-]|].
  destruct (do_op K o s) as [a s1] eqn:E. apply do_distinct in E; [|easy|easy]. destruct (run_ops K ops s1) as [l2 s2] eqn:E2.
  intros [= _ <-]. now apply (IH s1 l2).
Qed.

(** ** One update *)
Lemma openable_opens e d n count data : proper_env e d -> openable d n count data -> map_file e n = Ok data /\ exists v, pack_open data = Ok (v, count).
Proof.
  intros He (Hi & v & rest & Hv & Hc & ->). split; [now apply (map_file_in e d)|]. exists v. now apply pack_open_head.
Qed.
Lemma forced_update e d s : proper_env e d -> distinct s ->
  exists r s', update_cache e true s = (r, s') /\ p_mtime s' = d_mtime d /\ distinct s' /\
    (forall it, In it (items s) -> packs_in d (it_name it) -> In it (items s')) /\
    (r = Ok true -> forall n, packs_in d n <-> In n (map it_name (items s'))) /\
    ((forall n, packs_in d n -> In n (map it_name (items s)) \/ exists count data, openable d n count data) -> r = Ok true) /\
    (forall it, In it (items s') -> ~ In it (items s) -> packs_in d (it_name it) /\ it_idx it = None /\ In (it_name it, Ok (it_pack it)) (d_files d)).
Proof.
  intros He Hs. pose proof He as (E & Hdn & _). unfold update_cache. rewrite E. cbn [negb andb].
  assert (Hfile : forall n c, map_file e n = Ok c -> listed d n -> In (n, Ok c) (d_files d)).
  { intros n c Hm (c' & Hi). unfold map_file in Hm. rewrite E, (file_named_in _ _ _ Hdn Hi) in Hm. destruct c' as [x| |]; [|easy|easy].
    cbn [bind] in Hm. destruct (len x =? 0); [easy|]. congruence. }
  (* the list before the comparison *)
  set (s0 := mk_pdb (p_entities s) (p_hit_count s) (d_mtime d)).
  assert (Hload : exists r1 s1, load e s0 = (r1, s1) /\ p_mtime s1 = d_mtime d /\ distinct s1 /\
    (forall it, In it (items s) -> In it (items s1)) /\
    (forall it, In it (items s1) -> In it (items s) \/ (packs_in d (it_name it) /\ it_idx it = None /\ map_file e (it_name it) = Ok (it_pack it))) /\
    match r1 with
    | Ok l => p_entities s1 = Some l
    | _ => exists n, packs_in d n /\ ~ In n (map it_name (items s)) /\ forall c v k, map_file e n = Ok c -> pack_open c <> Ok (v, k)
    end).
  { unfold load. cbn [p_entities s0]. destruct (p_entities s) as [l|] eqn:El.
    - eexists _, _. split; [reflexivity|]. split; [easy|]. unfold distinct, items in *. cbn. rewrite El in *. split; [easy|]. split; [easy|]. split; [tauto|easy].
    - rewrite E. destruct (refresh e d []) as [r1 l1] eqn:Er. destruct (refresh_ok e d [] r1 l1 He (NoDup_nil _) Er) as (H1 & H2 & _ & H4).
      assert (H2' : forall it, In it l1 -> packs_in d (it_name it) /\ it_idx it = None /\ map_file e (it_name it) = Ok (it_pack it)) by (intros it Hi; destruct (H2 it Hi) as [[]|H]; tauto).
      unfold items. rewrite El. destruct r1; eexists _, _; (split; [reflexivity|]; split; [easy|]; split; [exact H1|]; split; [easy|]; cbn; split; [intros it Hi; right; now apply H2'|]); easy. }
  destruct Hload as (r1 & s1 & -> & Hm1 & Hd1 & Hk1 & Hn1 & Hr1).
  destruct r1 as [l| |].
  - destruct (refresh e d l) as [r2 l2] eqn:Er. unfold distinct in Hd1. rewrite Hr1 in Hd1.
    destruct (refresh_ok e d l r2 l2 He Hd1 Er) as (H1 & H2 & H3 & H4). unfold items in Hk1 at 2, Hn1 at 1. rewrite Hr1 in Hk1, Hn1.
    eexists r2, _. split; [reflexivity|]. split; [easy|]. split; [exact H1|]. unfold items at 2 3 5. cbn [p_entities].
    split; [intros it Hi Hp; apply H3; [now apply Hk1|easy]|]. split; [|split].
    + intros ->. intros n. destruct H4 as [_ H4]. now rewrite H4.
    + intros Hopen. destruct r2 as [b| |]; [destruct H4 as [-> _]; easy|exfalso..].
      * destruct H4 as (n & Hp & Hno & Hbad). destruct (Hopen n Hp) as [Hi|(c & data & Ho)].
        -- apply Hno. apply in_map_iff in Hi as (it & <- & Hi). apply in_map. now apply Hk1.
        -- destruct (openable_opens e d n c data He Ho) as (Hm & v & Ho'). now apply (Hbad _ v c) in Hm.
      * destruct H4 as (n & Hp & Hno & Hbad). destruct (Hopen n Hp) as [Hi|(c & data & Ho)].
        -- apply Hno. apply in_map_iff in Hi as (it & <- & Hi). apply in_map. now apply Hk1.
        -- destruct (openable_opens e d n c data He Ho) as (Hm & v & Ho'). now apply (Hbad _ v c) in Hm.
    + intros it Hi Hnew. destruct (H2 it Hi) as [Hi'|(Hp & _ & Hx & Hmf & _)].
      * destruct (Hn1 it Hi') as [H|(Hp & Hx & Hmf)]; [easy|]. split; [easy|]. split; [easy|]. apply Hfile; [easy|apply Hp].
      * split; [easy|]. split; [easy|]. apply Hfile; [easy|apply Hp].
  - eexists _, _. split; [reflexivity|]. split; [easy|]. split; [easy|]. split; [auto|]. split; [easy|]. split.
    + intros Hopen. exfalso. destruct Hr1 as (n & Hp & Hno & Hbad). destruct (Hopen n Hp) as [Hi|(c & data & Ho)]; [easy|].
      destruct (openable_opens e d n c data He Ho) as (Hm & v & Ho'). now apply (Hbad _ v c) in Hm.
    + intros it Hi Hnew. destruct (Hn1 it Hi) as [H|(Hp & Hx & Hmf)]; [easy|]. split; [easy|]. split; [easy|]. apply Hfile; [easy|apply Hp].
  - eexists _, _. split; [reflexivity|]. split; [easy|]. split; [easy|]. split; [auto|]. split; [easy|]. split.
    + intros Hopen. exfalso. destruct Hr1 as (n & Hp & Hno & Hbad). destruct (Hopen n Hp) as [Hi|(c & data & Ho)]; [easy|].
      destruct (openable_opens e d n c data He Ho) as (Hm & v & Ho'). now apply (Hbad _ v c) in Hm.
    + intros it Hi Hnew. destruct (Hn1 it Hi) as [H|(Hp & Hx & Hmf)]; [easy|]. split; [easy|]. split; [easy|]. apply Hfile; [easy|apply Hp].
Qed.
Lemma newer_update e d s : e_dir e = Some d -> p_mtime s < d_mtime d -> update_cache e false s = update_cache e true s.
Proof. intros E H. unfold update_cache. rewrite E. cbn [negb andb]. now replace (d_mtime d <=? p_mtime s) with false by lia. Qed.
Lemma older_update e d s : e_dir e = Some d -> d_mtime d <= p_mtime s -> update_cache e false s = (Ok false, s).
Proof. intros E H. unfold update_cache. rewrite E. cbn [negb andb]. now replace (d_mtime d <=? p_mtime s) with true by lia. Qed.

(** What has_object says is there is there, whatever is wrong with the files. *)
Lemma look_sound e sha l r l' en i : look e sha l = (r, l') -> r = Ok (Some (en, i)) ->
  ix_sha (en_index en) i = sha /\ exists it d, In it l' /\ it_idx it = Some d /\ index_open d = Ok (en_index en) /\ it_pack it = en_pack en.
Proof.
  revert r l'. induction l as [|it l IH]; intros r l'; cbn [look]; [intros [= <- <-]; easy|].
  destruct (open_index e it) as [ri it1] eqn:Eo. destruct ri as [ix| |]; cbn [bind]; [|intros [= <- <-]; easy..].
  destruct (sha_to_index ix sha) as [[j|]| |] eqn:Es; cbn [bind].
  - intros [= <- <-] [= <- <-]. cbn. split; [now apply sha_to_index_sound|]. eexists. unfold open_index in Eo.
    destruct (it_idx it) as [d|] eqn:Ed.
    + injection Eo as Ei <-. exists d. split; [now left|]. cbn. now rewrite Ed.
    + destruct (map_file e _) as [d| |]; [|easy..]. injection Eo as Ei <-. exists d. split; [now left|]. easy.
  - destruct (look e sha l) as [r1 l1]. intros [= <- <-] E. destruct (IH r1 l1 eq_refl E) as (H1 & it2 & d & H2 & H3). split; [easy|].
    exists it2, d. split; [now right|easy].
  - now intros [= <- <-].
  - now intros [= <- <-].
Qed.
Lemma has_sound e sha s s' : has_object e sha s = (Ok true, s') ->
  exists it d ix i, In it (items s') /\ it_idx it = Some d /\ index_open d = Ok ix /\ ix_sha ix i = sha.
Proof.
  unfold has_object, pack_info. destruct (load e s) as [[l| |] s1]; [|destruct e0; discriminate|discriminate].
  destruct (look e sha _) as [r l2] eqn:E. destruct r as [[[en i]|]|x|]; [|discriminate|destruct x; discriminate|discriminate].
  intros [= <-]. destruct (look_sound _ _ _ _ _ en i E eq_refl) as (H1 & it & d & H2 & H3 & H4 & _). now exists it, d, (en_index en), i.
Qed.
