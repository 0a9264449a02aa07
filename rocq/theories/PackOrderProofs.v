(** Proofs about the order of the packs of PackedDB. *)
From Coq Require Import Sorted Permutation ZifyBool ZifyNat.
From Verif Require Import Py PyFacts FunModel IndexModel ZlibModel ReaderModel PackModel PackDbModel PackDbSpec PackDbProofs PackOrderSpec.

Lemma insert_desc x l : descending l -> descending (insert_item x l).
Proof.
  intros H. induction H as [|y l H IH Hy]; cbn [insert_item]; [repeat constructor|].
  destruct (it_hits x <? it_hits y) eqn:E.
  - constructor; [exact IH|]. apply (Permutation_Forall (Permutation_sym (insert_perm x l))). constructor; [lia|exact Hy].
  - constructor; [now constructor|]. constructor; [lia|]. apply (Forall_impl _ (P := fun b => it_hits b <= it_hits y)); [cbv beta; lia|exact Hy].
Qed.
Lemma sort_desc l : descending (sort_items l).
Proof. induction l as [|x l IH]; [constructor|]. cbn [sort_items]. now apply insert_desc. Qed.
Lemma insert_stable x l h : filter (fun it => it_hits it =? h) (insert_item x l) = filter (fun it => it_hits it =? h) (x :: l).
Proof.
  induction l as [|y l IH]; cbn [insert_item]; [easy|]. destruct (it_hits x <? it_hits y) eqn:E; [|easy].
  cbn [filter] in *. rewrite IH. destruct (it_hits y =? h) eqn:E1, (it_hits x =? h) eqn:E2; try easy. lia.
Qed.
Lemma sort_stable l h : filter (fun it => it_hits it =? h) (sort_items l) = filter (fun it => it_hits it =? h) l.
Proof. induction l as [|x l IH]; [easy|]. cbn [sort_items]. rewrite insert_stable. cbn [filter]. now rewrite IH. Qed.
Lemma sort_rearranged l : rearranged l (sort_items l).
Proof. split; [apply Permutation_sym, sort_perm|]. split; [apply sort_desc|]. intros h. apply sort_stable. Qed.

Lemma open_index_opens e it ix it' : open_index e it = (Ok ix, it') -> opens e it ix /\ it_hits it' = it_hits it /\ it_name it' = it_name it /\ it_pack it' = it_pack it.
Proof.
  unfold open_index, opens. destruct (it_idx it) as [d|] eqn:E.
  - intros [= H <-]. split; [exists d; split; [now left|exact H]|easy].
  - destruct (map_file e (idx_name (it_name it))) as [d| |] eqn:Em; [|discriminate..]. intros [= H <-]. split; [exists d; split; [now right|exact H]|easy].
Qed.
Lemma opens_open_index e it ix : opens e it ix -> fst (open_index e it) = Ok ix.
Proof. intros (d & [E|[E Em]] & Ho); unfold open_index; rewrite E; [|rewrite Em]; exact Ho. Qed.

Lemma look_hit e sha l en i l' : look e sha l = (Ok (Some (en, i)), l') ->
  exists a it b ix, l = a ++ it :: b /\ Forall (has_not e sha) a /\ opens e it ix /\ sha_to_index ix sha = Ok (Some i) /\
    en = mk_entity ix (it_pack it) /\ counters l' = counters a ++ (it_hits it + 1, it_name it) :: counters b.
Proof.
  revert l'. induction l as [|it l IH]; intros l'; cbn [look]; [discriminate|].
  destruct (open_index e it) as [[ix| |] it'] eqn:E; cbn [bind]; [|discriminate..].
  destruct (open_index_opens _ _ _ _ E) as (Ho & E1 & E2 & E3).
  destruct (sha_to_index ix sha) as [[j|]| |] eqn:Es; cbn [bind]; [| |discriminate..].
  - intros [= <- <- <-]. exists [], it, l, ix. split; [easy|]. split; [constructor|]. split; [easy|]. split; [easy|]. rewrite E3. split; [easy|].
    unfold counters. cbn [map app it_hits it_name]. now rewrite E1, E2.
  - destruct (look e sha l) as [r l1] eqn:El. intros [= -> <-]. destruct (IH l1 eq_refl) as (a & jt & b & jx & -> & Ha & H1 & H2 & H3 & H4).
    exists (it :: a), jt, b, jx. split; [easy|]. split; [constructor; [now exists ix|easy]|]. split; [easy|]. split; [easy|]. split; [easy|].
    unfold counters in *. cbn [map app]. now rewrite H4, E1, E2.
Qed.
Lemma look_miss e sha l : Forall (has_not e sha) l -> exists l', look e sha l = (Ok None, l') /\ counters l' = counters l.
Proof.
  intros H. induction H as [|it l (ix & Ho & Hs) _ (l' & IH & Hc)]; cbn [look]; [now exists []|].
  apply opens_open_index in Ho. destruct (open_index e it) as [r it'] eqn:E. cbn [fst] in Ho. subst r.
  destruct (open_index_opens _ _ _ _ E) as (_ & E1 & E2 & _). cbn [bind]. rewrite Hs. cbn [bind]. rewrite IH.
  exists (it' :: l'). split; [easy|]. unfold counters in *. cbn [map]. now rewrite Hc, E1, E2.
Qed.

Lemma the_order s1 l : query_order (p_hit_count s1) l (if p_hit_count s1 mod sort_interval =? 0 then sort_items l else l).
Proof. unfold query_order, sort_interval. destruct (_ =? 0); [apply sort_rearranged|easy]. Qed.
Lemma lookup_hit e sha s en i s' : pack_info e sha s = (Ok (en, i), s') ->
  exists l s1 a it b ix l', load e s = (Ok l, s1) /\ query_order (p_hit_count s1) l (a ++ it :: b) /\ Forall (has_not e sha) a /\
    opens e it ix /\ sha_to_index ix sha = Ok (Some i) /\ en = mk_entity ix (it_pack it) /\
    p_entities s' = Some l' /\ counters l' = counters a ++ (it_hits it + 1, it_name it) :: counters b /\ p_hit_count s' = p_hit_count s1 + 1.
Proof.
  unfold pack_info. destruct (load e s) as [[l| |] s1] eqn:El; [|discriminate..]. pose proof (the_order s1 l) as Ho.
  destruct (look e sha _) as [r l1] eqn:Ek. destruct r as [[[en' i']|]| |]; try discriminate. intros [= -> -> <-].
  destruct (look_hit _ _ _ _ _ _ Ek) as (a & it & b & ix & E & H1 & H2 & H3 & H4 & H5). rewrite E in Ho.
  exists l, s1, a, it, b, ix, l1. cbn. repeat (split; [easy|]). easy.
Qed.
Lemma order_forall n l l' (P : item -> Prop) : query_order n l l' -> Forall P l -> Forall P l'.
Proof. unfold query_order. destruct (_ =? 0); [|now intros ->]. intros [H _] Hl. now apply (Permutation_Forall H). Qed.
Lemma lookup_miss e sha s l s1 : load e s = (Ok l, s1) -> Forall (has_not e sha) l ->
  exists l1 l' s', pack_info e sha s = (Raise BadObject, s') /\ query_order (p_hit_count s1) l l1 /\
    p_entities s' = Some l' /\ counters l' = counters l1 /\ p_hit_count s' = p_hit_count s1.
Proof.
  intros El Hl. unfold pack_info. rewrite El. pose proof (the_order s1 l) as Ho.
  destruct (look_miss e sha _ (order_forall _ _ _ _ Ho Hl)) as (l' & -> & Hc). eexists _, l', _. split; [reflexivity|]. split; [exact Ho|easy].
Qed.
Lemma refresh_desc e d l l' : refresh e d l = (Ok true, l') -> descending l'.
Proof.
  unfold refresh. destruct (add_packs _ _ _) as [[| |] l1]; try discriminate. destruct (remove_packs _ _) as [[| |] l2]; try discriminate.
  intros [= <-]. apply sort_desc.
Qed.
Lemma update_desc e force s s' : update_cache e force s = (Ok true, s') -> exists l, p_entities s' = Some l /\ descending l.
Proof.
  unfold update_cache. destruct (e_dir e) as [d|]; [|discriminate]. destruct (negb force && _); [discriminate|].
  destruct (load e _) as [[l| |] s1]; [|discriminate..]. destruct (refresh e d l) as [r l1] eqn:E. intros [= -> <-].
  exists l1. split; [easy|]. now apply (refresh_desc e d l).
Qed.
(** New packs start with the number of their objects. *)
Lemma add_counts e new l l' : add_packs e new l = (Ok tt, l') ->
  exists added, l' = l ++ added /\ map it_name added = new /\
    Forall (fun it => exists version, pack_open (it_pack it) = Ok (version, it_hits it) /\ map_file e (it_name it) = Ok (it_pack it)) added.
Proof.
  revert l. induction new as [|n new IH]; intros l; cbn [add_packs].
  - intros [= <-]. exists []. rewrite app_nil_r. repeat split. constructor.
  - destruct (map_file e n) as [d| |] eqn:Em; cbn [bind]; [|discriminate..]. destruct (pack_open d) as [[v c]| |] eqn:Eo; cbn [bind]; [|discriminate..].
    intros H. destruct (IH _ H) as (added & -> & <- & Ha). exists (mk_item c n d None :: added). rewrite <- app_assoc. split; [easy|]. split; [easy|].
    constructor; [|exact Ha]. now exists v.
Qed.
Lemma first_load e s l s1 : p_entities s = None -> load e s = (Ok l, s1) -> descending l /\ p_hit_count s1 = p_hit_count s /\
  Forall (fun it => exists version, pack_open (it_pack it) = Ok (version, it_hits it) /\ map_file e (it_name it) = Ok (it_pack it)) l.
Proof.
  intros Hs. unfold load. rewrite Hs. destruct (e_dir e) as [d|]; [|discriminate]. destruct (refresh e d []) as [[b| |] l1] eqn:E; [|discriminate..].
  intros [= <- <-]. assert (b = true) as -> by (revert E; unfold refresh; destruct (add_packs _ _ _) as [[| |] ?]; try discriminate; destruct (remove_packs _ _) as [[| |] ?]; try discriminate; now intros [= <- _]).
  split; [now apply (refresh_desc e d [])|]. split; [easy|]. revert E. unfold refresh. cbn [map dedup filter].
  destruct (add_packs _ _ _) as [[[]| |] l2] eqn:Ea; try discriminate. destruct (add_counts _ _ _ _ Ea) as (added & -> & _ & Ha). clear Ea. cbn [app].
  destruct (remove_packs _ _) as [[| |] l3] eqn:Er; try discriminate. intros [= <-]. apply (Permutation_Forall (Permutation_sym (sort_perm l3))).
  revert Er. generalize (e_order e []). intros gone. revert added Ha. induction gone as [|n gone IH]; intros added Ha; cbn [remove_packs]; [intros H; injection H as _ <-; exact Ha|].
  destruct (remove_first n added) as [l4|] eqn:E4; [|discriminate]. intros Er. apply (IH l4); [|exact Er].
  clear - Ha E4. revert l4 E4. induction Ha as [|it l H Hl IH]; cbn [remove_first]; [discriminate|]. intros l4. destruct (beq _ _); [intros [= <-]; exact Hl|].
  destruct (remove_first n l) as [l5|]; [|discriminate]. intros [= <-]. constructor; [exact H|]. now apply IH.
Qed.
