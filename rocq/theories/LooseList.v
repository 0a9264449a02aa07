(** Listing the objects of a loose object directory, whatever files are there. *)
From Coq Require Import ZifyBool ZifyNat Permutation.
From Verif Require Import Py PyFacts FunModel FunSpec IndexSpec OsModel OsProofs LooseModel DbNames LooseSpec LooseProofs LooseTop LooseQuery StoreShort GitAbbrSpec.

(** A file below root that is named like an object: two characters, 38 characters. *)
Definition object_like (root p : path) : Prop := (exists x q, p = root ++ x :: q) /\ len (basename (dirname p)) = 2 /\ len (basename p) = 38.
Definition digits_of (p : path) : bytes := basename (dirname p) ++ basename p.

Lemma hex_val_iff c : (48 <= c <= 57 \/ 97 <= c <= 102 \/ 65 <= c <= 70) <-> hex_val c <> None.
Proof.
  unfold hex_val. destruct ((48 <=? c) && (c <=? 57)) eqn:E1; [split; [easy|lia]|]. destruct ((97 <=? c) && (c <=? 102)) eqn:E2; [split; [easy|lia]|].
  destruct ((65 <=? c) && (c <=? 70)) eqn:E3; [split; [easy|lia]|]. split; [lia|easy].
Qed.
Lemma hex_total : forall n h, (length h <= n)%nat -> (exists b, hex_to_bin h = Ok b) \/ hex_to_bin h = Raise BinasciiError.
Proof.
  induction n as [|n IH]; intros h Hn; [destruct h; [left; now exists []|cbn in Hn; lia]|]. destruct h as [|a [|b h]]; [left; now exists []|now right|]. cbn [hex_to_bin].
  destruct (hex_val a); [|now right]. destruct (hex_val b); [|now right]. destruct (IH h) as [(r & ->)| ->]; [cbn in Hn; lia|left; now eexists|now right].
Qed.
Lemma hex_any : forall n h b, (length h <= n)%nat -> hex_to_bin h = Ok b -> any_hex h.
Proof.
  induction n as [|n IH]; intros h b Hn H; [destruct h; [constructor|cbn in Hn; lia]|]. destruct h as [|x [|y h]]; [constructor|discriminate|]. cbn [hex_to_bin] in H.
  destruct (hex_val x) eqn:Ex; [|discriminate]. destruct (hex_val y) eqn:Ey; [|discriminate]. apply bind_ok_inv in H as (r & Hr & _).
  constructor; [apply hex_val_iff; congruence|]. constructor; [apply hex_val_iff; congruence|]. apply (IH h r); [cbn in Hn; lia|easy].
Qed.
Lemma any_hex_ok : forall n h, (length h <= n)%nat -> any_hex h -> len h mod 2 = 0 -> exists b, hex_to_bin h = Ok b.
Proof.
  induction n as [|n IH]; intros h Hn H He; [destruct h; [now exists []|cbn in Hn; lia]|]. destruct h as [|x [|y h]]; [now exists []|cbn in He; lia|]. cbn [hex_to_bin].
  inversion H as [|? ? Hx H1]; subst. inversion H1 as [|? ? Hy H2]; subst. apply hex_val_iff in Hx, Hy. destruct (hex_val x); [|easy]. destruct (hex_val y); [|easy].
  rewrite !len_cons in He. destruct (IH h) as (b & ->); [cbn in Hn; lia|easy|replace (len h + 1 + 1) with (len h + 1 * 2) in He by lia; now rewrite Z.mod_add in He by lia|]. now eexists.
Qed.
Lemma digits_len root p : object_like root p -> len (digits_of p) = 40.
Proof. intros (_ & H1 & H2). unfold digits_of. rewrite len_app. lia. Qed.

(** What os.walk gives *)
Lemma walk_list O db s r s' : wf s -> runs O (sha_iter db) s r s' -> s' = s /\ exists files, NoDup files /\
  (forall p, In p files <-> is_file s p = true /\ under (l_root db) p = true) /\ r = Ok (shas_of files).
Proof.
  intros Hw H. unfold sha_iter in H. apply runs_bind in H as (r1 & s1 & H1 & H2).
  inversion H1 as [|? ? p1 s2 ? ? H3 H4]; subst. destruct H3 as (l & Hs & ->). apply runs_ret in H4 as [-> ->].
  destruct Hs as [-> Hperm]. apply runs_ret in H2 as [-> ->]. split; [easy|]. exists l.
  split; [apply (Permutation_NoDup (Permutation_sym Hperm)); apply NoDup_filter; apply (wf_nodup s Hw)|]. split; [|easy].
  intros p. rewrite is_file_true, <- lookup_in. split; intros Hi.
  - apply (Permutation_in p Hperm) in Hi. now apply filter_In in Hi.
  - apply (Permutation_in p (Permutation_sym Hperm)). now apply filter_In.
Qed.
Lemma walk_runs O db s : exists r, runs O (sha_iter db) s (Ok r) s.
Proof.
  exists (shas_of (filter (under (l_root db)) (map fst (w_files s)))). unfold sha_iter. eapply run_then.
  - eapply (run_call _ _ _ (Walk (l_root db)) _ _ (filter (under (l_root db)) (map fst (w_files s)))); [|apply steps_refl]. split; [reflexivity|apply Permutation_refl].
  - apply steps_refl.
Qed.
Lemma size_ro db : reads_only (loose_size db).
Proof. apply ro_bind; [apply ro_bind; easy|easy]. Qed.
Lemma all_ok_map {A} (l : list A) : all_ok (map Ok l) = Ok l.
Proof. induction l as [|a l IH]; [easy|]. cbn [map all_ok bind]. now rewrite IH. Qed.
Lemma all_ok_end {A} (l : list A) e : all_ok (map Ok l ++ [Raise e]) = Raise e.
Proof. induction l as [|a l IH]; [easy|]. cbn [map app all_ok bind]. now rewrite IH. Qed.

Lemma shas_bad l p : In p l -> len (basename (dirname p)) = 2 -> len (basename p) = 38 -> ~ any_hex (digits_of p) -> exists k, shas_of l = map Ok k ++ [Raise BinasciiError].
Proof.
  induction l as [|p0 l IH]; intros Hin H1 H2 Hn; [easy|]. cbn [shas_of].
  destruct (negb (len (basename (dirname p0)) =? 2) || negb (len (basename p0) =? 38)) eqn:E.
  - apply IH; try easy. destruct Hin as [-> |H]; [lia|easy].
  - destruct (hex_total _ (basename (dirname p0) ++ basename p0) (le_n _)) as [(b & Eb)|Eb]; rewrite Eb; [|now exists []].
    destruct Hin as [-> |Hin]; [elim Hn; exact (hex_any _ _ _ (le_n _) Eb)|]. destruct (IH Hin H1 H2 Hn) as (k & ->). now exists (b :: k).
Qed.
Lemma shas_good l : (forall p, In p l -> len (basename (dirname p)) = 2 -> len (basename p) = 38 -> any_hex (digits_of p)) ->
  exists k, shas_of l = map Ok k /\ forall b, In b k <-> exists p, In p l /\ len (basename (dirname p)) = 2 /\ len (basename p) = 38 /\ hex_to_bin (digits_of p) = Ok b.
Proof.
  induction l as [|p0 l IH]; intros H; [exists []; split; [easy|]; intros b; split; [easy|intros (p & [] & _)]|].
  destruct IH as (k & Ek & Hk); [intros p Hp; apply H; now right|]. cbn [shas_of].
  destruct (negb (len (basename (dirname p0)) =? 2) || negb (len (basename p0) =? 38)) eqn:E.
  - exists k. split; [exact Ek|]. intros b. rewrite Hk. split; intros (p & Hp & H1 & H2 & H3); exists p; [split; [now right|easy]|].
    destruct Hp as [-> |Hp]; [lia|easy].
  - assert (H1 : len (basename (dirname p0)) = 2) by lia. assert (H2 : len (basename p0) = 38) by lia.
    destruct (any_hex_ok _ (digits_of p0) (le_n _) (H p0 (or_introl eq_refl) H1 H2)) as (b0 & Eb); [unfold digits_of; rewrite len_app, H1, H2; easy|]. unfold digits_of in Eb. rewrite Eb, Ek.
    exists (b0 :: k). split; [easy|]. intros b. cbn [In]. rewrite Hk. split.
    + intros [<-|(p & Hp & Hr)]; [exists p0; split; [now left|easy]|exists p; split; [now right|easy]].
    + intros (p & [<-|Hp] & H3 & H4 & H5); [left; unfold digits_of in H5; congruence|right; now exists p].
Qed.
Lemma listing O db s : wf s -> tidy (l_root db) s -> exists shas, NoDup shas /\ (forall sha, In sha shas <-> present (l_root db) s sha) /\
  yields O (loose_size db) s (Ok (len shas)) /\ (exists r, runs O (sha_iter db) s r s) /\
  forall r s', runs O (sha_iter db) s r s' -> s' = s /\ exists l, r = Ok (map Ok l) /\ Permutation l shas.
Proof.
  intros Hw Ht. destruct (walk_runs O db s) as (r0 & H0). destruct (walk_shas O db s _ s Hw Ht H0) as (_ & shas & E0 & Hnd & Hin).
  exists shas. split; [exact Hnd|]. split; [exact Hin|].
  assert (Hall : forall r s', runs O (sha_iter db) s r s' -> s' = s /\ exists l, r = Ok (map Ok l) /\ Permutation l shas).
  { intros r s' H. destruct (walk_shas O db s _ s' Hw Ht H) as (-> & l & -> & Hn2 & Hin2). split; [easy|]. exists l. split; [easy|]. apply NoDup_Permutation; [easy..|]. intros x. now rewrite Hin, Hin2. }
  split; [|split; [eexists; exact H0|exact Hall]].
  apply yields_ro; [apply size_ro|]. intros r H. unfold loose_size in H. apply runs_bind in H as (r1 & s1 & H1 & H2). destruct (Hall _ _ H1) as (-> & l & -> & Hp).
  apply runs_ret in H2 as [-> _]. rewrite all_ok_map. cbn [bind]. unfold len. now rewrite (Permutation_length Hp).
Qed.
Lemma stray O db s p : wf s -> is_file s p = true -> object_like (l_root db) p -> ~ any_hex (digits_of p) ->
  yields O (loose_size db) s (Raise BinasciiError) /\
  (forall r s', runs O (sha_iter db) s r s' -> exists k, r = Ok (map Ok k ++ [Raise BinasciiError])) /\
  forall digits r s', runs O (partial_to_complete_sha_hex db digits) s r s' -> r = Raise BinasciiError \/ r = Raise AmbiguousObjectName.
Proof.
  intros Hw Hf (Hu & H1 & H2) Hn.
  assert (Hall : forall r s', runs O (sha_iter db) s r s' -> s' = s /\ exists k, r = Ok (map Ok k ++ [Raise BinasciiError])).
  { intros r s' H. destruct (walk_list O db s r s' Hw H) as (-> & files & _ & Hin & ->). split; [easy|]. destruct (shas_bad files p) as (k & ->); [apply Hin; split; [easy|now apply under_iff]|easy..|]. now exists k. }
  split; [|split].
  - apply yields_ro; [apply size_ro|]. intros r H. unfold loose_size in H. apply runs_bind in H as (r1 & s1 & G1 & G2). destruct (Hall _ _ G1) as (-> & k & ->).
    apply runs_ret in G2 as [-> _]. now rewrite all_ok_end.
  - intros r s' H. now destruct (Hall r s' H) as (_ & H').
  - intros digits r s' H. unfold partial_to_complete_sha_hex in H. apply runs_bind in H as (r1 & s1 & G1 & G2). destruct (Hall _ _ G1) as (-> & k & ->). apply runs_ret in G2 as [-> _]. clear.
    generalize (@None bytes) as c. induction k as [|b k IH]; intros c; [now left|]. cbn [map app partial_loop bind]. destruct (startswith (bin_to_hex b) digits); [|apply IH]. destruct c; [now right|apply IH].
Qed.
Lemma hex_names O db s : wf s -> (forall p, is_file s p = true -> object_like (l_root db) p -> any_hex (digits_of p)) ->
  forall r s', runs O (sha_iter db) s r s' -> s' = s /\ exists k, r = Ok (map Ok k) /\
    forall sha, In sha k <-> exists p, is_file s p = true /\ object_like (l_root db) p /\ hex_to_bin (digits_of p) = Ok sha.
Proof.
  intros Hw Hh r s' H. destruct (walk_list O db s r s' Hw H) as (-> & files & _ & Hin & ->). split; [easy|].
  destruct (shas_good files) as (k & -> & Hk).
  { intros p Hp H1 H2. apply Hin in Hp as [Hp Hu]. apply under_iff in Hu. now apply Hh. }
  exists k. split; [easy|]. intros sha. rewrite Hk. split.
  - intros (p & Hp & H1 & H2 & H3). apply Hin in Hp as [Hp Hu]. apply under_iff in Hu. now exists p.
  - intros (p & Hp & (Hu & H1 & H2) & H3). exists p. split; [|easy]. apply Hin. split; [easy|now apply under_iff].
Qed.
