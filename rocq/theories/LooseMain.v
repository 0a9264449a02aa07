(** The properties of LooseObjectDB, put together from the lemmas of the Loose files. *)
From Coq Require Import ZifyBool ZifyNat.
From Verif Require Import Py PyFacts FunModel FunSpec FunProofs ZlibModel ReaderModel StreamSpec ReaderProofs IndexSpec PackSpec PackCheckProofs
  OsModel OsProofs LooseModel LooseSpec LooseProofs LooseTop LooseLive LooseQuery LooseConc.
Ltac Zify.zify_post_hook ::= Z.div_mod_to_equations.

Section Main.
  Context {K : zlib} (L : zlib_laws K) (sha1 : bytes -> bytes) (Hsha : forall d, sha_ok (sha1 d)) (pagesize : Z) (Hpage : 0 < pagesize).
  Context {R : Type} (rd : R -> Z -> res (bytes * R)) (content : R -> bytes) (HR : stream_reader rd content).
  Context (O : os) (fuel : nat).
  Notation lives := (lives K sha1 pagesize rd O fuel).
  Notation store := (store K sha1 pagesize rd fuel).

  Lemma store_query db0 s0 ops1 db1 s1 i i' out s2 ops2 db2 s3 :
    can_read O -> l_cache db0 = [] -> wf s0 -> no_objects (l_root db0) s0 ->
    Forall (proper_op content) (ops1 ++ LStore i :: ops2) -> no_collision sha1 (objects_of content (ops1 ++ LStore i :: ops2)) ->
    len (loose_object_header (is_type i) (is_size i)) <= 8192 ->
    lives db0 s0 ops1 db1 s1 -> runs O (store db1 None i) s1 (Ok (i', out)) s2 -> lives db1 s2 ops2 db2 s3 ->
    exists sha db3, is_binsha i' = Some sha /\ name_of sha1 (object_of content i) sha /\
      is_type i' = is_type i /\ is_size i' = is_size i /\
      yields O (has_object db2 sha) s3 (Ok (true, db3)) /\ yields O (info K db2 sha) s3 (Ok (sha, is_type i, is_size i)).
  Proof.
    intros Hcr Hcache Hw Hno Hp Hnc Hlen Hl1 Hst Hl2.
    destruct (stored_then L sha1 Hsha pagesize Hpage rd content HR O fuel (l_root db0) db0 s0 ops1 db1 s1 i i' out s2 ops2 db2 s3
      eq_refl Hcache Hw Hno Hp Hnc Hl1 Hst Hl2) as (sha & z & H1 & H2 & H3 & H4 & H5 & H6 & H7 & H8).
    apply Forall_app in Hp as [_ Hp]. apply Forall_inv in Hp. destruct Hp as (_ & Hs & _ & _ & Hn1 & Hn2).
    destruct (has_yields O db2 sha s3 H6) as (db3 & Hy & _). rewrite H5 in Hy.
    exists sha, db3. split; [easy|]. split; [rewrite H4; apply form_name|]. split; [easy|]. split; [easy|]. split.
    - replace (path_exists s3 (object_file (l_root db0) sha)) with true in Hy; [easy|]. symmetry. unfold path_exists.
      replace (is_file s3 (object_file (l_root db0) sha)) with true; [easy|]. symmetry. apply is_file_true. intros E. apply contents_none in E. congruence.
    - rewrite Hs. apply (info_yields L O) with (z := z); try easy; [now rewrite H5|now rewrite <- Hs].
  Qed.
  Lemma store_stream db0 s0 ops1 db1 s1 i i' out s2 ops2 db2 s3 sha z form ops :
    can_read O -> l_cache db0 = [] -> wf s0 -> no_objects (l_root db0) s0 ->
    Forall (proper_op content) (ops1 ++ LStore i :: ops2) -> no_collision sha1 (objects_of content (ops1 ++ LStore i :: ops2)) ->
    len (loose_object_header (is_type i) (is_size i)) <= 8192 ->
    lives db0 s0 ops1 db1 s1 -> runs O (store db1 None i) s1 (Ok (i', out)) s2 -> lives db1 s2 ops2 db2 s3 ->
    is_binsha i' = Some sha -> contents s3 (object_file (l_root db0) sha) = Some z ->
    loose_form (is_type i) (content (is_stream i)) form ->
    dense L z form \/ len z <= 8192 ->
    respects (dense L z form) (Z.to_nat (Z.min (is_size i) (8192 - len (loose_object_header (is_type i) (is_size i))))) (length z) (content (is_stream i)) 0 ops ->
    exists f0, forall f, (f0 <= f)%nat ->
      yields O (read_stream (K := K) f db2 sha ops) s3 (Ok (is_type i, is_size i, cursor (content (is_stream i)) 0 ops)).
  Proof.
    intros Hcr Hcache Hw Hno Hp Hnc Hlen Hl1 Hst Hl2 Hi' Hz Hform Hd Hresp.
    destruct (stored_then L sha1 Hsha pagesize Hpage rd content HR O fuel (l_root db0) db0 s0 ops1 db1 s1 i i' out s2 ops2 db2 s3
      eq_refl Hcache Hw Hno Hp Hnc Hl1 Hst Hl2) as (sha' & z' & H1 & H2 & H3 & H4 & H5 & H6 & H7 & H8).
    rewrite Hi' in H1. injection H1 as <-. rewrite Hz in H7. injection H7 as <-.
    apply Forall_app in Hp as [_ Hp]. apply Forall_inv in Hp. destruct Hp as (_ & Hs & _ & _ & Hn1 & Hn2).
    destruct (zl_start K L _ _ H8) as (Hne & _).
    assert (Hf : form = loose_object_header (is_type i) (len (content (is_stream i))) ++ content (is_stream i)).
    { eapply loose_form_unique; [exact Hform|apply loose_form_header]. }
    rewrite Hf in Hd, Hresp. unfold LooseTop.form, object_of in H8. cbn [fst snd] in H8. rewrite Hs in Hlen, Hresp.
    destruct (object_exact L _ _ z [] ops H8 Hn1 Hn2 Hlen Hd Hresp) as (f0 & Hev). rewrite app_nil_r in Hev.
    exists f0. intros f Hf0. rewrite Hs. apply (stream_yields O) with (z := z); try easy; [now rewrite H5|]. now apply Hev.
  Qed.

  Lemma store_complete db i p z : storable content i -> is_binsha i = None \/ may_fail O KShort = false ->
    stored_as K sha1 pagesize rd O (l_root db) i p z -> complete L sha1 content (l_root db) i p z.
  Proof.
    intros Hst Hk Hs. unfold storable, complete in *. destruct (is_binsha i) as [sha|] eqn:Eb.
    - destruct Hk as [?|Hk]; [easy|]. unfold stored_as in Hs. rewrite Eb in Hs. destruct Hs as (_ & Hp & Hz). split; [easy|].
      destruct (Hz Hk) as (chunks & r' & Hd & ->). destruct Hst as [_ Hlen]. pose proof (len_nonneg _ (content (is_stream i))).
      rewrite (delivered_exact rd content maxsize (stream_chunk_size pagesize) HR ltac:(unfold stream_chunk_size; lia) _ _ _ _ Hd ltac:(unfold maxsize; lia) ltac:(left; unfold maxsize; lia)).
      apply firstn_all2. unfold maxsize. unfold len in *. lia.
    - apply (stored_proper L sha1 Hsha pagesize Hpage rd content HR O) in Hs as [Hp Hz]; [|easy].
      exists (LooseTop.form (object_of content i)). split; [apply loose_form_header|]. now split.
  Qed.
  Lemma store_crash db i s s' : storable content i -> is_binsha i = None \/ may_fail O KShort = false ->
    wf s -> stops O (store db None i) s s' ->
    wf s' /\ exists tmp, (forall t, tmp = Some t -> temp_file (l_root db) t /\ contents s t = None) /\
      forall p, tmp <> Some p -> contents s' p = contents s p \/
        (contents s p = None /\ exists z, contents s' p = Some z /\ complete L sha1 content (l_root db) i p z).
  Proof.
    intros Hs Hk Hw Hst.
    assert (Hb : forall sha, is_binsha i = Some sha -> is_bytes sha).
    { intros sha E. unfold storable in Hs. rewrite E in Hs. apply Hs. }
    destruct (store_stops K sha1 pagesize rd (fun d => proj2 (Hsha d)) O fuel db i Hb s s' Hw Hst) as (Hw' & _ & tmp & Ht & Hc).
    split; [easy|]. exists tmp. split; [easy|]. intros p Hp. destruct (Hc p Hp) as [Hq|(Hq & z & Hz & HP)]; [now left|right].
    split; [easy|]. exists z. split; [easy|]. now apply store_complete.
  Qed.
  Lemma store_crash_query db i s s' : (forall sha, is_binsha i = Some sha -> sha_ok sha) -> wf s -> tidy (l_root db) s -> stops O (store db None i) s s' ->
    forall db' r s'', l_root db' = l_root db -> runs O (sha_iter db') s' r s'' ->
    exists shas, r = Ok (map Ok shas) /\ NoDup shas /\ forall sha, In sha shas <-> present (l_root db) s' sha.
  Proof.
    intros Hs Hw Ht (p' & Hst) db' r s'' Hroot Hr.
    pose proof (store_tidy sha1 Hsha pagesize rd O fuel (l_root db) db i s p' s' eq_refl Hs Hw Ht Hst) as Ht'.
    assert (Hw' : wf s') by (eapply steps_wf; eauto).
    rewrite <- Hroot in *. destruct (walk_shas O db' s' r s'' Hw' Ht' Hr) as (_ & shas & H1 & H2 & H3). now exists shas.
  Qed.
  Lemma store_existing db i s s' p z : (forall sha, is_binsha i = Some sha -> is_bytes sha) -> wf s -> stops O (store db None i) s s' ->
    contents s p = Some z -> contents s' p = Some z.
  Proof.
    intros Hb Hw Hst Hz.
    destruct (store_stops K sha1 pagesize rd (fun d => proj2 (Hsha d)) O fuel db i Hb s s' Hw Hst) as (Hw' & _ & tmp & Ht & Hc).
    destruct (Hc p) as [Hq|(Hq & _)]; [|congruence|congruence]. intros ->. destruct (Ht p eq_refl) as [_ Hn]. congruence.
  Qed.
  Lemma stores_at_once root (jobs : list (nat * ldb * istream R)) s l' s' : wf s ->
    (forall f db i, In (f, db, i) jobs -> l_root db = root /\ storable content i /\ (is_binsha i = None \/ may_fail O KShort = false)) ->
    interleaved O (map (fun j => match j with (f, db, i) => LooseModel.store K sha1 pagesize rd f db None i end) jobs) s l' s' ->
    wf s' /\
    (forall p, ~ temp_file root p \/ contents s p <> None -> contents s' p = contents s p \/
       exists z f db i, contents s' p = Some z /\ In (f, db, i) jobs /\ complete L sha1 content root i p z) /\
    (forall p z, contents s p = Some z -> contents s' p <> None) /\
    (forall n f db i i' out, nth_error jobs n = Some (f, db, i) -> nth_error l' n = Some (Ret (Ok (i', out))) ->
       exists sha z, is_binsha i' = Some sha /\ complete L sha1 content root i (object_file root sha) z /\
         contents s' (object_file root sha) <> None).
  Proof.
    intros Hw Hj Hrun.
    destruct (concurrent_stores K sha1 pagesize rd O root jobs s l' s' (fun d => proj2 (Hsha d)) Hw) as (H1 & H2 & H3 & H4); [|exact Hrun|].
    { intros f db i Hin. destruct (Hj f db i Hin) as (Ha & Hb & _). split; [easy|]. intros sha E. unfold storable in Hb. rewrite E in Hb. apply Hb. }
    assert (Hcomp : forall f db i p z, In (f, db, i) jobs -> stored_as K sha1 pagesize rd O root i p z -> complete L sha1 content root i p z).
    { intros f db i p z Hin Hs. destruct (Hj f db i Hin) as (<- & Hb & Hc). now apply store_complete. }
    split; [easy|]. split; [|split; [easy|]].
    - intros p Hp. destruct (H2 p Hp) as [Hq|(z & f & db & i & Hz & Hin & Hs)]; [now left|right]. exists z, f, db, i. split; [easy|]. split; [easy|]. eapply Hcomp; eauto.
    - intros n f db i i' out Hn Hl. destruct (H4 n f db i i' out Hn Hl) as (sha & z & Ha & Hb & Hc). exists sha, z. split; [easy|]. split; [|easy].
      eapply Hcomp; [eapply nth_error_In; eauto|easy].
  Qed.
End Main.

Lemma abbreviation O db s prefix : wf s -> tidy (l_root db) s ->
  (forall sha, present (l_root db) s sha -> abbreviates prefix sha ->
     (forall sha', present (l_root db) s sha' -> abbreviates prefix sha' -> sha' = sha) ->
     yields O (partial_to_complete_sha_hex db prefix) s (Ok sha)) /\
  ((forall sha, present (l_root db) s sha -> ~ abbreviates prefix sha) ->
     yields O (partial_to_complete_sha_hex db prefix) s (Raise BadObject)) /\
  (forall sha sha', sha <> sha' -> present (l_root db) s sha -> present (l_root db) s sha' ->
     abbreviates prefix sha -> abbreviates prefix sha' ->
     yields O (partial_to_complete_sha_hex db prefix) s (Raise AmbiguousObjectName)).
Proof.
  intros Hw Ht. destruct (partial_name O db s prefix Hw Ht) as (H1 & H2 & H3). split; [|split].
  - intros sha Hp Ha Hu. apply H1; [easy|now apply startswith_iff|]. intros sha' Hp' Ha'. apply Hu; [easy|now apply startswith_iff].
  - intros Hn. apply H2. intros sha Hp. destruct (startswith (bin_to_hex sha) prefix) eqn:E; [|easy]. apply startswith_iff in E. now apply Hn in E.
  - intros sha sha' Hne Hp Hp' Ha Ha'. apply (H3 sha sha'); try easy; now apply startswith_iff.
Qed.
