(** Without faults, store succeeds; if only chmod fails, it succeeds or passes on that error. *)
From Coq Require Import ZifyBool ZifyNat Permutation.
From Verif Require Import Py PyFacts FunModel FunSpec FunProofs ZlibModel ReaderModel StreamSpec ReaderProofs IndexSpec PackSpec OsModel OsProofs LooseModel LooseSpec LooseProofs LooseTop.
Ltac Zify.zify_post_hook ::= Z.div_mod_to_equations.

Lemma temp_not_above root t sha d : temp_file root t -> len sha = 20 -> In d (ancestors [] (dirname (object_file root sha))) -> d <> t.
Proof.
  intros (suf & Hsuf & ->) Hs Hin ->. apply in_ancestors in Hin as (l1 & l2 & E1 & E2 & _). cbn [app] in E1. subst l1.
  unfold object_file in E2. rewrite dirname_app2 in E2. rewrite <- app_assoc in E2. apply app_inv_head in E2. cbn [app] in E2.
  assert (E3 : firstn 2 (bin_to_hex sha) = obj_prefix ++ suf) by congruence. clear E2. rename E3 into E2. apply (f_equal len) in E2. rewrite len_firstn, bin_to_hex_len in E2. destruct Hsuf as [Hl _].
  rewrite len_app in E2. change (len obj_prefix) with 3 in E2. lia.
Qed.

Section Live.
  Context (K : zlib) (sha1 : bytes -> bytes) (Hsha : forall d, sha_ok (sha1 d)) (pagesize : Z) (Hpage : 0 < pagesize).
  Context {R : Type} (read : R -> Z -> res (bytes * R)) (content : R -> bytes) (HR : stream_reader read content).
  Context (O : os) (Hcalm : forall k, k <> KChmod -> may_fail O k = false).
  Notation wp := (wp O (fun (_ : unit) s s' => s' = s) (fun _ _ _ _ _ => True)).

  Definition like (s s' : world) : Prop := (forall p, lookup s' p = lookup s p) /\ w_dirs s' = w_dirs s.
  Lemma like_refl s : like s s.
  Proof. easy. Qed.
  Lemma like_trans a b c : like a b -> like b c -> like a c.
  Proof. intros [H1 H2] [H3 H4]. split; [intros p; now rewrite H3|congruence]. Qed.
  Lemma like_dir s s' p : like s s' -> is_dir s' p = is_dir s p.
  Proof. intros [_ H]. unfold is_dir. now rewrite H. Qed.
  Lemma like_file s s' p : like s s' -> is_file s' p = is_file s p.
  Proof. intros [H _]. unfold is_file. now rewrite H. Qed.

  Lemma live_write fd d s (Q : res Z -> unit -> world -> Prop) :
    (forall s', like s s' -> Q (Ok (len d)) tt s') -> wp (sysr (Write fd d)) tt s Q.
  Proof.
    intros H. apply wp_sysr. intros s1 a s2 -> Hs. exists tt. split; [easy|]. cbn [sys] in Hs.
    destruct Hs as [(Hf & _)|[(Hf & _)|[-> ->]]]; [now rewrite Hcalm in Hf by discriminate|now rewrite Hcalm in Hf by discriminate|]. apply H. easy.
  Qed.
  Definition same_kind (w w' : writer K) : Prop :=
    match w, w' with
    | WFDC fd _ _, WFDC fd' _ _ => fd = fd'
    | WFD fd _, WFD fd' _ => fd = fd'
    | _, _ => False
    end.
  Definition file_writer (w : writer K) : Prop := same_kind w w.
  Lemma same_kind_trans a b c : same_kind a b -> same_kind b c -> same_kind a c.
  Proof. destruct a, b, c; cbn; try easy; congruence. Qed.
  Lemma same_kind_file a b : same_kind a b -> file_writer b.
  Proof. destruct a, b; easy. Qed.
  Lemma live_w_write w d s (Q : res (res (option Z) * writer K) -> unit -> world -> Prop) : file_writer w ->
    (forall o w' s', same_kind w w' -> like s s' ->
       (match w with WFDC _ _ _ => o = Some (len d) | _ => True end) -> Q (Ok (Ok o, w')) tt s') ->
    wp (w_write K w d) tt s Q.
  Proof.
    intros Hw H. destruct w; try easy; cbn [w_write].
    - destruct (zc_compress K zip d) as [o zip']. apply wp_after. apply live_write. intros s' Hs. cbn. rewrite Z.eqb_refl. now apply H.
    - apply wp_after. apply live_write. intros s' Hs. cbn. now apply H.
  Qed.
  Lemma live_copy size chunk : 0 < chunk -> forall fuel r w dbw s, file_writer w -> (length (content r) < fuel)%nat -> 0 <= dbw <= size ->
    (dbw < size \/ content r = []) ->
    wp (copy_loop K read fuel r w size chunk dbw) tt s (fun res _ s' => exists n r' w', res = Ok (Ok n, r', w') /\ same_kind w w' /\ like s s').
  Proof.
    intros Hch. induction fuel as [|f IH]; intros r w dbw s Hw Hf Hd Hn; [lia|]. cbn [copy_loop].
    destruct (HR r (Z.min chunk (size - dbw))) as (r1 & Hr1 & Hc1); [destruct Hn as [Hn|Hn]; [left; lia|destruct (Z.eq_dec dbw size); [right; split; [lia|easy]|left; lia]]|].
    rewrite Hr1. set (data := firstn (Z.to_nat (Z.min chunk (size - dbw))) (content r)) in *.
    assert (len data = Z.min (Z.max 0 (Z.min chunk (size - dbw))) (len (content r))) as Hl by (subst data; rewrite len_firstn; lia).
    apply wp_bind. apply live_w_write; [exact Hw|]. intros o w' s' Hk Hs _.
    destruct ((len data <? Z.min chunk (size - dbw)) || (dbw + len data =? size)) eqn:E.
    - cbn. eexists _, _, _. split; [reflexivity|easy].
    - assert (dbw < size) by lia. assert (len data = Z.min chunk (size - dbw)) by lia.
      eapply wp_mono; [|apply IH].
      + intros res [] s2 (n & r' & w2 & -> & H1 & H2). exists n, r', w2. split; [easy|]. split; [eapply same_kind_trans; eauto|eapply like_trans; eauto].
      + eapply same_kind_file; eauto.
      + rewrite Hc1, skipn_length. unfold len in *. lia.
      + lia.
      + left. lia.
  Qed.
  Definition fine (i : istream R) : Prop :=
    match is_binsha i with
    | None => is_size i = len (content (is_stream i))
    | Some sha => sha_ok sha /\ len (content (is_stream i)) <= maxsize
    end.
  (** Also when the size is not that of the stream. *)
  Definition fine_any (i : istream R) : Prop :=
    match is_binsha i with
    | None => 0 < is_size i \/ (is_size i = 0 /\ content (is_stream i) = [])
    | Some sha => sha_ok sha /\ len (content (is_stream i)) <= maxsize
    end.
  Lemma fine_is_any i : fine i -> fine_any i.
  Proof.
    unfold fine, fine_any. destruct (is_binsha i); [easy|]. intros ->. destruct (content (is_stream i)); [now right|left]. rewrite len_cons. pose proof (len_nonneg _ b). lia.
  Qed.
  Lemma live_fill fuel t w i s : (match is_binsha i with None => exists fd seen zip, w = WFDC fd seen zip | Some _ => exists fd pos, w = WFD fd pos end) ->
    fine_any i -> (length (content (is_stream i)) < fuel)%nat ->
    wp (fill K pagesize read fuel (Some t) w i) tt s (fun res _ s' => exists r' w', res = Ok (r', w') /\ same_kind w w' /\ like s s').
  Proof.
    intros Hw Hfine Hf. unfold fill, on_error. apply wp_after. apply wp_bind.
    assert (Hch : 0 < stream_chunk_size pagesize) by (unfold stream_chunk_size; lia). pose proof (len_nonneg _ (content (is_stream i))) as Hnn.
    eapply wp_mono with (Q := fun res _ s' => exists n r' w', res = Ok (Ok n, r', w') /\ same_kind w w' /\ like s s').
    { intros res [] s1 (n & r' & w' & -> & Hk & Hl). apply wp_bind.
      assert (Hclose : wp (w_close K w') tt s1 (fun res _ s' => res = Ok tt /\ like s1 s')).
      { assert (Hsc : forall fd s, wp (sysr (Close fd)) tt s (fun res _ s' => res = Ok tt /\ like s s')).
        { intros fd s2. apply wp_sysr. intros s3 a s4 -> Hs. exists tt. split; [easy|]. cbn [sys] in Hs. destruct Hs as [(Hx & _)|[-> ->]]; [now rewrite Hcalm in Hx by discriminate|easy]. }
        destruct w'; try (destruct w; easy); cbn [w_close].
        - apply wp_bind. apply live_write. intros s2 Hs2. rewrite Z.eqb_refl. eapply wp_mono; [|apply Hsc].
          intros res [] s3 [-> H3]. split; [easy|]. eapply like_trans; eauto.
        - apply Hsc. }
      eapply wp_mono; [|exact Hclose]. intros res [] s2 [-> H2]. cbn. exists r', w'. split; [easy|]. split; [easy|]. eapply like_trans; eauto. }
    unfold feed. unfold fine_any in Hfine. destruct (is_binsha i) as [sha|].
    - destruct Hw as (fd & pos & ->). destruct Hfine as [_ Hm]. apply live_copy; [exact Hch|easy|exact Hf|unfold maxsize in *; lia|unfold maxsize; now left].
    - destruct Hw as (fd & seen & zip & ->). unfold write_object_to. apply wp_bind. apply live_w_write; [easy|].
      intros o w' s1 Hk Hs ->. apply wp_bind.
      eapply wp_mono; [|apply live_copy; [exact Hch|eapply same_kind_file; exact Hk|exact Hf|lia|]].
      + intros res [] s2 (n & r' & w2 & -> & H1 & H2). cbn. eexists _, r', w2. split; [reflexivity|]. split; [exact (same_kind_trans (WFDC fd seen zip) w' w2 Hk H1)|eapply like_trans; eauto].
      + destruct Hfine as [Hfine|[_ Hfine]]; [now left|now right].
  Qed.
  Lemma live_publish root t fd sha s : temp_file root t -> len sha = 20 -> lookup s t = Some fd -> room_for root sha s ->
    wp (publish root t (bin_to_hex sha)) tt s (fun r _ _ => r = Ok tt \/ (may_fail O KChmod = true /\ r = Raise PermissionError)).
  Proof.
    intros Ht Hs Hl (Hr1 & Hr2 & Hr3). unfold publish. rewrite object_path_file. set (target := object_file root sha) in *.
    assert (t <> target) as Hne by now apply temp_not_object.
    apply wp_bind. apply wp_sysr. intros s1 a s2 -> Hsys. exists tt. split; [easy|]. cbn [sys] in Hsys.
    destruct Hsys as [(Hf & _)|Hsys]; [now rewrite Hcalm in Hf by discriminate|].
    replace (existsb (is_file s) (ancestors [] (dirname target))) with false in Hsys.
    2: { symmetry. apply not_true_is_false. intros E. apply existsb_exists in E as (d & Hd & Hfd). rewrite Hr3 in Hfd; easy. }
    destruct Hsys as [-> ->]. set (s1 := add_dirs s (dirname target)).
    assert (Hd1 : is_dir s1 (dirname target) = true) by apply is_dir_added.
    assert (Hd2 : is_dir s1 target = false).
    { subst s1. unfold is_dir in *. destruct target as [|x tg] eqn:Et; [discriminate|]. cbn [add_dirs w_dirs]. rewrite existsb_app, Hr2, orb_false_r.
      apply not_true_is_false. intros E. apply existsb_exists in E as (q & Hq & Eq). apply path_eqb_eq in Eq. subst q.
      apply in_ancestors in Hq as (l1 & l2 & E1 & E2 & _). cbn [app] in E1. subst l1. rewrite <- Et in E2. apply (f_equal (@length bytes)) in E2.
      unfold target, object_file in E2. rewrite dirname_app2, !app_length in E2. cbn [length] in E2. lia. }
    assert (Hl1 : lookup s1 t = Some fd) by exact Hl. clearbody s1.
    apply wp_bind. apply wp_sysv. intros s2 a s3 -> [-> ->]. exists tt. split; [easy|].
    assert (Hchmod : forall s', is_file s' target = true ->
      wp (chmod_loop 14 target) tt s' (fun r _ _ => r = Ok tt \/ (may_fail O KChmod = true /\ r = Raise PermissionError))).
    { intros s' Hf. assert (Hloop : forall n, (n = 0%nat -> may_fail O KChmod = true) ->
        wp (chmod_loop n target) tt s' (fun r _ _ => r = Ok tt \/ (may_fail O KChmod = true /\ r = Raise PermissionError))).
      { induction n as [|n IH]; intros Hn; cbn [chmod_loop]; [right; split; [now apply Hn|easy]|].
        apply wp_after. apply wp_sysr. intros s4 a s5 -> Hsys. exists tt. split; [easy|]. cbn [sys] in Hsys.
        destruct Hsys as [(Hx & -> & ->)|Hsys]; [apply IH; intros _; exact Hx|]. unfold path_exists in Hsys. rewrite Hf in Hsys. destruct Hsys as [-> ->]. now left. }
      apply Hloop. discriminate. }
    apply wp_bind. destruct (is_file s1 target) eqn:Ef.
    - apply wp_sysr. intros s2 a s3 -> Hsys. exists tt. split; [easy|]. cbn [sys] in Hsys.
      destruct Hsys as [(Hx & _)|Hsys]; [now rewrite Hcalm in Hx by discriminate|]. rewrite Hl1 in Hsys. destruct Hsys as [-> ->]. apply Hchmod.
      apply is_file_true. rewrite lookup_unlink. destruct (path_eq_dec target t); [congruence|]. now apply is_file_true.
    - apply wp_sysr. intros s2 a s3 -> Hsys. exists tt. split; [easy|]. cbn [sys] in Hsys.
      destruct Hsys as [(Hx & _)|Hsys]; [now rewrite Hcalm in Hx by discriminate|]. rewrite Hl1, Hd2, Hd1 in Hsys. cbn [negb] in Hsys. rewrite Ef, andb_false_r in Hsys.
      destruct Hsys as [-> ->]. apply Hchmod. apply is_file_true. rewrite lookup_link. now destruct (path_eq_dec target target).
  Qed.
  Lemma live_store fuel db i s : fine_any i -> (length (content (is_stream i)) < fuel)%nat ->
    (forall sha, sha_ok sha -> room_for (l_root db) sha s) ->
    wp (store K sha1 pagesize read fuel db None i) tt s (fun r _ _ => (exists v, r = Ok v) \/ (may_fail O KChmod = true /\ r = Raise PermissionError)).
  Proof.
    intros Hfine Hf Hroom. unfold store. apply wp_bind. apply wp_bind. apply wp_sysr. intros s1 a s2 -> Hsys. exists tt. split; [easy|]. cbn [sys] in Hsys.
    destruct Hsys as [(Hx & _)|Hsys]; [now rewrite Hcalm in Hx by discriminate|].
    assert (is_dir s (l_root db) = true) as Hd by (apply (Hroom (sha1 [])), Hsha). rewrite Hd in Hsys. destruct Hsys as (suf & Hsuf & Hsys). cbv zeta in Hsys.
    destruct Hsys as [Hfree [-> ->]]. set (t := l_root db ++ [obj_prefix ++ suf]) in *. assert (Ht : temp_file (l_root db) t) by now exists suf.
    cbn [OsProofs.wp ret]. apply wp_bind. eapply wp_mono; [|apply live_fill; [destruct (is_binsha i); eauto|exact Hfine|exact Hf]].
    intros res [] s1 (r' & w' & -> & Hk & Hl).
    assert (Hgo : forall sha, sha_ok sha -> wp (do! _ := publish (l_root db) t (bin_to_hex sha) in
          Ret (let! s := hex_to_bin (bin_to_hex sha) in Ok (mk_istream (Some s) (is_type i) (is_size i) r', @None (writer K)))) tt s1 (fun r _ _ => (exists v, r = Ok v) \/ (may_fail O KChmod = true /\ r = Raise PermissionError))).
    { intros sha [H20 Hb]. apply wp_bind. destruct (Hroom sha (conj H20 Hb)) as (_ & G2 & G3).
      eapply wp_mono; [|apply live_publish with (fd := w_next s); [exact Ht|exact H20| |]].
      - intros r [] s2 [-> | [Hx ->]]; cbn; [|now right]. left. rewrite hex_to_bin_to_hex by easy. cbn. eexists; reflexivity.
      - destruct Hl as [-> _]. rewrite lookup_create. now destruct (path_eq_dec t t).
      - split; [|split].
        + rewrite (like_dir _ _ _ Hl). exact Hd.
        + rewrite (like_dir _ _ _ Hl). exact G2.
        + intros d Hin. rewrite (like_file _ _ _ Hl). pose proof (temp_not_above _ t sha d Ht H20 Hin). specialize (G3 d Hin).
          apply is_file_lookup. apply is_file_lookup in G3. rewrite lookup_create. now destruct (path_eq_dec d t). }
    unfold fine_any in Hfine. destruct (is_binsha i) as [sha|] eqn:Eb.
    - destruct Hfine as [Hs _]. assert (exists x l, sha = x :: l) as (x & l & ->).
      { destruct Hs as [Hs _]. destruct sha; [discriminate|]. eauto. }
      cbn [OsProofs.wp ret pbind after]. now apply Hgo.
    - destruct w'; try easy. cbn [w_sha]. cbn [OsProofs.wp ret pbind after]. apply Hgo, Hsha.
  Qed.
  Lemma store_denied_any fuel db i s r s' : fine_any i -> (length (content (is_stream i)) < fuel)%nat ->
    (forall sha, sha_ok sha -> room_for (l_root db) sha s) ->
    runs O (store K sha1 pagesize read fuel db None i) s r s' -> (exists v, r = Ok v) \/ (may_fail O KChmod = true /\ r = Raise PermissionError).
  Proof.
    intros H1 H2 H3 Hr. destruct (wp_steps O _ _ (fun (g : unit) s => eq_refl) _ s _ s' _ Hr tt (live_store fuel db i s H1 H2 H3) (fun _ _ => True)) as (g & Hp & _); easy.
  Qed.
End Live.

Section Calm.
  Context (K : zlib) (sha1 : bytes -> bytes) (Hsha : forall d, sha_ok (sha1 d)) (pagesize : Z) (Hpage : 0 < pagesize).
  Context {R : Type} (read : R -> Z -> res (bytes * R)) (content : R -> bytes) (HR : stream_reader read content).
  Context (O : os) (Hcalm : faultless O).
  Lemma store_succeeds_any fuel db i s r s' : fine_any content i -> (length (content (is_stream i)) < fuel)%nat ->
    (forall sha, sha_ok sha -> room_for (l_root db) sha s) ->
    runs O (store K sha1 pagesize read fuel db None i) s r s' -> exists v, r = Ok v.
  Proof.
    intros H1 H2 H3 Hr.
    destruct (store_denied_any K sha1 Hsha pagesize Hpage read content HR O (fun k _ => Hcalm k) fuel db i s r s' H1 H2 H3 Hr) as [H|[H _]]; [exact H|].
    now rewrite Hcalm in H.
  Qed.
  Lemma store_succeeds fuel db i s r s' : fine content i -> (length (content (is_stream i)) < fuel)%nat ->
    (forall sha, sha_ok sha -> room_for (l_root db) sha s) ->
    runs O (store K sha1 pagesize read fuel db None i) s r s' -> exists v, r = Ok v.
  Proof. intros H. apply store_succeeds_any. eapply fine_is_any; eauto. Qed.
End Calm.
