(** Storing with a preset sha while a write takes less than it is given. *)
From Coq Require Import ZifyBool ZifyNat.
From Verif Require Import Py PyFacts FunModel FunSpec FunProofs ZlibModel ReaderModel StreamSpec ReaderProofs IndexSpec PackSpec
  OsModel OsProofs LooseModel LooseSpec LooseProofs LooseTop LooseLive.
Ltac Zify.zify_post_hook ::= Z.div_mod_to_equations.

Lemma run_then O A B (p : prog A) (f : res A -> prog B) s a s1 r s2 : runs O p s a s1 -> runs O (f a) s1 r s2 -> runs O (after p f) s r s2.
Proof.
  unfold runs. intros H. remember (Ret a) as q. induction H as [p s|p s p1 s1 p2 s2' H1 _ IH]; intros H2; subst.
  - exact H2.
  - destruct p as [|B' c k]; [easy|]. destruct H1 as (b & H1 & ->). cbn [after]. eapply steps_one; [exists b; split; [exact H1|reflexivity]|]. now apply IH.
Qed.
Lemma run_call O A B (c : call B) (k : B -> prog A) s a s1 r s2 : sys O c s a s1 -> runs O (k a) s1 r s2 -> runs O (Call c k) s r s2.
Proof. intros H1 H2. eapply steps_one; [exists a; split; [exact H1|reflexivity]|exact H2]. Qed.

Section Short.
  Context (K : zlib) (sha1 : bytes -> bytes) (pagesize : Z) (Hpage : 0 < pagesize).
  Context {R : Type} (read : R -> Z -> res (bytes * R)) (content : R -> bytes) (HR : stream_reader read content).
  Context (O : os) (Hshort : may_fail O KShort = true).

  Lemma copy_full size chunk fd : 0 < chunk -> forall fuel r dbw pos s, (length (content r) < fuel)%nat -> 0 <= dbw -> dbw < size \/ dbw = size /\ content r = [] -> dbw + len (content r) <= size ->
    exists n r' pos' s', runs O (copy_loop K read fuel r (WFD fd pos) size chunk dbw) s (Ok (Ok n, r', WFD fd pos')) s' /\ like s s' /\ w_data s' fd = w_data s fd ++ content r.
  Proof.
    intros Hch. induction fuel as [|f IH]; intros r dbw pos s Hf Hd Hlt Hle; [lia|]. cbn [copy_loop].
    destruct (HR r (Z.min chunk (size - dbw))) as (r1 & Hr1 & Hc1); [destruct Hlt as [Hlt|[-> Hn]]; [left; lia|right; split; [lia|exact Hn]]|]. rewrite Hr1.
    set (data := firstn (Z.to_nat (Z.min chunk (size - dbw))) (content r)) in *. pose proof (len_nonneg _ (content r)) as Hnn.
    assert (Hl : len data = Z.min (Z.min chunk (size - dbw)) (len (content r))) by (subst data; rewrite len_firstn; lia).
    set (s1 := set_data s fd (w_data s fd ++ data)).
    assert (Hw : runs O (w_write K (WFD fd pos) data) s (Ok (Ok None, WFD fd (pos + len data))) s1).
    { cbn [w_write]. apply (run_call _ _ _ _ _ _ (Ok (len data)) s1); [right; right; easy|]. cbn. apply steps_refl. }
    assert (Hs1 : like s s1) by easy. assert (Hd1 : w_data s1 fd = w_data s fd ++ data) by (cbn; now rewrite Nat.eqb_refl).
    assert (Ha : content r = data ++ content r1) by (rewrite Hc1; subst data; now rewrite firstn_skipn).
    assert (Hlen : len (content r) = len data + len (content r1)) by (rewrite Ha at 1; now rewrite len_app).
    clearbody s1 data. destruct ((len data <? Z.min chunk (size - dbw)) || (dbw + len data =? size)) eqn:E.
    - assert (Hz : content r1 = []). { apply len_0_nil. pose proof (len_nonneg _ (content r1)). lia. }
      eexists _, _, _, s1. split; [|split; [exact Hs1|now rewrite Hd1, Ha, Hz, app_nil_r]].
      eapply run_then; [exact Hw|]. cbn beta iota zeta. apply steps_refl.
    - assert (len data = Z.min chunk (size - dbw)) by lia. assert (0 < len data) by lia.
      destruct (IH r1 (dbw + len data) (pos + len data) s1) as (n & r' & pos' & s' & Hrun & Hlk & Hdt); [unfold len in *; lia|lia|left; lia|lia|].
      exists n, r', pos', s'. split; [|split; [eapply like_trans; eauto|now rewrite Hdt, Hd1, Ha, <- app_assoc]].
      eapply run_then; [exact Hw|]. cbn beta iota zeta. exact Hrun.
  Qed.

  (** The first write takes k bytes, the others all. *)
  Lemma copy_short size chunk fd k : 0 < chunk -> forall fuel r pos s, (length (content r) < fuel)%nat -> len (content r) < size -> chunk < size ->
    0 <= k < Z.min chunk (len (content r)) ->
    exists n r' pos' s', runs O (copy_loop K read fuel r (WFD fd pos) size chunk 0) s (Ok (Ok n, r', WFD fd pos')) s' /\ like s s' /\
      w_data s' fd = w_data s fd ++ firstn (Z.to_nat k) (content r) ++ skipn (Z.to_nat chunk) (content r).
  Proof.
    intros Hch fuel r pos s Hf Hle Hcs Hk. destruct fuel as [|f]; [lia|]. cbn [copy_loop]. rewrite Z.sub_0_r, Z.min_l by lia.
    destruct (HR r chunk) as (r1 & Hr1 & Hc1); [left; lia|]. rewrite Hr1.
    set (data := firstn (Z.to_nat chunk) (content r)) in *.
    assert (Hl : len data = Z.min chunk (len (content r))) by (subst data; rewrite len_firstn; lia).
    set (s1 := set_data s fd (w_data s fd ++ slice_to data k)).
    assert (Hw : runs O (w_write K (WFD fd pos) data) s (Ok (Ok None, WFD fd (pos + len data))) s1).
    { cbn [w_write]. apply (run_call _ _ _ _ _ _ (Ok k) s1); [right; left; split; [exact Hshort|]; exists k; split; [lia|easy]|]. cbn. apply steps_refl. }
    assert (Hs1 : like s s1) by easy. assert (Hd1 : w_data s1 fd = w_data s fd ++ firstn (Z.to_nat k) (content r)).
    { cbn. rewrite Nat.eqb_refl. f_equal. rewrite slice_to_spec by lia. subst data. rewrite firstn_firstn. f_equal. lia. }
    assert (Hlen : len (content r) = len data + len (content r1)) by (rewrite <- (firstn_skipn (Z.to_nat chunk) (content r)) at 1; rewrite len_app, Hc1; reflexivity).
    clearbody s1 data. destruct ((len data <? chunk) || (0 + len data =? size)) eqn:E.
    - assert (Hz : content r1 = []). { apply len_0_nil. pose proof (len_nonneg _ (content r1)). lia. }
      eexists _, _, _, s1. split; [|split; [exact Hs1|now rewrite Hd1, <- Hc1, Hz, app_nil_r]].
      eapply run_then; [exact Hw|]. cbn beta iota zeta. apply steps_refl.
    - destruct (copy_full size chunk fd Hch f r1 (0 + len data) (pos + len data) s1) as (n & r' & pos' & s' & Hrun & Hlk & Hdt); [unfold len in *; lia|lia|left; lia|lia|].
      exists n, r', pos', s'. split; [|split; [eapply like_trans; eauto|now rewrite Hdt, Hd1, Hc1, <- app_assoc]].
      eapply run_then; [exact Hw|]. cbn beta iota zeta. exact Hrun.
  Qed.

  Lemma run_publish root t fd sha s : temp_file root t -> len sha = 20 -> lookup s t = Some fd -> room_for root sha s -> is_file s (object_file root sha) = false ->
    exists s', runs O (publish root t (bin_to_hex sha)) s (Ok tt) s' /\ contents s' (object_file root sha) = Some (w_data s fd).
  Proof.
    intros Ht Hs Hl (Hr1 & Hr2 & Hr3) Hno. unfold publish. rewrite object_path_file. set (target := object_file root sha) in *.
    assert (Hne : t <> target) by now apply temp_not_object. set (s1 := add_dirs s (dirname target)).
    assert (Hd1 : is_dir s1 (dirname target) = true) by apply is_dir_added.
    assert (Hd2 : is_dir s1 target = false).
    { subst s1. unfold is_dir in *. destruct target as [|x tg] eqn:Et; [discriminate|]. cbn [add_dirs w_dirs]. rewrite existsb_app, Hr2, orb_false_r.
      apply not_true_is_false. intros E. apply existsb_exists in E as (q & Hq & Eq). apply path_eqb_eq in Eq. subst q.
      apply in_ancestors in Hq as (l1 & l2 & E1 & E2 & _). cbn [app] in E1. subst l1. rewrite <- Et in E2. apply (f_equal (@length bytes)) in E2.
      unfold target, object_file in E2. rewrite dirname_app2, !app_length in E2. cbn [length] in E2. lia. }
    exists (link (unlink s1 t) target fd). split; [|rewrite contents_link; now destruct (path_eq_dec target target)].
    apply (run_call _ _ _ _ _ _ (Ok tt) s1).
    { right. replace (existsb (is_file s) (ancestors [] (dirname target))) with false; [easy|].
      symmetry. apply not_true_is_false. intros E. apply existsb_exists in E as (d & Hd & Hfd). rewrite Hr3 in Hfd; easy. }
    cbn [after pbind]. apply (run_call _ _ _ _ _ _ false s1); [split; [symmetry; exact Hno|reflexivity]|]. cbn [after pbind].
    apply (run_call _ _ _ _ _ _ (Ok tt) (link (unlink s1 t) target fd)).
    { right. replace (lookup s1 t) with (Some fd) by (symmetry; exact Hl). rewrite Hd2, Hd1. cbn [negb].
      replace (is_file s1 target) with false by (symmetry; exact Hno). rewrite andb_false_r. easy. }
    cbn [after pbind]. apply (run_call _ _ _ _ _ _ (Ok tt) (link (unlink s1 t) target fd)); [|apply steps_refl].
    right. unfold path_exists. replace (is_file (link (unlink s1 t) target fd) target) with true; [easy|].
    symmetry. apply is_file_true. rewrite lookup_link. now destruct (path_eq_dec target target).
  Qed.

  Lemma store_truncated fuel db i sha k suf s : is_binsha i = Some sha -> sha_ok sha -> len (content (is_stream i)) < maxsize -> stream_chunk_size pagesize < maxsize ->
    0 <= k < Z.min (stream_chunk_size pagesize) (len (content (is_stream i))) ->
    (length (content (is_stream i)) < fuel)%nat -> room_for (l_root db) sha s -> contents s (object_file (l_root db) sha) = None ->
    tmp_suffix suf -> path_exists s (l_root db ++ [obj_prefix ++ suf]) = false ->
    exists r' s', runs O (store K sha1 pagesize read fuel db None i) s (Ok (mk_istream (Some sha) (is_type i) (is_size i) r', None)) s' /\
      contents s' (object_file (l_root db) sha) = Some (firstn (Z.to_nat k) (content (is_stream i)) ++ skipn (Z.to_nat (stream_chunk_size pagesize)) (content (is_stream i))).
  Proof.
    intros Hb Hs Hle Hcs Hk Hf Hroom Hno Hsuf Hfree. set (t := l_root db ++ [obj_prefix ++ suf]) in *. assert (Ht : temp_file (l_root db) t) by now exists suf.
    set (fd := w_next s). set (s0 := create s t).
    destruct (copy_short maxsize (stream_chunk_size pagesize) fd k ltac:(unfold stream_chunk_size; lia) fuel (is_stream i) 0 s0 Hf Hle Hcs Hk) as (n & r' & pos' & s1 & Hrun & Hlk & Hdt).
    assert (H20 : len sha = 20) by apply Hs. pose proof Hroom as (G1 & G2 & G3).
    destruct (run_publish (l_root db) t fd sha s1 Ht H20) as (s2 & Hp & Hc).
    - destruct Hlk as [-> _]. unfold s0. rewrite lookup_create. now destruct (path_eq_dec t t).
    - split; [|split].
      + rewrite (like_dir _ _ _ Hlk). exact G1.
      + rewrite (like_dir _ _ _ Hlk). exact G2.
      + intros d Hin. rewrite (like_file _ _ _ Hlk). pose proof (temp_not_above _ t sha d Ht H20 Hin). specialize (G3 d Hin).
        apply is_file_lookup. apply is_file_lookup in G3. unfold s0. rewrite lookup_create. now destruct (path_eq_dec d t).
    - rewrite (like_file _ _ _ Hlk). apply is_file_lookup. unfold s0. rewrite lookup_create. destruct (path_eq_dec (object_file (l_root db) sha) t) as [E|_].
      + exfalso. exact (temp_not_object _ t sha Ht (eq_sym E)).
      + unfold contents in Hno. now destruct (lookup s (object_file (l_root db) sha)).
    - exists r', s2. split.
      2: { rewrite Hc, Hdt. unfold s0, create. cbn. now rewrite Nat.eqb_refl. }
      unfold store. rewrite Hb. apply (run_call _ _ _ _ _ _ (Ok (t, fd)) s0).
      { right. rewrite G1. exists suf. split; [exact Hsuf|]. cbv zeta. fold t. split; [exact Hfree|easy]. }
      cbn [after pbind ret]. eapply run_then with (a := Ok (r', WFD fd pos')) (s1 := s1).
      { unfold fill, on_error, feed. rewrite Hb. apply run_then with (a := Ok (r', WFD fd pos')) (s1 := s1); [|apply steps_refl]. eapply run_then; [exact Hrun|]. cbn beta iota. cbn [w_close].
        apply (run_call _ _ _ _ _ _ (Ok tt) s1); [now right|]. cbn. apply steps_refl. }
      cbn beta iota. destruct sha as [|b l]; [discriminate|]. cbn [after pbind ret]. eapply run_then; [exact Hp|]. cbn beta iota.
      rewrite hex_to_bin_to_hex by apply Hs. apply steps_refl.
  Qed.
End Short.
