(** Storing objects whose sha is set in a MemoryDB: what the stream gives is compressed as it is,
    without a header. *)
From Coq Require Import ZifyBool ZifyNat.
From Verif Require Import Py PyFacts FunModel FunSpec FunProofs IndexSpec ZlibModel ReaderModel StreamSpec ReaderProofs RewindSpec RewindProofs PackSpec
  OsModel OsProofs LooseModel LooseSpec LooseProofs LooseTop MemModel MemSpec MemProofs MemCopy.
Ltac Zify.zify_post_hook ::= Z.div_mod_to_equations.

Section Raw.
  Context {K : zlib} (L : zlib_laws K) (sha1 : bytes -> bytes) (pagesize : Z) (Hpage : 0 < pagesize).
  Context {R : Type} (rd : R -> Z -> res (bytes * R)) (content : R -> bytes) (HR : stream_reader rd content).
  Lemma copy_zip_max chunk : 0 < chunk -> forall fuel r seen zip buf size dbw, dbw + len (content r) <= size -> (length (content r) < fuel)%nat ->
    exists r' chunks, concat chunks = content r /\ copy_loop K rd fuel r (WZip seen zip buf) size chunk dbw =
      ret (Ok (dbw + len (content r)), r', WZip (seen ++ content r) (snd (zc_feed K zip chunks)) (buf ++ fst (zc_feed K zip chunks))).
  Proof.
    intros Hch. induction fuel as [|f IH]; intros r seen zip buf size dbw Hs Hf; [lia|].
    cbn [copy_loop]. pose proof (len_nonneg _ (content r)) as Hc0.
    destruct (HR r (Z.min chunk (size - dbw))) as (r' & Hr & Hc).
    { destruct (content r) as [|x b] eqn:E.
      - destruct (Z.eq_dec (Z.min chunk (size - dbw)) 0); [now right|]. left. rewrite len_nil in Hs. lia.
      - left. rewrite len_cons in Hs. pose proof (len_nonneg _ b). lia. }
    rewrite Hr. cbn [w_write]. set (cs := Z.min chunk (size - dbw)) in *.
    destruct (zc_compress K zip (firstn (Z.to_nat cs) (content r))) as [cd zip'] eqn:Ez.
    unfold pbind at 1. cbn [after ret]. rewrite len_firstn.
    destruct (_ || _) eqn:Econd.
    - assert (E : firstn (Z.to_nat cs) (content r) = content r) by (apply firstn_all2; unfold len in *; lia).
      rewrite E in *. exists r', [content r]. split; [apply app_nil_r|]. cbn [zc_feed]. rewrite Ez. cbn [fst snd]. rewrite app_nil_r.
      match goal with |- context [Ok (dbw + ?e)] => replace (dbw + e) with (dbw + len (content r)) by (unfold len in *; lia) end. easy.
    - assert (Hl : length (content r') = (length (content r) - Z.to_nat cs)%nat) by (rewrite Hc; apply skipn_length).
      assert (0 < cs /\ cs <= len (content r)) as [Hcs1 Hcs2] by (unfold cs in *; lia).
      match goal with |- context [copy_loop K rd f r' ?w size chunk ?n] => destruct (IH r' (seen ++ firstn (Z.to_nat cs) (content r)) zip' (buf ++ cd) size n) as (r2 & chunks & H1 & H2) end;
        [unfold len in *; lia|unfold len in *; lia|].
      exists r2, (firstn (Z.to_nat cs) (content r) :: chunks). cbn [concat]. rewrite H1, Hc at 1. split; [apply firstn_skipn|].
      unfold bytes in *. rewrite H2. cbn [zc_feed]. rewrite Ez. destruct (zc_feed K zip' chunks) as [o z2]. cbn [fst snd].
      rewrite <- !app_assoc. rewrite Hc at 2. rewrite firstn_skipn.
      match goal with |- ret (Ok ?a, _, _) = ret (Ok ?b, _, _) => replace a with b by (unfold len in *; lia) end. reflexivity.
  Qed.

  Lemma mem_store_raw fuel (db : mdb K) i sha : is_binsha i = Some sha -> sha_ok sha -> is_bytes (content (is_stream i)) ->
    len (content (is_stream i)) <= maxsize -> (length (content (is_stream i)) < fuel)%nat ->
    exists r' chunks, let z := zc_all K (zc_new K 1) chunks in concat chunks = content (is_stream i) /\ zl_stream L z (content (is_stream i)) /\
      mem_store K sha1 pagesize rd fuel db i =
        ret (mk_istream (Some sha) (is_type i) (is_size i) r',
             mk_mdb (dict_set sha (length (m_objs db)) (m_cache db))
                    (m_objs db ++ [mk_ostream sha (is_type i) (is_size i) (reader_init K z None)])).
  Proof.
    intros Hs Hsha Hb Hm Hf.
    destruct (copy_zip_max (stream_chunk_size pagesize) ltac:(unfold stream_chunk_size; lia) fuel (is_stream i) [] (zc_new K 1) [] maxsize 0)
      as (r' & chunks & H1 & H2); [lia|lia|].
    exists r', chunks. cbv zeta. split; [exact H1|]. split.
    { rewrite <- H1. apply (zl_compress K L). apply bytes_concat. now rewrite H1. }
    unfold mem_store, store, fill, feed. rewrite Hs. unfold pbind, on_error, ret in *. cbn [after].
    rewrite !app_nil_l in H2. rewrite H2. cbn [after bind].
    destruct Hsha as [Hl Hsb]. destruct sha as [|b sha]; [discriminate|]. cbn [after].
    rewrite hex_to_bin_to_hex by easy. cbn [bind after is_binsha is_type is_size w_zip_value ret].
    rewrite zc_all_feed. reflexivity.
  Qed.

  (** Reading what was stored so *)
  Lemma no_header_parse d : no_header d -> parse_loose_header d = Raise ValueError.
  Proof.
    intros [(x & y & -> & H0 & Hc)|[H0 Hc]]; [now apply bad_header_text|].
    unfold parse_loose_header. replace (find NULL_BYTE d) with (-1) by (symmetry; now apply find_from_none).
    assert (slice_to d (-1) = removelast d) as ->.
    { unfold slice_to, norm_idx. cbn [Z.ltb Z.compare]. rewrite removelast_firstn_len. f_equal. unfold len. lia. }
    pose proof (split_count BYTE_SPACE (removelast d)) as Hl. unfold BYTE_SPACE in *.
    destruct (split 32 (removelast d)) as [|a [|b [|e l]]]; try reflexivity. cbn [length] in Hl. lia.
  Qed.
  Lemma raw_read z X fuel n : zl_stream L z X -> dense L z X \/ len z <= 8192 \/ X = [] -> no_header (firstn (Z.to_nat 8192) X) ->
    (2 * length X + 3 <= fuel)%nat -> read fuel (reader_init K z None) n = Raise ValueError.
  Proof.
    intros Hz Ht Hn Hf. unfold read, get_s, reader_init, parse_header_info. cbn [r_s r_m r_zip r_buf r_buflen r_br r_cws r_cwe r_cbr r_phi].
    set (r0 := mk_reader _ _ _ _ _ _ _ _ _ _).
    destruct (read_s_None L z X [] Hz false 8192 fuel r0 X 8192 8192) as (out & r' & dr & R1 & _ & _ & R4 & _ & R6 & _); try easy.
    { left. exists [], z. destruct (zl_start K L _ _ Hz) as (H1 & H2 & H3 & H4). unfold U, r0. cbn. rewrite H3, H4, app_nil_r. cbn.
      repeat split; try easy. apply reach_new. }
    rewrite R1. cbn [bind]. assert (out = firstn (Z.to_nat 8192) X) as ->.
    { destruct Ht as [Ht|[Ht| ->]]; [apply R6; auto..|]. symmetry in R4. apply app_eq_nil in R4 as [-> _]. now rewrite firstn_nil. }
    rewrite no_header_parse by exact Hn. reflexivity.
  Qed.
  Lemma use_raw (rd2 : R -> Z -> res (bytes * R)) fuel (db : mdb K) n sha t size z X k post : dict_get sha (m_cache db) = Some n ->
    nth_error (m_objs db) n = Some (mk_ostream sha t size (reader_init K z None)) ->
    zl_stream L z X -> dense L z X \/ len z <= 8192 \/ X = [] -> no_header (firstn (Z.to_nat 8192) X) -> (2 * length X + 3 <= fuel)%nat ->
    m_do K sha1 pagesize rd2 fuel db (MUse sha (Read k :: post)) = ret (Raise ValueError, db).
  Proof.
    intros Hg Hn Hz Ht Hh Hf. pose proof (raw_read z X fuel k Hz Ht Hh Hf) as Q1.
    unfold m_do, mem_stream. rewrite Hg. unfold handle_rewind, handle_object. rewrite Hn. cbn [bind ot_stream].
    change (seek (reader_init K z None) 0 0) with (Ok (reader_init K z None)). cbn [bind m_objs].
    rewrite nth_set_stream, Nat.eqb_refl, Hn. cbn [bind].
    rewrite (use_handle_run fuel n _ _ _ (mk_ostream sha t size (reader_init K z None))).
    2: { rewrite nth_set_stream, Nat.eqb_refl, Hn. easy. }
    cbn [ot_stream run_state]. rewrite Q1. reflexivity.
  Qed.
End Raw.

(** ** The stream of the IStream that store returns is exhausted *)
Section Drained.
  Context (K : zlib) (sha1 : bytes -> bytes) (pagesize : Z) (Hpage : 0 < pagesize).
  Context {R : Type} (rd : R -> Z -> res (bytes * R)) (content : R -> bytes) (HR : stream_reader rd content) (O : os).
  Lemma copy_drained chunk : 0 < chunk -> forall fuel r w size dbw s n r' w' s', size - dbw = len (content r) ->
    runs O (copy_loop K rd fuel r w size chunk dbw) s (Ok (Ok n, r', w')) s' -> content r' = [].
  Proof.
    intros Hch. induction fuel as [|f IH]; intros r w size dbw s n r' w' s' Hs H.
    { apply runs_ret in H as [H _]. discriminate. }
    cbn [copy_loop] in H. destruct (HR r (Z.min chunk (size - dbw))) as (r1 & Hr & Hc).
    { destruct (content r) as [|x b] eqn:E; [right|left; rewrite len_cons in Hs; pose proof (len_nonneg _ b); lia].
      split; [cbn in Hs; lia|easy]. }
    rewrite Hr in H. apply runs_bind in H as (r2 & s2 & H1 & H2).
    destruct r2 as [[res w2]|e|]; [|now destruct H2 as [[=] _]|now destruct H2 as [[=] _]].
    destruct res as [v|e|]; [|now apply runs_ret in H2 as [[=] _]|now apply runs_ret in H2 as [[=] _]].
    rewrite len_firstn in H2. pose proof (len_nonneg _ (content r)).
    destruct (_ || _) eqn:E.
    - apply runs_ret in H2 as [[= -> -> ->] _]. rewrite Hc. apply skipn_all2. unfold len in *. lia.
    - eapply IH; [|exact H2]. rewrite Hc, len_skipn. lia.
  Qed.
  Lemma store_drained fuel db out i s i' out' s' : is_binsha i = None -> is_size i = len (content (is_stream i)) ->
    runs O (store K sha1 pagesize rd fuel db out i) s (Ok (i', out')) s' -> content (is_stream i') = [].
  Proof.
    intros Hb Hs H. unfold store in H. apply runs_bind in H as (r1 & s1 & H1 & H).
    destruct r1 as [[tmp w]|e|]; [|now destruct H as [[=] _]..].
    apply runs_bind in H as (r2 & s2 & H2 & H). destruct r2 as [[r w2]|e|]; [|now destruct H as [[=] _]..].
    assert (Hr : content r = []).
    { unfold fill, on_error in H2. apply runs_after in H2 as (r3 & s3 & H2 & H3).
      assert (r3 = Ok (r, w2)) as ->.
      { destruct r3 as [v|e|]; [now apply runs_ret in H3 as [-> _]| |now apply runs_ret in H3 as [[=] _]].
        apply runs_bind in H3 as (r4 & s4 & H3 & H4). destruct r4; [now apply runs_ret in H4 as [[=] _]|now destruct H4 as [[=] _]..]. }
      apply runs_bind in H2 as (r4 & s4 & H2 & H4). destruct r4 as [[[res r4] w4]|e|]; [|now destruct H4 as [[=] _]..].
      destruct res as [n|e|]; [| |now apply runs_ret in H4 as [[=] _]].
      2: { apply runs_bind in H4 as (r5 & s5 & _ & H5). destruct r5; [now apply runs_ret in H5 as [[=] _]|now destruct H5 as [[=] _]..]. }
      apply runs_bind in H4 as (r5 & s5 & _ & H5). destruct r5; [|now destruct H5 as [[=] _]..]. apply runs_ret in H5 as [[= -> ->] _].
      unfold feed in H2. rewrite Hb in H2. unfold write_object_to in H2. apply runs_bind in H2 as (r6 & s6 & _ & H2).
      destruct r6 as [[v6 w6]|e|]; [|now destruct H2 as [[=] _]..].
      destruct v6 as [[m|]|e|]; [|now apply runs_ret in H2 as [[=] _]..].
      apply runs_bind in H2 as (r7 & s7 & H2 & H7). destruct r7 as [[[v7 r7] w7]|e|]; [|now destruct H7 as [[=] _]..].
      apply runs_ret in H7 as [H7 _]. injection H7 as H7 -> ->. destruct v7 as [k|e|]; [|discriminate..].
      eapply copy_drained; [|idtac|exact H2]; [unfold stream_chunk_size; lia|lia]. }
    apply runs_bind in H as (r3 & s3 & _ & H). destruct r3 as [hex|e|]; [|now destruct H as [[=] _]..].
    apply runs_bind in H as (r4 & s4 & _ & H). destruct r4 as [[]|e|]; [|now destruct H as [[=] _]..].
    apply runs_ret in H as [H _]. destruct (hex_to_bin hex); try discriminate. injection H as -> _. exact Hr.
  Qed.
End Drained.

(** ** Copying from memory to memory *)
Section CopyMem.
  Context {K : zlib} (L : zlib_laws K) (sha1 : bytes -> bytes) (Hsha : forall d, sha_ok (sha1 d)) (pagesize : Z) (Hpage : 0 < pagesize).
  Context (fuel : nat) (objs : list object).
  Context (Hsize : forall o, In o objs -> (length (compressed_as (K := K) pagesize o) < fuel)%nat /\ len (compressed_as (K := K) pagesize o) <= maxsize).
  Definition raw_entry (odb : mdb K) (sha : bytes) : Prop := exists o n chunks, In o objs /\ sha = sha1 (form o) /\ plain o /\
    dict_get sha (m_cache odb) = Some n /\ concat chunks = compressed_as (K := K) pagesize o /\
    nth_error (m_objs odb) n = Some (mk_ostream sha (fst o) (len (snd o)) (reader_init K (zc_all K (zc_new K 1) chunks) None)).
  Definition stays (odb odb' : mdb K) : Prop := forall sha n e, dict_get sha (m_cache odb) = Some n -> nth_error (m_objs odb) n = Some e ->
    dict_get sha (m_cache odb') = Some n /\ nth_error (m_objs odb') n = Some e.
  Lemma copy_mem_loop shas : forall odb db count, held K sha1 pagesize objs db -> (forall sha, In sha shas -> known sha1 objs sha) ->
    exists l db' odb', mem_copy_loop K (fun odb sha => ret (mem_has_object odb sha, odb)) (mem_store K sha1 pagesize bytesio_read fuel) db odb shas count =
      ret (count + len l, db', odb') /\
      NoDup l /\ (forall sha, In sha l <-> In sha shas /\ dict_get sha (m_cache odb) = None) /\
      (forall sha, In sha l -> raw_entry odb' sha) /\ stays odb odb'.
  Proof.
    induction shas as [|sha shas IH]; intros odb db count Hh Hk; cbn [mem_copy_loop].
    - exists [], db, odb. rewrite len_nil, Z.add_0_r. split; [reflexivity|]. split; [constructor|]. split; [cbn; tauto|]. split; [easy|]. now intros ? ? ?.
    - assert (Hk2 : forall sha, In sha shas -> known sha1 objs sha) by (intros; apply Hk; now right).
      unfold pbind at 1. cbn [after ret]. unfold mem_has_object at 1. destruct (dict_get sha (m_cache odb)) as [n|] eqn:E.
      + destruct (IH odb db count Hh Hk2) as (l & db' & odb' & H1 & H2 & H3 & H4 & H5). exists l, db', odb'. split; [exact H1|]. split; [easy|].
        split; [|easy]. intros sha2. rewrite H3. cbn [In]. split; [tauto|]. intros [[<-|?] ?]; [congruence|tauto].
      + destruct (Hk sha (or_introl eq_refl)) as (ok & Hok & Hname).
        pose proof (held_stream K sha1 pagesize objs db sha Hh) as Hst. destruct (mem_stream db sha) as [[n0 db1]|e|]; [| |easy].
        2: { destruct Hst as [_ Hst]. exfalso. apply Hst. now exists ok. }
        destruct Hst as (Hh1 & o & ro & Ho & Hs & Hg & Hn & Hm & Hpl).
        unfold pbind at 1. cbn [after]. unfold handle_object. rewrite Hn. unfold pbind at 1. cbn [after bind ot_stream ot_type ot_size]. rewrite Hm.
        destruct (Hsize o Ho) as [Hf Hmax].
        destruct (mem_store_raw L sha1 pagesize Hpage bytesio_read (fun b => b) bytesio_stream fuel odb
          (mk_istream (Some sha) (fst o) (len (snd o)) (compressed_as (K := K) pagesize o)) sha) as (r' & chunks & H1 & H2 & H3); cbn [is_binsha is_stream]; try easy.
        { rewrite Hs. apply Hsha. } { now apply (zl_bytes K L _ _ (compressed_stream L pagesize Hpage o Hpl)). }
        cbn [is_type is_size is_stream] in *. rewrite H3. unfold pbind at 1. cbn [after ret].
        set (odb1 := mk_mdb _ _).
        destruct (IH odb1 db1 (count + 1) Hh1 Hk2) as (l & db' & odb' & J1 & J2 & J3 & J4 & J5).
        assert (Hg1 : forall sha2, dict_get sha2 (m_cache odb1) = if beq sha sha2 then Some (length (m_objs odb)) else dict_get sha2 (m_cache odb))
          by (intros; apply dict_get_set).
        assert (Hnl : ~ In sha l) by (rewrite J3, Hg1, beq_refl; now intros [_ [=]]).
        exists (sha :: l), db', odb'. split; [rewrite J1, len_cons; now replace (count + 1 + len l) with (count + (len l + 1)) by lia|]. split; [now constructor|]. split; [|split].
        * intros sha2. cbn [In]. rewrite J3, Hg1. destruct (beq sha sha2) eqn:Eb.
          -- apply beq_true in Eb as <-. split; [auto|auto].
          -- assert (sha <> sha2) by (intros <-; now rewrite beq_refl in Eb). tauto.
        * intros sha2 [<-|Hin]; [|now apply J4].
          destruct (J5 sha (length (m_objs odb)) (mk_ostream sha (fst o) (len (snd o)) (reader_init K (zc_all K (zc_new K 1) chunks) None))) as [Q1 Q2].
          { now rewrite Hg1, beq_refl. } { unfold odb1. cbn [m_objs]. now rewrite nth_error_app2, Nat.sub_diag by lia. }
          exists o, (length (m_objs odb)), chunks. auto 10.
        * intros sha2 n2 e G1 G2. apply J5.
          -- rewrite Hg1. destruct (beq sha sha2) eqn:Eb; [|easy]. apply beq_true in Eb as <-. congruence.
          -- unfold odb1. cbn [m_objs]. rewrite nth_error_app1; [easy|]. apply nth_error_Some. congruence.
  Qed.
End CopyMem.

Section Top.
  Context {K : zlib} (L : zlib_laws K) (sha1 : bytes -> bytes) (Hsha : forall d, sha_ok (sha1 d)) (pagesize : Z) (Hpage : 0 < pagesize).
  Context {R : Type} (rd : R -> Z -> res (bytes * R)) (content : R -> bytes) (HR : stream_reader rd content).
  (** An exhausted stream *)
  Lemma again_mem fuel (db : mdb K) i sha k post : is_binsha i = Some sha -> sha_ok sha -> content (is_stream i) = [] -> (3 <= fuel)%nat ->
    exists db', m_run K sha1 pagesize rd fuel db [MStore i; MHas sha; MUse sha (Read k :: post)] =
      ret ([Ok (OStored sha (is_type i) (is_size i)); Ok (OHas true); Raise ValueError], db').
  Proof.
    intros Hb Hok Hc Hf.
    destruct (mem_store_raw L sha1 pagesize Hpage rd content HR fuel db i sha Hb Hok) as (r' & chunks & H1 & H2 & H3).
    { rewrite Hc. constructor. } { rewrite Hc. unfold maxsize. cbn. lia. } { rewrite Hc. cbn. lia. }
    set (db1 := mk_mdb _ _) in H3. exists db1. rewrite Hc in *.
    cbn [m_run m_do]. rewrite H3. unfold pbind, ret. cbn [after settle_m is_binsha is_type is_size]. unfold ret. cbn [after].
    assert (Hg : dict_get sha (m_cache db1) = Some (length (m_objs db))) by (unfold db1; cbn [m_cache]; now rewrite dict_get_set, beq_refl).
    unfold mem_has_object. rewrite Hg.
    pose proof (use_raw L sha1 pagesize rd fuel db1 (length (m_objs db)) sha (is_type i) (is_size i) (zc_all K (zc_new K 1) chunks) [] k post Hg) as Q.
    cbn [m_do] in Q. unfold ret in Q. rewrite Q; try easy; auto.
    - unfold db1. cbn [m_objs]. now rewrite nth_error_app2, Nat.sub_diag by lia.
    - rewrite firstn_nil. right. split; [easy|]. cbn. discriminate.
  Qed.
  Lemma stored_again O fuel db i s i' out s' fuel2 (db2 : mdb K) k post : proper content i -> wf s ->
    runs O (store K sha1 pagesize rd fuel db None i) s (Ok (i', out)) s' -> (3 <= fuel2)%nat ->
    exists sha db', name_of sha1 (object_of content i) sha /\ m_run K sha1 pagesize rd fuel2 db2 [MStore i'; MHas sha; MUse sha (Read k :: post)] =
        ret ([Ok (OStored sha (is_type i) (is_size i)); Ok (OHas true); Raise ValueError], db').
  Proof.
    intros Hp Hw H Hf. pose proof Hp as (Hb & Hs & _).
    destruct (store_ok K sha1 pagesize rd (fun d => proj2 (Hsha d)) O fuel db i ltac:(congruence) s i' out s' Hw H)
      as (_ & sha & z & H1 & H2 & H3 & H4 & H5 & _).
    apply (stored_proper L sha1 Hsha pagesize Hpage rd content HR O) in H5 as [H5 _]; [|easy].
    apply object_file_inj in H5; [|easy|apply Hsha]. subst sha.
    destruct (again_mem fuel2 db2 i' _ k post H1 (Hsha _)) as (db' & E); [|easy|].
    { eapply store_drained; eauto. }
    exists (sha1 (form (object_of content i))), db'. split; [apply form_name|]. rewrite E, H3, H4. reflexivity.
  Qed.
  Lemma mem_stored_again fuel db i i' db1 fuel2 (db2 : mdb K) k post : proper content i -> (length (content (is_stream i)) < fuel)%nat ->
    mem_store K sha1 pagesize rd fuel db i = ret (i', db1) -> (3 <= fuel2)%nat ->
    exists sha db', name_of sha1 (object_of content i) sha /\ m_run K sha1 pagesize rd fuel2 db2 [MStore i'; MHas sha; MUse sha (Read k :: post)] =
        ret ([Ok (OStored sha (is_type i) (is_size i)); Ok (OHas true); Raise ValueError], db').
  Proof.
    intros Hp Hl H Hf. pose proof Hp as (Hb & Hs & _).
    destruct (mem_store_ok K sha1 rd content HR pagesize Hpage Hsha fuel db i Hp Hl) as (r' & E). cbv zeta in E.
    assert (Hi : is_binsha i' = Some (sha1 (form (object_of content i))) /\ is_type i' = is_type i /\ is_size i' = is_size i).
    { rewrite E in H. injection H as <- _. easy. }
    destruct Hi as (H1 & H3 & H4).
    destruct (again_mem fuel2 db2 i' _ k post H1 (Hsha _)) as (db' & E2); [|easy|].
    { unfold mem_store, pbind in H. destruct (store K sha1 pagesize rd fuel _ _ i) as [r|B c kk] eqn:Es; [|discriminate].
      destruct r as [[i2 out]|e|]; [|discriminate|discriminate].
      assert (i2 = i') as ->.
      { destruct out as [w|]; cbn [after] in H; [|discriminate]. destruct w; try discriminate. cbn [w_zip_value after ret] in H.
        destruct (is_binsha i2); try discriminate. now injection H as -> _. }
      pose (w := mk_world [] [] (fun _ => []) O).
      eapply (store_drained K sha1 pagesize Hpage rd content HR calm fuel _ _ i w i' out w Hb Hs). rewrite Es. constructor. }
    exists (sha1 (form (object_of content i))), db'. split; [apply form_name|]. rewrite E2, H3, H4. reflexivity.
  Qed.
  (** From memory to memory *)
  Context (f : nat) (ops : list (mop R)) (outs : list (res mout)) (db : mdb K).
  Context (Hops : Forall (fun op => match op with MStore i => proper content i /\ (length (content (is_stream i)) < f)%nat | _ => True end) ops).
  Context (Hdb : m_run K sha1 pagesize rd f (mem_init K) ops = ret (outs, db)).
  Notation packed o := (compressed_as (K := K) pagesize o).
  Lemma copy_mem fuel : (forall o, In o (m_objects content ops) -> (length (packed o) < fuel)%nat /\ len (packed o) <= maxsize) ->
    forall odb shas, (forall sha, In sha shas -> known sha1 (m_objects content ops) sha) ->
    exists l db' odb', copy_to_mem K sha1 pagesize fuel db odb shas = ret (len l, db', odb') /\
      NoDup l /\ (forall sha, In sha l <-> In sha shas /\ mem_has_object odb sha = false) /\
      forall sha, In sha l -> exists o, In o (m_objects content ops) /\ name_of sha1 o sha /\
        forall fuel2, (2 * length (packed o) + 3 <= fuel2)%nat ->
        exists odb2, m_run K sha1 pagesize rd fuel2 odb' [MHas sha; MInfo sha] = ret ([Ok (OHas true); Ok (OInfo sha (fst o) (len (snd o)))], odb2) /\
        ((forall chunks, concat chunks = packed o -> let z := zc_all K (zc_new K 1) chunks in dense L z (packed o) \/ len z <= 8192) ->
         no_header (firstn (Z.to_nat 8192) (packed o)) ->
         forall k post, m_run K sha1 pagesize rd fuel2 odb' [MUse sha (Read k :: post)] = ret ([Raise ValueError], odb')).
  Proof.
    intros Hsize odb shas Hk. set (objs := rev (m_objects content ops)).
    assert (Hheld : held K sha1 pagesize objs db).
    { rewrite <- (app_nil_r objs). unfold objs. eapply held_run; eauto. apply held_init. }
    destruct (copy_mem_loop L sha1 Hsha pagesize Hpage fuel objs) with (shas := shas) (odb := odb) (db := db) (count := 0)
      as (l & db' & odb' & H1 & H2 & H3 & H4 & _); [|exact Hheld| |].
    { intros o Ho. apply Hsize. now apply in_rev. }
    { intros sha Hin. destruct (Hk sha Hin) as (o & Ho & Hn). exists o. split; [now apply -> in_rev|easy]. }
    exists l, db', odb'. split; [exact H1|]. split; [easy|]. split.
    { intros sha. rewrite H3. unfold mem_has_object. destruct (dict_get sha (m_cache odb)); split; intros [? ?]; easy. }
    intros sha Hin. destruct (H4 sha Hin) as (o & n & chunks & Ho & Hs & Hp & Hg & Hc & Hn). exists o.
    split; [now apply in_rev|]. split; [rewrite Hs; apply form_name|]. intros fuel2 Hf2.
    assert (exists odb2, m_do K sha1 pagesize rd fuel2 odb' (MInfo sha) = ret (Ok (OInfo sha (fst o) (len (snd o))), odb2)) as (odb2 & Hi).
    { cbn [m_do]. unfold mem_info, mem_stream. rewrite Hg. unfold handle_rewind, handle_object. rewrite Hn. cbn [bind ot_stream].
      match goal with |- context [seek ?r 0 0] => change (seek r 0 0) with (Ok (rewind r)) end. cbn [bind m_objs].
      rewrite nth_set_stream, Nat.eqb_refl, Hn. eexists. reflexivity. }
    exists odb2. split.
    - unfold m_run, pbind, ret in *. cbn [m_do after]. unfold ret. cbn [after]. cbn [m_do] in Hi. rewrite Hi. cbn [after]. unfold mem_has_object. rewrite Hg. reflexivity.
    - intros Hz Hh k post. cbn [m_run]. specialize (Hz chunks Hc). cbv zeta in Hz.
      assert (Hst : zl_stream L (zc_all K (zc_new K 1) chunks) (packed o)).
      { rewrite <- Hc. apply (zl_compress K L). apply bytes_concat. rewrite Hc. now apply (zl_bytes K L _ _ (compressed_stream L pagesize Hpage o Hp)). }
      unfold pbind.
      rewrite (use_raw L sha1 pagesize rd fuel2 odb' n sha (fst o) (len (snd o)) (zc_all K (zc_new K 1) chunks) (packed o) k post Hg Hn Hst ltac:(tauto) Hh Hf2).
      reflexivity.
  Qed.
End Top.
