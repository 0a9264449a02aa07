(** Proofs about MemoryDB. *)
From Coq Require Import ZifyBool ZifyNat.
From Verif Require Import Py PyFacts FunModel FunSpec FunProofs IndexSpec ZlibModel ReaderModel StreamSpec ReaderProofs PackSpec PackCheckProofs OsModel LooseModel LooseSpec LooseProofs LooseTop MemModel MemSpec.
Ltac Zify.zify_post_hook ::= Z.div_mod_to_equations.

(** ** Dictionaries *)
Section Dict.
  Context {A : Type}.
  Lemma dict_get_set k k' (a : A) d : dict_get k' (dict_set k a d) = if beq k k' then Some a else dict_get k' d.
  Proof.
    induction d as [|[k1 a1] d IH]; cbn [dict_set dict_get]; [easy|].
    destruct (beq k1 k) eqn:E1; cbn [dict_get].
    - apply beq_true in E1 as ->. now destruct (beq k k').
    - rewrite IH. destruct (beq k1 k') eqn:E2; [|easy]. apply beq_true in E2 as ->. 
      destruct (beq k k') eqn:E3; [|easy]. apply beq_true in E3 as ->. rewrite (proj2 (beq_true k' k') eq_refl) in E1. easy.
  Qed.
  Lemma dict_in k (d : list (bytes * A)) : In k (map fst d) <-> dict_get k d <> None.
  Proof.
    induction d as [|[k1 a1] d IH]; cbn [dict_get map fst In]; [easy|]. destruct (beq k1 k) eqn:E.
    - apply beq_true in E as ->. split; [easy|now left].
    - rewrite <- IH. split; [intros [->|H]; [|easy]|now right]. rewrite (proj2 (beq_true k k) eq_refl) in E. easy.
  Qed.
  Lemma dict_set_keys k (a : A) d : map fst (dict_set k a d) = if dict_get k d then map fst d else map fst d ++ [k].
  Proof.
    induction d as [|[k1 a1] d IH]; cbn [dict_get dict_set map fst app]; [easy|]. destruct (beq k1 k) eqn:E; cbn [map fst]; [easy|].
    rewrite IH. now destruct (dict_get k d).
  Qed.
  Lemma dict_set_nodup k (a : A) d : NoDup (map fst d) -> NoDup (map fst (dict_set k a d)).
  Proof.
    intros H. rewrite dict_set_keys. destruct (dict_get k d) eqn:E; [easy|].
    apply (NoDup_Add (a := k) (l := map fst d)); [|split; [easy|intros Hin; now apply dict_in in Hin]].
    rewrite <- (app_nil_r (map fst d)) at 1. apply Add_app.
  Qed.
End Dict.

(** ** The objects of a database *)
Lemma nth_set_stream {K : zlib} n (r : reader K) l m : nth_error (set_stream n r l) m =
  if Nat.eqb m n then match nth_error l n with Some o => Some (mk_ostream (ot_binsha o) (ot_type o) (ot_size o) r) | None => None end
  else nth_error l m.
Proof.
  revert n m. induction l as [|o l IH]; intros n m.
  - unfold set_stream. destruct n as [|n]; cbn [nth_error firstn app]; destruct (Nat.eqb m _); now destruct m.
  - destruct n as [|n]; destruct m as [|m]; cbn [Nat.eqb nth_error]; try reflexivity.
    specialize (IH n m). unfold set_stream in *. cbn [nth_error firstn app skipn] in *. exact IH.
Qed.

(** ** Storing into memory *)
  Lemma cut_small f n (c : bytes) : (length c <= n)%nat -> cut f n c = [c].
  Proof. intros H. destruct f; cbn [cut]; [easy|]. now rewrite (proj2 (Nat.leb_le _ _) H). Qed.
  Lemma cut_fuel n : (0 < n)%nat -> forall f f' c, (length c <= f)%nat -> (length c <= f')%nat -> cut f n c = cut f' n c.
  Proof.
    intros Hn. induction f as [|f IH]; intros f' c H1 H2.
    - rewrite !cut_small by lia. easy.
    - destruct f' as [|f']; [rewrite !cut_small by lia; easy|]. cbn [cut]. destruct (Nat.leb_spec (length c) n); [easy|].
      f_equal. apply IH; rewrite skipn_length; lia.
  Qed.
  Lemma cut_concat n : (0 < n)%nat -> forall f c, concat (cut f n c) = c.
  Proof.
    intros Hn. induction f as [|f IH]; intros c; cbn [cut]; [apply app_nil_r|].
    destruct (Nat.leb_spec (length c) n); cbn [concat]; [apply app_nil_r|]. rewrite IH. apply firstn_skipn.
  Qed.
  Lemma pieces_concat pagesize (Hpage : 0 < pagesize) c : concat (pieces (1000 * pagesize) c) = c.
  Proof. apply cut_concat. lia. Qed.
Section Zip.
  Context (K : zlib) (sha1 : bytes -> bytes) {R : Type} (read : R -> Z -> res (bytes * R)) (content : R -> bytes) (HR : stream_reader read content).
  Lemma copy_zip chunk : 0 < chunk -> forall fuel r seen zip buf size dbw, 0 <= dbw -> size - dbw = len (content r) -> (length (content r) < fuel)%nat ->
    exists r', copy_loop K read fuel r (WZip seen zip buf) size chunk dbw =
      ret (Ok size, r', WZip (seen ++ content r) (snd (zc_feed K zip (cut (fuel - 1) (Z.to_nat chunk) (content r))))
                             (buf ++ fst (zc_feed K zip (cut (fuel - 1) (Z.to_nat chunk) (content r))))).
  Proof.
    intros Hch. induction fuel as [|f IH]; intros r seen zip buf size dbw Hd Hs Hf; [lia|].
    cbn [copy_loop]. replace (S f - 1)%nat with f by lia.
    destruct (HR r (Z.min chunk (size - dbw))) as (r' & Hr & Hc).
    { destruct (content r) as [|x b] eqn:E; [|left; rewrite len_cons in Hs; pose proof (len_nonneg _ b); lia].
      right. split; [cbn in Hs; lia|easy]. }
    rewrite Hr. cbn [w_write]. destruct (zc_compress K zip (firstn (Z.to_nat (Z.min chunk (size - dbw))) (content r))) as [cd zip'] eqn:Ez.
    unfold pbind at 1. cbn [after ret]. rewrite len_firstn. 
    destruct (Z.leb_spec (len (content r)) chunk) as [Hle|Hgt].
    - rewrite cut_small by (unfold len in Hle; lia).
      rewrite firstn_all2 in Ez |- * by (unfold len in *; lia).
      exists r'. replace (_ || _) with true by (unfold len in *; lia). cbn [zc_feed]. rewrite Ez. cbn [fst snd]. rewrite app_nil_r.
      match goal with |- context [Ok (dbw + ?e)] => replace (dbw + e) with size by (unfold len in *; lia) end. easy.
    - replace (Z.min chunk (size - dbw)) with chunk in * by lia.
      replace (_ || _) with false by (unfold len in *; lia).
      destruct f as [|f]; [unfold len in *; lia|].
      assert (Hl : length (content r') = (length (content r) - Z.to_nat chunk)%nat) by (rewrite Hc; apply skipn_length).
      destruct (IH r' (seen ++ firstn (Z.to_nat chunk) (content r)) zip' (buf ++ cd) size (dbw + Z.min (Z.of_nat (Z.to_nat chunk)) (len (content r)))) as (r2 & H2);
        [lia|unfold len in *; lia|unfold len in *; lia|].
      exists r2. unfold bytes in *. rewrite H2. clear H2 IH. cbn [cut]. replace (Nat.leb _ _) with false by (symmetry; apply Nat.leb_gt; unfold len in *; lia).
      cbn [zc_feed]. rewrite Ez, <- Hc. replace (S f - 1)%nat with f by lia. destruct (zc_feed K zip' (cut f (Z.to_nat chunk) (content r'))) as [o z2].
      cbn [fst snd]. rewrite <- !app_assoc. rewrite Hc at 1. now rewrite firstn_skipn.
  Qed.
  Context (pagesize : Z) (Hpage : 0 < pagesize) (Hsha : forall d, sha_ok (sha1 d)).
  (** store with a ZippedStoreShaWriter set touches no files *)
  Lemma mem_store_ok fuel (db : mdb K) i : proper content i -> (length (content (is_stream i)) < fuel)%nat ->
    let o := object_of content i in let sha := sha1 (form o) in
    exists r', mem_store K sha1 pagesize read fuel db i =
      ret (mk_istream (Some sha) (is_type i) (is_size i) r',
           mk_mdb (dict_set sha (length (m_objs db)) (m_cache db))
                  (m_objs db ++ [mk_ostream sha (fst o) (len (snd o)) (reader_init K (compressed_as (K := K) pagesize o) None)])).
  Proof.
    intros (Hb & Hs & H1 & H2 & H3 & H4) Hf o sha.
    destruct (zc_compress K (zc_new K 1) (loose_object_header (is_type i) (is_size i))) as [cd zip] eqn:Ez.
    destruct (copy_zip (stream_chunk_size pagesize) ltac:(unfold stream_chunk_size; lia) fuel (is_stream i) (loose_object_header (is_type i) (is_size i)) zip
               cd (is_size i) 0) as (r' & Hcp); [lia|lia|lia|].
    exists r'. unfold mem_store, store, fill, feed, write_object_to. rewrite Hb. unfold pbind, on_error, ret. cbn [w_write after].
    rewrite Ez. cbn [after ret].
    rewrite !app_nil_l, Hcp. cbn [after bind w_sha ret is_binsha is_type is_size].
    rewrite hex_to_bin_to_hex by apply Hsha. cbn [bind after ret is_binsha is_type is_size w_zip_value].
    unfold sha, form, o, object_of. cbn [fst snd]. rewrite <- Hs. do 5 f_equal.
    unfold compressed_as, header_of. rewrite zc_all_feed. cbn [fst snd zc_feed]. rewrite <- Hs, Ez.
    unfold pieces, stream_chunk_size. rewrite (cut_fuel (Z.to_nat (1000 * pagesize)) ltac:(lia) (length (content (is_stream i))) (fuel - 1)) by lia.
    now destruct (zc_feed K zip (cut (fuel - 1) (Z.to_nat (1000 * pagesize)) (content (is_stream i)))).
  Qed.
End Zip.

(** ** The readers of the objects *)
Section States.
  Context {K : zlib} (L : zlib_laws K) (pagesize : Z) (Hpage : 0 < pagesize).
  Notation compressed_as := (compressed_as (K := K) pagesize).
  Definition plain (o : object) : Prop := is_bytes (fst o) /\ is_bytes (snd o) /\ ~ In 32 (fst o) /\ ~ In 0 (fst o).
  Lemma compressed_stream o : plain o -> zl_stream L (compressed_as o) (header_of o ++ snd o).
  Proof.
    intros (H1 & H2 & _). unfold MemSpec.compressed_as.
    assert (E : concat (header_of o :: pieces (1000 * pagesize) (snd o)) = header_of o ++ snd o).
    { cbn [concat]. rewrite (pieces_concat pagesize Hpage). reflexivity. }
    rewrite <- E.
    apply (zl_compress K L). constructor; [apply header_bytes; [easy|apply len_nonneg]|]. apply bytes_concat. now rewrite (pieces_concat pagesize Hpage).
  Qed.
  (** The stream of an object that is not being read: its header is still to be parsed, or all
      that comes from the buffer has been read. *)
  Definition idle (o : object) (r : reader K) : Prop :=
    fresh L (fst o) (snd o) (compressed_as o) [] r \/
    exists pos, P L (fst o) (snd o) (compressed_as o) [] (bufpos (fst o) (snd o)) r pos /\ (bufpos (fst o) (snd o) <= pos)%nat.
  Lemma idle_init o : plain o -> idle o (reader_init K (compressed_as o) None).
  Proof. intros H. left. pose proof (fresh_init L _ _ _ [] (compressed_stream o H)) as HF. now rewrite app_nil_r in HF. Qed.
  Lemma idle_rewind o r : plain o -> idle o r -> fresh L (fst o) (snd o) (compressed_as o) [] (rewind r).
  Proof.
    intros Hp [H|(pos & H & HB)].
    - apply fresh_rewind; [|easy]. now apply compressed_stream.
    - destruct (N_rewind L (fst o) (snd o) (compressed_as o) [] (compressed_stream o Hp) _ r pos H HB) as [H1 H2]. split; [easy|]. split; [easy|]. reflexivity.
  Qed.
  (** Reading from a rewound stream as allowed. *)
  Lemma use_ok o fuel ops r : plain o -> good_object L pagesize o -> good_use L pagesize o ops -> (2 * length (header_of o ++ snd o) + 8 <= fuel)%nat ->
    fresh L (fst o) (snd o) (compressed_as o) [] r ->
    exists r', run_state (read fuel) (fun r => seek r 0 0) r ops = Ok (cursor (snd o) 0 ops, r') /\ idle o r'.
  Proof.
    intros Hp (Hl & Hcase) Hu Hf Hfr. destruct o as [t c]. cbn [fst snd] in *. unfold header_of in *. cbn [fst snd] in *.
    assert (HB : Z.to_nat (Z.min (len c) (8192 - len (loose_object_header t (len c)))) = bufpos t c) by (now apply bufpos_gen).
    destruct Hu as [->|[Hresp Hpos]]; [exists r; split; [easy|now left]|]. cbn [fst snd] in *. unfold header_of in *. cbn [fst snd] in *.
    rewrite HB in Hresp, Hpos.
    pose proof (compressed_stream (t, c) Hp) as Hz. destruct Hp as (Hb1 & Hb2 & Ht1 & Ht2). cbn [fst snd] in *. unfold header_of in Hz. cbn [fst snd] in Hz.
    set (z := compressed_as (t, c)) in *.
    assert (Hfc : (2 * length c + 8 <= fuel)%nat) by (rewrite app_length in Hf; lia).
    assert (Hgen : forall ops r pos, (P L t c z [] (bufpos t c) r pos \/ (fresh L t c z [] r /\ pos = O)) -> respects (dense L z (loose_object_header t (len c) ++ c)) (bufpos t c) (length z) c pos ops ->
      exists r', run_state (read fuel) (fun r => seek r 0 0) r ops = Ok (cursor c pos ops, r') /\
        (P L t c z [] (bufpos t c) r' (position pos ops (cursor c pos ops)) \/ (fresh L t c z [] r'))).
    { clear Hresp Hpos Hfr r ops. induction ops as [|[n|] ops IH]; intros r pos Hst Hresp.
      - exists r. split; [easy|]. cbn [position cursor]. destruct Hst as [H|[H _]]; [now left|now right].
      - destruct Hresp as [Hns Hresp]. cbn [run_state cursor].
        assert (exists r1, P L t c z [] (bufpos t c) r1 pos /\ read fuel r n = read fuel r1 n) as (r1 & HP & ->).
        { destruct Hst as [HP|[(HN & Hs & _) ->]]; [now exists r|].
          destruct (parse_dense L t c z [] Hz Ht1 Ht2 r fuel Hcase Hl HN Hf) as (r2 & R1 & R2). exists r2. split; [easy|].
          eapply read_fresh; eauto. apply R2. }
        destruct (P_read L t c z [] Hz (bufpos t c) r1 pos n fuel HP Hfc) as (out & r' & R1 & R2 & R3 & R4).
        specialize (R4 Hns). rewrite R1. cbn [bind].
        destruct (IH r' _ (or_introl R2)) as (r3 & H1 & H2); [rewrite R4; exact Hresp|].
        exists r3. rewrite H1. cbn [bind position]. rewrite <- R4. split; [easy|exact H2].
      - destruct Hresp as [HB' Hresp]. cbn [run_state cursor]. change (seek r 0 0) with (Ok (rewind r)). cbn [bind].
        destruct (IH (rewind r) O) as (r3 & H1 & H2); [|easy|].
        { right. split; [|easy]. destruct Hst as [HP|[HF ->]]; [|now apply fresh_rewind].
          destruct (N_rewind L t c z [] Hz _ _ _ HP HB') as [HN Hs]. split; [easy|]. split; [easy|]. reflexivity. }
        exists r3. rewrite H1. now split. }
    destruct (Hgen ops r O (or_intror (conj Hfr eq_refl)) Hresp) as (r' & H1 & H2).
    exists r'. split; [exact H1|]. destruct H2 as [H2|H2]; [right|now left]. now exists (position 0 ops (cursor c 0 ops)).
  Qed.
End States.

(** ** All operations *)
Section Run.
  Context {K : zlib} (L : zlib_laws K) (sha1 : bytes -> bytes) (Hsha : forall d, sha_ok (sha1 d)) (pagesize : Z) (Hpage : 0 < pagesize).
  Context {R : Type} (rd : R -> Z -> res (bytes * R)) (content : R -> bytes) (HR : stream_reader rd content).
  Context (fuel : nat) (all : list object) (Hall : no_collision sha1 all).
  Definition enough (o : object) : Prop := (2 * length (header_of o ++ snd o) + 8 <= fuel)%nat.
  Record inv (objs : list object) (db : mdb K) : Prop := mk_inv {
    i_nodup : NoDup (map fst (m_cache db));
    i_good : forall o, In o objs -> plain o /\ good_object L pagesize o /\ enough o /\ In o all;
    i_known : forall o, In o objs -> dict_get (sha1 (form o)) (m_cache db) <> None;
    i_obj : forall sha n, dict_get sha (m_cache db) = Some n -> exists o r, In o objs /\ sha = sha1 (form o) /\
      nth_error (m_objs db) n = Some (mk_ostream sha (fst o) (len (snd o)) r) /\ idle L pagesize o r }.
  Lemma inv_known objs db : inv objs db -> forall sha, In sha (map fst (m_cache db)) <-> known sha1 objs sha.
  Proof.
    intros [H1 H2 H3 H4] sha. rewrite dict_in. split.
    - intros H. destruct (dict_get sha (m_cache db)) as [n|] eqn:E; [|easy]. destruct (H4 _ _ E) as (o & r & Ho & -> & _).
      exists o. split; [easy|apply form_name].
    - intros (o & Ho & Hn). apply name_form in Hn as ->. now apply H3.
  Qed.
  (** Putting another stream into an object. *)
  Lemma inv_set objs db sha n o r r' : inv objs db -> dict_get sha (m_cache db) = Some n -> In o objs -> sha = sha1 (form o) ->
    nth_error (m_objs db) n = Some (mk_ostream sha (fst o) (len (snd o)) r) -> idle L pagesize o r' ->
    inv objs (mk_mdb (m_cache db) (set_stream n r' (m_objs db))).
  Proof.
    intros [H1 H2 H3 H4] Hg Ho Hs Hn Hi. split; cbn [m_cache m_objs]; try easy.
    intros sha2 n2 Hg2. rewrite nth_set_stream. destruct (Nat.eqb_spec n2 n) as [->|Hne].
    - destruct (H4 _ _ Hg2) as (o2 & r2 & Ho2 & Hs2 & Hn2 & _). rewrite Hn in Hn2. injection Hn2 as <- _ _ _.
      rewrite Hn. exists o, r'. cbn [ot_binsha ot_type ot_size]. auto.
    - now apply H4.
  Qed.
  Lemma set_set n (a b : reader K) l : set_stream n b (set_stream n a l) = set_stream n b l.
  Proof.
    revert n. induction l as [|o l IH]; intros [|n]; try reflexivity. specialize (IH n). unfold set_stream in *. cbn [firstn app nth_error skipn]. 
    cbn [firstn app nth_error skipn] in *. f_equal. exact IH.
  Qed.
  Lemma use_handle_run n ops : forall cache objs o, nth_error objs n = Some o ->
    use_handle K fuel (mk_mdb cache objs) n ops =
    let! (l, r') := run_state (read fuel) (fun r => seek r 0 0) (ot_stream o) ops in
    Ok (l, mk_mdb cache (match ops with [] => objs | _ => set_stream n r' objs end)).
  Proof.
    induction ops as [|[k|] ops IH]; intros cache objs o Hn; [reflexivity| |].
    - cbn [use_handle run_state]. unfold handle_read, handle_object. cbn [m_objs m_cache]. rewrite Hn. cbn [bind].
      destruct (read fuel (ot_stream o) k) as [[d r1]|e|]; [|reflexivity..]. cbn [bind].
      rewrite (IH _ _ (mk_ostream (ot_binsha o) (ot_type o) (ot_size o) r1)).
      2: { rewrite nth_set_stream, Nat.eqb_refl, Hn. easy. }
      cbn [ot_stream]. destruct (run_state (read fuel) (fun r => seek r 0 0) r1 ops) as [[l r2]|e|] eqn:E; [|reflexivity..]. cbn [bind].
      destruct ops; [cbn in E; now injection E as <- <-|]. now rewrite set_set.
    - cbn [use_handle run_state]. unfold handle_rewind, handle_object. cbn [m_objs m_cache]. rewrite Hn. cbn [bind].
      change (seek (ot_stream o) 0 0) with (Ok (rewind (ot_stream o))). cbn [bind].
      rewrite (IH _ _ (mk_ostream (ot_binsha o) (ot_type o) (ot_size o) (rewind (ot_stream o)))).
      2: { rewrite nth_set_stream, Nat.eqb_refl, Hn. easy. }
      cbn [ot_stream]. destruct (run_state (read fuel) (fun r => seek r 0 0) (rewind (ot_stream o)) ops) as [[l r2]|e|] eqn:E; [|reflexivity..]. cbn [bind].
      destruct ops; [cbn in E; now injection E as <- <-|]. now rewrite set_set.
  Qed.
  Lemma stream_ok objs db sha : inv objs db ->
    match mem_stream db sha with
    | Ok (n, db') => inv objs db' /\ exists o r, In o objs /\ sha = sha1 (form o) /\ dict_get sha (m_cache db') = Some n /\
        nth_error (m_objs db') n = Some (mk_ostream sha (fst o) (len (snd o)) r) /\
        fresh L (fst o) (snd o) (compressed_as (K := K) pagesize o) [] r
    | Raise e => e = BadObject /\ ~ known sha1 objs sha
    | Diverge => False
    end.
  Proof.
    intros Hi. unfold mem_stream. destruct (dict_get sha (m_cache db)) as [n|] eqn:E.
    - destruct (i_obj _ _ Hi _ _ E) as (o & r & Ho & Hs & Hn & Hid). unfold handle_rewind, handle_object. rewrite Hn. cbn [bind ot_stream].
      change (seek r 0 0) with (Ok (rewind r)). cbn [bind]. pose proof (idle_rewind L pagesize Hpage o r (proj1 (i_good _ _ Hi o Ho)) Hid) as Hf.
      split; [eapply inv_set; eauto; now left|]. exists o, (rewind r). cbn [m_cache m_objs]. rewrite nth_set_stream, Nat.eqb_refl, Hn. auto 10.
    - split; [easy|]. intros H. apply (inv_known _ _ Hi) in H. apply dict_in in H. easy.
  Qed.
  Lemma do_ok objs db op : inv objs db -> incl (now_stored content objs op) all -> m_proper L sha1 pagesize content all op ->
    (forall o, In o all -> enough o) ->
    exists out db', m_do K sha1 pagesize rd fuel db op = ret (out, db') /\ answers sha1 content objs op out /\ inv (now_stored content objs op) db'.
  Proof.
    intros Hi Hincl Hp Hen. destruct op as [i|sha ops|sha|sha| |]; cbn [m_do answers now_stored m_proper] in *.
    - destruct Hp as [Hp Hgo]. set (o := object_of content i) in *. assert (Ho : In o all) by (apply Hincl; now left).
      destruct (mem_store_ok K sha1 rd content HR pagesize Hpage Hsha fuel db i Hp) as (r' & E).
      { specialize (Hen o Ho). unfold enough, o, object_of in Hen. cbn [snd] in Hen. rewrite app_length in Hen. lia. }
      fold o in E. cbv zeta in E. rewrite E. cbn [after ret settle_m is_binsha is_type is_size]. eexists _, _. split; [reflexivity|]. split.
      { exists (sha1 (form o)). split; [apply form_name|easy]. }
      destruct Hi as [H1 H2 H3 H4].
      assert (Hpl : plain o) by (destruct Hp as (_ & _ & ?); exact H).
      split; cbn [m_cache m_objs].
      + now apply dict_set_nodup.
      + intros o' [<-|Ho']; [auto|now apply H2].
      + intros o' Ho'. rewrite dict_get_set. destruct (beq (sha1 (form o)) (sha1 (form o'))) eqn:Eb; [easy|].
        destruct Ho' as [<-|Ho']; [rewrite (proj2 (beq_true _ _) eq_refl) in Eb; easy|now apply H3].
      + intros sha n. rewrite dict_get_set. destruct (beq (sha1 (form o)) sha) eqn:Eb.
        * intros [= <-]. apply beq_true in Eb as <-. exists o, (reader_init K (compressed_as (K := K) pagesize o) None).
          split; [now left|]. split; [easy|]. split; [|now apply idle_init]. rewrite nth_error_app2, Nat.sub_diag by lia. easy.
        * intros Hg. destruct (H4 _ _ Hg) as (o2 & r2 & Ho2 & Hs2 & Hn2 & Hi2). exists o2, r2. split; [now right|]. split; [easy|]. split; [|easy].
          rewrite nth_error_app1; [easy|]. apply nth_error_Some. congruence.
    - pose proof (stream_ok objs db sha Hi) as Hst. destruct (mem_stream db sha) as [[n db1]|e|]; [| |easy].
      2: { destruct Hst as [-> Hk]. eexists _, _. split; [reflexivity|]. split; [right|]; auto. }
      destruct Hst as (Hi1 & o & r & Ho & Hs & Hg & Hn & Hf). cbn [bind]. unfold handle_object. rewrite Hn. cbn [bind].
      destruct (i_good _ _ Hi1 o Ho) as (Hpl & Hgo & Heno & Hoa).
      destruct db1 as [cache1 objs1]. cbn [m_objs m_cache] in *. rewrite (use_handle_run n ops cache1 objs1 _ Hn). cbn [ot_stream].
      assert (Hu : good_use L pagesize o ops) by (apply (Hp o Hoa); rewrite Hs; apply form_name).
      destruct (use_ok L pagesize Hpage o fuel ops r Hpl Hgo Hu Heno Hf) as (r' & Hrun & Hid). rewrite Hrun. cbn [bind settle_m ot_binsha ot_type ot_size].
      eexists _, _. split; [reflexivity|]. split.
      { left. exists o. split; [easy|]. split; [rewrite Hs; apply form_name|easy]. }
      destruct ops; [exact Hi1|]. eapply (inv_set objs (mk_mdb cache1 objs1)); eauto.
    - unfold mem_info. pose proof (stream_ok objs db sha Hi) as Hst. destruct (mem_stream db sha) as [[n db1]|e|]; [| |easy].
      2: { destruct Hst as [-> Hk]. eexists _, _. split; [reflexivity|]. split; [right|]; auto. }
      destruct Hst as (Hi1 & o & r & Ho & Hs & Hg & Hn & Hf). cbn [bind]. unfold handle_object. rewrite Hn. cbn [bind settle_m ot_binsha ot_type ot_size].
      eexists _, _. split; [reflexivity|]. split; [|easy]. left. exists o. split; [easy|]. split; [rewrite Hs; apply form_name|easy].
    - eexists _, _. split; [reflexivity|]. split; [|easy]. eexists. split; [reflexivity|]. rewrite <- (inv_known _ _ Hi), dict_in.
      unfold mem_has_object. now destruct (dict_get sha (m_cache db)).
    - eexists _, _. split; [reflexivity|]. split; [|easy]. exists (map fst (m_cache db)). split; [apply Hi|]. split; [apply (inv_known _ _ Hi)|].
      unfold mem_size, len. now rewrite map_length.
    - eexists _, _. split; [reflexivity|]. split; [|easy]. exists (map fst (m_cache db)). split; [apply Hi|]. split; [apply (inv_known _ _ Hi)|easy].
  Qed.
  Lemma run_ok ops : (forall o, In o all -> enough o) -> Forall (m_proper L sha1 pagesize content all) ops -> forall objs db, inv objs db ->
    incl objs all -> incl (m_objects content ops) all ->
    exists outs db', m_run K sha1 pagesize rd fuel db ops = ret (outs, db') /\ all_answered sha1 content objs ops outs.
  Proof.
    intros Hen. induction 1 as [|op ops Hop Hops IH]; intros objs db Hi H1 H2; cbn [m_run].
    - eexists _, _. split; [reflexivity|constructor].
    - destruct (do_ok objs db op Hi) as (out & db1 & E1 & Ha & Hi1); [|easy|easy|].
      { destruct op; cbn [now_stored m_objects] in *; try easy. intros o [<-|Ho]; [apply H2; now left|now apply H1]. }
      destruct (IH (now_stored content objs op) db1 Hi1) as (outs & db2 & E2 & Has).
      { destruct op; cbn [now_stored m_objects] in *; try easy. intros o [<-|Ho]; [apply H2; now left|now apply H1]. }
      { intros o Ho. apply H2. destruct op; cbn [m_objects]; try easy. now right. }
      unfold pbind, ret in *. rewrite E1. cbn [after]. rewrite E2. cbn [after]. exists (out :: outs), db2. split; [easy|]. now constructor.
  Qed.
End Run.
Lemma memory_db {K : zlib} (L : zlib_laws K) (sha1 : bytes -> bytes) (pagesize : Z) {R : Type} (rd : R -> Z -> res (bytes * R)) (content : R -> bytes) (ops : list (mop R)) :
  (forall d, sha_ok (sha1 d)) -> 0 < pagesize -> stream_reader rd content ->
  Forall (m_proper L sha1 pagesize content (m_objects content ops)) ops ->
  exists f0, forall fuel, (f0 <= fuel)%nat -> exists outs db,
    m_run K sha1 pagesize rd fuel (mem_init K) ops = ret (outs, db) /\ all_answered sha1 content [] ops outs.
Proof.
  intros Hsha Hpage HR Hops.
  assert (forall l : list object, exists f0, forall fuel, (f0 <= fuel)%nat -> forall o, In o l -> enough fuel o) as Hb.
  { induction l as [|o l (f0 & IH)]; [now exists O|]. exists (Nat.max f0 (2 * length (header_of o ++ snd o) + 8)). intros fuel Hf o' [<-|Ho].
    - unfold enough. lia. - apply IH; [lia|easy]. }
  destruct (Hb (m_objects content ops)) as (f0 & Hf0). exists f0. intros fuel Hf.
  eapply run_ok; eauto; [|easy|easy].
  split; cbn; try easy. constructor.
Qed.
