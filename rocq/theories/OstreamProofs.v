(** Proofs about databases with an output stream. *)
From Coq Require Import ZifyBool ZifyNat.
From Verif Require Import Py PyFacts FunModel FunSpec FunProofs IndexSpec ZlibModel ReaderModel StreamSpec ReaderProofs PackSpec PackCheckProofs
  OsModel LooseModel LooseSpec LooseProofs LooseTop OstreamModel OstreamSpec.
Ltac Zify.zify_post_hook ::= Z.div_mod_to_equations.

Section Ostream.
  Context {K : zlib} (sha1 : bytes -> bytes) (Hsha : forall d, sha_ok (sha1 d)) (pagesize : Z) (Hpage : 0 < pagesize).
  Context {R : Type} (read : R -> Z -> res (bytes * R)) (content : R -> bytes) (HR : stream_reader read content).
  Notation writer := (writer K).

  (** After more data. *)
  Fixpoint take (w : writer) (chunks : list bytes) : writer :=
    match chunks with
    | [] => w
    | d :: l => take match w with
                     | WSha seen => WSha (seen ++ d)
                     | WZip seen zip buf => WZip (seen ++ d) (snd (zc_compress K zip d)) (buf ++ fst (zc_compress K zip d))
                     | w => w
                     end l
    end.
  Lemma take_app w l1 l2 : take w (l1 ++ l2) = take (take w l1) l2.
  Proof. revert w. induction l1 as [|d l1 IH]; intros w; [reflexivity|]. cbn [app take]. apply IH. Qed.
  Lemma take_digested chunks : forall w seen, digested w = Some seen -> digested (take w chunks) = Some (seen ++ concat chunks).
  Proof.
    induction chunks as [|d l IH]; intros w seen H; [cbn; now rewrite app_nil_r|]. cbn [take concat]. rewrite app_assoc. apply IH.
    destruct w; try discriminate; cbn [digested] in *; congruence.
  Qed.
  Lemma w_write_take w seen d : digested w = Some seen -> w_write K w d = ret (Ok (Some (len d)), take w [d]).
  Proof. destruct w; try discriminate; intros _; cbn [w_write take]; [reflexivity|]. now destruct (zc_compress K zip d). Qed.

  Lemma copy_take size chunk : forall have r chunks r', delivered read size chunk have r chunks r' ->
    forall fuel w seen, (length chunks <= fuel)%nat -> digested w = Some seen ->
    copy_loop K read fuel r w size chunk have = ret (Ok (have + len (concat chunks)), r', take w chunks).
  Proof. clear Hsha.
    induction 1 as [have r d r' Hr Hend|have r d r' l r'' Hr Hle Hne Hd IH]; intros fuel w seen Hf Hw; (destruct fuel as [|f]; [cbn in Hf; lia|]);
      cbn [copy_loop]; rewrite Hr, (w_write_take _ _ _ Hw); unfold pbind at 1; cbn [after ret].
    - replace ((len d <? Z.min chunk (size - have)) || (have + len d =? size)) with true by lia. cbn [concat]. now rewrite app_nil_r.
    - replace ((len d <? Z.min chunk (size - have)) || (have + len d =? size)) with false by lia.
      rewrite (IH f _ (seen ++ d)); [|cbn in Hf; lia|]. 2:{ pose proof (take_digested [d] w seen Hw) as E. cbn [concat] in E. now rewrite app_nil_r in E. }
      cbn [concat take]. now rewrite len_app, Z.add_assoc.
  Qed.
  Lemma delivered_all size chunk : 0 < chunk -> forall n r have, (length (content r) <= n)%nat -> 0 <= have -> len (content r) <= size - have ->
    exists chunks r', delivered read size chunk have r chunks r' /\ concat chunks = content r /\ content r' = [] /\ (length chunks <= S (length (content r)))%nat.
  Proof. clear Hsha.
    intros Hch. induction n as [|n IH]; intros r have Hn Hh Hs;
      (destruct (HR r (Z.min chunk (size - have))) as (r' & Hr & Hc);
       [destruct (content r) as [|x b] eqn:E; [|left; rewrite len_cons in Hs; pose proof (len_nonneg _ b); lia];
        destruct (Z.eq_dec (size - have) 0); [right; split; [lia|easy]|left; cbn in Hs; lia]|]).
    - assert (content r = []) as E by (destruct (content r); [easy|cbn in Hn; lia]).
      exists [firstn (Z.to_nat (Z.min chunk (size - have))) (content r)], r'. rewrite E in *. rewrite firstn_nil, skipn_nil in *.
      split; [|repeat split; [assumption|cbn; lia]]. apply (dl_last _ _ _ _ _ _ r'); [exact Hr|]. cbn in Hs |- *. lia.
    - set (d := firstn (Z.to_nat (Z.min chunk (size - have))) (content r)) in *.
      assert (len d = Z.min (Z.min chunk (size - have)) (len (content r))) as Hd by (unfold d; rewrite len_firstn; lia).
      pose proof (len_nonneg _ (content r)).
      destruct (Z_lt_dec (len d) (Z.min chunk (size - have))) as [Hlt|Hge]; [|destruct (Z.eq_dec (have + len d) size) as [He|Hne]].
      1,2: exists [d], r'; cbn [concat]; rewrite app_nil_r;
        assert (d = content r) as E by (unfold d; apply firstn_all2; unfold len in *; lia);
        (split; [apply (dl_last _ _ _ _ _ _ r'); [exact Hr|lia]|]); (split; [exact E|]); (split; [rewrite Hc; apply skipn_all2; unfold len in *; lia|cbn; lia]).
      assert (0 < len d) as Hpos by lia.
      assert (length (content r') = (length (content r) - Z.to_nat (Z.min chunk (size - have)))%nat) as Hl by (rewrite Hc; apply skipn_length).
      destruct (IH r' (have + len d)) as (l & r2 & H1 & H2 & H3 & H4); [unfold len in *; lia|lia|unfold len in *; lia|].
      exists (d :: l), r2. split; [apply (dl_more _ _ _ _ _ _ r'); [exact Hr|lia|exact Hne|exact H1]|].
      cbn [concat]. rewrite H2, Hc. split; [apply firstn_skipn|]. split; [exact H3|]. cbn [length]. unfold len in *. lia.
  Qed.

  (** Storing through one of the two. *)
  Lemma store_take fuel db w seen i : proper content i -> (length (content (is_stream i)) < fuel)%nat -> digested w = Some seen ->
    exists chunks r', concat chunks = form (object_of content i) /\ content r' = [] /\
      db_store K sha1 pagesize read fuel (mk_wdb db (Some w)) i =
      ret (mk_istream (Some (sha1 (seen ++ form (object_of content i)))) (is_type i) (is_size i) r', mk_wdb db (Some (take w chunks))).
  Proof.
    intros (Hb & Hs & H1 & H2 & H3 & H4) Hf Hw.
    destruct (delivered_all (is_size i) (stream_chunk_size pagesize) ltac:(unfold stream_chunk_size; lia) (length (content (is_stream i))) (is_stream i) 0)
      as (chunks & r' & Hd & Hc & Hr & Hl); [lia|lia|lia|].
    set (h := loose_object_header (is_type i) (is_size i)).
    assert (Hfo : form (object_of content i) = h ++ concat chunks) by (unfold form, object_of, h; cbn [fst snd]; now rewrite Hs, Hc).
    exists (h :: chunks), r'. split; [now rewrite Hfo|]. split; [exact Hr|].
    unfold db_store, store. cbn [wd_db ostream wd_out]. unfold fill, feed, write_object_to. rewrite Hb. fold h. unfold pbind, on_error, ret.
    cbn [after]. rewrite (w_write_take w seen h Hw). cbn [after ret].
    pose proof (take_digested [h] w seen Hw) as Hw1. cbn [concat] in Hw1. rewrite app_nil_r in Hw1.
    rewrite (copy_take _ _ _ _ _ _ Hd fuel (take w [h]) (seen ++ h)); [|lia|exact Hw1]. cbn [after ret bind].
    rewrite <- take_app. cbn [app].
    pose proof (take_digested (h :: chunks) w seen Hw) as Hw2. cbn [concat] in Hw2. rewrite <- Hfo in Hw2.
    assert (w_sha K sha1 (take w (h :: chunks)) = ret (sha1 (seen ++ form (object_of content i)))) as E.
    { destruct (take w (h :: chunks)); try discriminate; cbn [digested w_sha] in *; congruence. }
    rewrite E. cbn [after ret]. rewrite hex_to_bin_to_hex by apply Hsha. reflexivity.
  Qed.
  (** With a sha the stream is copied as it is. *)
  Lemma store_take_raw fuel db w seen i sha : is_binsha i = Some sha -> sha_ok sha -> len (content (is_stream i)) <= maxsize ->
    (length (content (is_stream i)) < fuel)%nat -> digested w = Some seen ->
    exists chunks r', concat chunks = content (is_stream i) /\ content r' = [] /\
      db_store K sha1 pagesize read fuel (mk_wdb db (Some w)) i = ret (mk_istream (Some sha) (is_type i) (is_size i) r', mk_wdb db (Some (take w chunks))).
  Proof. clear Hsha.
    intros Hb Hok Hm Hf Hw.
    destruct (delivered_all maxsize (stream_chunk_size pagesize) ltac:(unfold stream_chunk_size; lia) (length (content (is_stream i))) (is_stream i) 0)
      as (chunks & r' & Hd & Hc & Hr & Hl); [lia|lia|lia|].
    exists chunks, r'. split; [exact Hc|]. split; [exact Hr|].
    unfold db_store, store. cbn [wd_db ostream wd_out]. unfold fill, feed. rewrite Hb. unfold pbind, on_error, ret.
    cbn [after]. rewrite (copy_take _ _ _ _ _ _ Hd fuel w seen); [|lia|exact Hw]. cbn [after ret bind].
    destruct sha as [|b s]; [destruct Hok as [Hlen _]; discriminate|]. cbn [after ret]. rewrite hex_to_bin_to_hex by apply Hok. reflexivity.
  Qed.
  Lemma store_flex fuel db seen passed i : is_binsha i = None ->
    db_store K sha1 pagesize read fuel (mk_wdb db (Some (WFlex seen passed))) i = throw TypeError.
  Proof. intros Hb. unfold db_store, store. cbn [wd_db ostream wd_out]. unfold fill, feed, write_object_to. rewrite Hb. reflexivity. Qed.

  (** Several objects through one writer. *)
  Notation store_each := (store_each (K := K) sha1 pagesize read).
  Lemma store_each_take fuel db : forall l w seen, Forall (proper content) l -> Forall (fun i => length (content (is_stream i)) < fuel)%nat l -> digested w = Some seen ->
    exists outs chunks, concat chunks = concat (map (fun i => form (object_of content i)) l) /\ Forall (fun i => content (is_stream i) = []) outs /\
      map is_binsha outs = map (fun n => Some (sha1 (seen ++ concat (map (fun i => form (object_of content i)) (firstn n l))))) (seq 1 (length l)) /\
      store_each fuel (mk_wdb db (Some w)) l = ret (outs, mk_wdb db (Some (take w chunks))).
  Proof.
    induction l as [|i l IH]; intros w seen Hp Hf Hw.
    - exists [], []. repeat split; try constructor.
    - inversion Hp as [|? ? Hp1 Hp2]; inversion Hf as [|? ? Hf1 Hf2]; subst.
      destruct (store_take fuel db w seen i Hp1 Hf1 Hw) as (c1 & r1 & E1 & Er & Hs1).
      pose proof (take_digested c1 w seen Hw) as Hw1. rewrite E1 in Hw1.
      destruct (IH (take w c1) _ Hp2 Hf2 Hw1) as (outs & c2 & E2 & Ho & En & Hs2).
      exists (mk_istream (Some (sha1 (seen ++ form (object_of content i)))) (is_type i) (is_size i) r1 :: outs), (c1 ++ c2).
      split; [cbn [map concat]; now rewrite concat_app, E1, E2|]. split; [constructor; assumption|]. split.
      + cbn [map is_binsha length seq firstn]. cbn [concat map]. rewrite app_nil_r. f_equal. rewrite En. rewrite <- (seq_shift (length l) 1), map_map. apply map_ext. intros n.
        cbn [firstn map concat]. now rewrite <- app_assoc.
      + cbn [store_each]. rewrite Hs1. unfold pbind, ret. cbn [after]. rewrite Hs2. cbn [after ret]. now rewrite take_app.
  Qed.
  (** What a ZippedStoreShaWriter gives. *)
  Lemma zip_value_take chunks : forall seen zip buf, w_zip_value K (take (WZip seen zip buf) chunks) = ret (buf ++ zc_all K zip chunks).
  Proof.
    induction chunks as [|d l IH]; intros seen zip buf; [reflexivity|]. cbn [take]. rewrite IH. cbn [zc_all].
    destruct (zc_compress K zip d) as [o z']. cbn [fst snd]. now rewrite app_assoc.
  Qed.

  Lemma single_store (L : zlib_laws K) fuel db w i : unused w -> proper content i -> (length (content (is_stream i)) < fuel)%nat ->
    exists sha f r' w', name_of sha1 (object_of content i) sha /\ loose_form (is_type i) (content (is_stream i)) f /\
      content r' = [] /\ digested w' = Some f /\
      (forall seen zip buf, w = WZip seen zip buf -> exists z, w_zip_value K w' = ret z /\ zl_stream L z f) /\
      db_store K sha1 pagesize read fuel (mk_wdb db (Some w)) i = ret (mk_istream (Some sha) (is_type i) (is_size i) r', mk_wdb db (Some w')).
  Proof.
    intros Hw Hp Hf. assert (digested w = Some []) as Hd by (destruct Hw as [-> | ->]; reflexivity).
    destruct (store_take fuel db w [] i Hp Hf Hd) as (chunks & r' & Hc & Hr & Hst). rewrite app_nil_l in Hst.
    assert (loose_form (is_type i) (content (is_stream i)) (form (object_of content i))) as Hform by apply loose_form_header.
    exists (sha1 (form (object_of content i))), (form (object_of content i)), r', (take w chunks).
    split; [now exists (form (object_of content i))|]. split; [exact Hform|]. split; [exact Hr|].
    split; [rewrite (take_digested chunks w [] Hd), app_nil_l; now rewrite Hc|]. split; [|exact Hst].
    intros seen zip buf E. destruct Hw as [-> | ->]; [discriminate|]. exists ([] ++ zc_all K (zc_new K 1) chunks).
    split; [apply zip_value_take|]. rewrite app_nil_l, <- Hc. apply (zl_compress K L).
    apply bytes_concat. rewrite Hc. destruct Hp as (_ & _ & H1 & H2 & _). unfold form, object_of. cbn [fst snd]. apply Forall_app. split; [|exact H2].
    apply header_bytes; [exact H1|apply len_nonneg].
  Qed.
  Lemma several_stores fuel db w l : unused w -> Forall (proper content) l -> Forall (fun i => length (content (is_stream i)) < fuel)%nat l ->
    exists outs w' fs, Forall2 (fun i f => loose_form (is_type i) (content (is_stream i)) f) l fs /\
      map is_binsha outs = map (fun n => Some (sha1 (concat (firstn n fs)))) (seq 1 (length l)) /\
      digested w' = Some (concat fs) /\ store_each fuel (mk_wdb db (Some w)) l = ret (outs, mk_wdb db (Some w')).
  Proof.
    intros Hw Hp Hf. assert (digested w = Some []) as Hd by (destruct Hw as [-> | ->]; reflexivity).
    destruct (store_each_take fuel db l w [] Hp Hf Hd) as (outs & chunks & Hc & _ & Hn & Hst).
    exists outs, (take w chunks), (map (fun i => form (object_of content i)) l). split.
    { clear. induction l; constructor; [apply loose_form_header|assumption]. }
    split. { rewrite Hn. apply map_ext. intros n. rewrite app_nil_l. now rewrite firstn_map. }
    split; [|exact Hst]. now rewrite (take_digested chunks w [] Hd), Hc.
  Qed.
  Lemma raw_store fuel db w seen i sha : is_binsha i = Some sha -> sha_ok sha -> len (content (is_stream i)) <= maxsize ->
    (length (content (is_stream i)) < fuel)%nat -> digested w = Some seen ->
    exists r' w', content r' = [] /\ digested w' = Some (seen ++ content (is_stream i)) /\
      db_store K sha1 pagesize read fuel (mk_wdb db (Some w)) i = ret (mk_istream (Some sha) (is_type i) (is_size i) r', mk_wdb db (Some w')).
  Proof. clear Hsha.
    intros H1 H2 H3 H4 Hw. destruct (store_take_raw fuel db w seen i sha H1 H2 H3 H4 Hw) as (chunks & r' & Hc & Hr & Hst).
    exists r', (take w chunks). split; [exact Hr|]. split; [|exact Hst]. now rewrite (take_digested chunks w seen Hw), Hc.
  Qed.
End Ostream.
