(** Storing a stream whose size is not the one announced. *)
From Coq Require Import ZifyBool ZifyNat.
From Verif Require Import Py PyFacts FunModel FunSpec FunProofs ZlibModel ReaderModel StreamSpec ReaderProofs IndexSpec PackSpec PackCheckProofs
  OsModel OsProofs LooseModel LooseSpec LooseProofs LooseTop LooseLive LooseQuery LooseConc LooseMain.
Ltac Zify.zify_post_hook ::= Z.div_mod_to_equations.

Section Any.
  Context {K : zlib} (L : zlib_laws K) (sha1 : bytes -> bytes) (Hsha : forall d, sha_ok (sha1 d)) (pagesize : Z) (Hpage : 0 < pagesize).
  Context {R : Type} (rd : R -> Z -> res (bytes * R)) (content : R -> bytes) (HR : stream_reader rd content).
  Context (O : os) (Hcalm : faultless O).

  (** The header decides what info says. *)
  Lemma header_info_any t n c z : zl_stream L z (loose_object_header t n ++ c) -> ~ In 32 t -> ~ In 0 t -> 0 <= n ->
    len (loose_object_header t n) <= 8192 -> loose_object_header_info K z = Ok (t, n).
  Proof.
    intros Hz H1 H2 Hn Hl. destruct (zl_start K L _ _ Hz) as (Hne & Hat & _ & _).
    destruct (zl_step K L _ _ _ z 8192 Hat Hne ltac:(lia) ltac:(right; exists []; now rewrite app_nil_r)) as (zr' & dr' & out & st' & Hd & used & over & Hi & Hzr & Hdr & Ho & _ & Hunf & Hfin).
    unfold loose_object_header_info. rewrite Hd. cbn [bind].
    assert (length (loose_object_header t n) <= length out)%nat as Hlo.
    { destruct zr' as [|a zr'].
      - destruct (Hfin eq_refl) as (-> & _). rewrite app_nil_r in Hdr. rewrite <- Hdr, app_length. lia.
      - destruct (Hunf ltac:(easy)) as (_ & _ & Hov). destruct over as [|o over].
        + exfalso. rewrite app_nil_r in Hi. rewrite Hzr in Hi. apply (f_equal len) in Hi.
          rewrite !len_app, len_cons in Hi. pose proof (len_nonneg _ zr'). unfold bytes in *. lia.
        + destruct (Hov ltac:(easy)) as [E _]. unfold len in E, Hl at 1. lia. }
    destruct (app_split _ _ _ _ Hdr Hlo) as (b & -> & _). now apply loose_object_header_ok.
  Qed.

  Definition short_form (i : istream R) : bytes :=
    loose_object_header (is_type i) (is_size i) ++ firstn (Z.to_nat (is_size i)) (content (is_stream i)).

  Lemma stored_any i root p z : is_binsha i = None -> 0 < is_size i -> is_bytes (is_type i) -> is_bytes (content (is_stream i)) ->
    stored_as K sha1 pagesize rd O root i p z -> p = object_file root (sha1 (short_form i)) /\ zl_stream L z (short_form i).
  Proof.
    intros Hb Hs H1 H2 Hst. unfold stored_as in Hst. rewrite Hb in Hst.
    destruct Hst as (chunks & r' & Hd & Hp & Hz). cbv zeta in *. pose proof (len_nonneg _ (content (is_stream i))) as Hnn.
    assert (Hc : concat chunks = firstn (Z.to_nat (is_size i)) (content (is_stream i))).
    { assert (Hch : 0 < stream_chunk_size pagesize) by (unfold stream_chunk_size; lia).
      rewrite (delivered_exact rd content _ _ HR Hch _ _ _ _ Hd ltac:(lia) ltac:(now left)). now rewrite Z.sub_0_r. }
    unfold short_form. rewrite <- Hc. split; [exact Hp|]. rewrite Hz.
    change (loose_object_header (is_type i) (is_size i) ++ concat chunks) with (concat (loose_object_header (is_type i) (is_size i) :: chunks)).
    apply (zl_compress K L). constructor; [apply header_bytes; [easy|lia]|]. apply bytes_concat. rewrite Hc. now apply is_bytes_firstn.
  Qed.

  Lemma store_any fuel db i s r s' : is_binsha i = None -> 0 < is_size i -> is_bytes (is_type i) -> is_bytes (content (is_stream i)) ->
    ~ In 32 (is_type i) -> ~ In 0 (is_type i) -> len (loose_object_header (is_type i) (is_size i)) <= 8192 ->
    (length (content (is_stream i)) < fuel)%nat -> wf s -> (forall sha, sha_ok sha -> room_for (l_root db) sha s) ->
    contents s (object_file (l_root db) (sha1 (short_form i))) = None ->
    runs O (store K sha1 pagesize rd fuel db None i) s r s' ->
    exists i' z, r = Ok (i', None) /\ is_binsha i' = Some (sha1 (short_form i)) /\ is_size i' = is_size i /\
      contents s' (object_file (l_root db) (sha1 (short_form i))) = Some z /\ zl_stream L z (short_form i) /\
      forall db', l_root db' = l_root db -> yields O (info K db' (sha1 (short_form i))) s' (Ok (sha1 (short_form i), is_type i, is_size i)).
  Proof.
    intros Hb Hs H1 H2 Hn1 Hn2 Hl Hf Hw Hroom Hno Hr. set (sha := sha1 (short_form i)) in *.
    assert (Hany : fine_any content i) by (unfold fine_any; rewrite Hb; now left).
    destruct (store_succeeds_any K sha1 Hsha pagesize Hpage rd content HR O Hcalm fuel db i s r s' Hany Hf Hroom Hr) as ([i' out] & ->).
    assert (Hbin : forall x, is_binsha i = Some x -> is_bytes x) by (intros x Hx; congruence).
    assert (Hbd : forall d, is_bytes (sha1 d)) by (intros d; apply Hsha).
    assert (Hout : out = None).
    { destruct (store_steps K sha1 pagesize rd Hbd O fuel db i Hbin s _ s' Hw Hr) as (g & _ & _ & _ & Ho & _). exact Ho. }
    destruct (store_ok K sha1 pagesize rd Hbd O fuel db i Hbin s i' out s' Hw Hr) as (Hw' & sha' & z & E1 & E2 & E3 & E4 & E5 & E6 & E7).
    destruct (stored_any i _ _ _ Hb Hs H1 H2 E5) as (Ep & _). fold sha in Ep.
    destruct (E6 (object_file (l_root db) sha)) as [Hq|(_ & z' & Hz' & HP)]; [rewrite Ep in E7; congruence|].
    destruct (stored_any i _ _ _ Hb Hs H1 H2 HP) as (_ & Hzs).
    assert (Es : sha' = sha) by (apply object_file_inj in Ep; [exact Ep|exact E2|apply Hsha]).
    exists i', z'. rewrite Hout, E1, Es. split; [easy|]. split; [easy|]. split; [easy|]. split; [exact Hz'|]. split; [exact Hzs|].
    intros db' Hroot. destruct (zl_start K L _ _ Hzs) as (Hne & _). unfold info. eapply yields_bind; [apply ro_info|apply (map_yields O db' _ s' z'); [split; apply Hcalm|now rewrite Hroot|exact Hne]|].
    - rewrite (header_info_any (is_type i) (is_size i) _ z' Hzs) by (easy || lia). apply yields_ret.
  Qed.
End Any.
