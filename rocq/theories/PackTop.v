(** The statements about packs in the form Prop_Pack.v uses them. *)
From Coq Require Import ZifyBool ZifyNat.
From Verif Require Import Py PyFacts FunModel FunSpec FunProofs IndexModel IndexSpec IndexProofs ZlibModel ZlibProofs ReaderModel ReaderProofs
  StreamSpec DeltaModel DeltaSpec DeltaReaderModel DeltaReaderProofs Crc32 Crc32Proofs PackModel PackSpec SimProofs PackProofs
  PackChainProofs PackCheckProofs PackWriteProofs.
Ltac Zify.zify_post_hook ::= Z.div_mod_to_equations.

Lemma collect_streams_mono {K} data : forall f f' off l, (f <= f')%nat -> collect_streams K f data off = Ok l -> collect_streams K f' data off = Ok l.
Proof.
  induction f as [|f IH]; intros [|f'] off l Hf H; try discriminate; [lia|]. cbn [collect_streams] in *.
  apply bind_ok_inv in H as ([n o] & -> & H). cbn [bind]. destruct (po_delta o); try exact H.
  apply bind_ok_inv in H as (l' & H1 & H). rewrite (IH f' _ _ ltac:(lia) H1). exact H.
Qed.
Lemma resolve_mono {K} e : forall f f' (o : pobj K) l, (f <= f')%nat -> resolve_loop K f e o = Ok l -> resolve_loop K f' e o = Ok l.
Proof.
  induction f as [|f IH]; intros [|f'] o l Hf H; try discriminate; [lia|]. cbn [resolve_loop] in *.
  destruct (po_delta o); [exact H| |].
  - apply bind_ok_inv in H as (s & -> & H). cbn [bind]. apply bind_ok_inv in H as (l' & H1 & H). rewrite (IH f' _ _ ltac:(lia) H1). exact H.
  - apply bind_ok_inv in H as ([i|] & -> & H); cbn [bind]; [|exact H]. apply bind_ok_inv in H as (off & -> & H). cbn [bind].
    apply bind_ok_inv in H as (s & -> & H). cbn [bind]. apply bind_ok_inv in H as (l' & H1 & H). rewrite (IH f' _ _ ltac:(lia) H1). exact H.
Qed.
Lemma collect_mono {K} f e off l : collect_streams_at_offset K f e off = Ok l -> forall f', (f <= f')%nat -> collect_streams_at_offset K f' e off = Ok l.
Proof.
  unfold collect_streams_at_offset. intros H f' Hf. apply bind_ok_inv in H as (st & H1 & H). rewrite (collect_streams_mono _ _ _ _ _ Hf H1). cbn [bind].
  apply bind_ok_inv in H as (last & -> & H). cbn [bind]. destruct (po_delta last); try exact H.
  apply bind_ok_inv in H as (l' & H2 & H). rewrite (resolve_mono _ _ _ _ _ Hf H2). exact H.
Qed.

Lemma type_id_range ty t : type_to_type_id ty = Ok t -> 0 <= t < 8.
Proof.
  unfold type_to_type_id, type_to_type_id_map. cbn [assoc_type]. intros Ht.
  repeat match type of Ht with (if ?b then _ else _) = _ => destruct b; [injection Ht as <-; unfold OFS_DELTA, REF_DELTA; lia|] end. discriminate Ht.
Qed.

Section Top.
  Context {K : zlib} (L : zlib_laws K) (sha1 : bytes -> bytes) (Hsha : forall d, len (sha1 d) = 20) (pagesize : Z) (Hps : 0 < pagesize).

  (** ** Iterating *)
  Lemma whole_entries (es : list (Z * pentry)) : Forall (fun p => pack_entry_readable L pagesize (snd p)) es ->
    Forall (fun p => whole L (pn_z (snd p)) (pn_data (snd p)) /\ pn_data (snd p) <> [] /\ len (pn_data (snd p)) <= chunk_size pagesize) es.
  Proof. intros H. exact H. Qed.
  Lemma iter_entries (es : list (Z * pentry)) pack : pack_file L sha1 es pack -> Forall (fun p => pack_entry_readable L pagesize (snd p)) es ->
    exists os, evaluates (fun f => stream_iter K pagesize f pack 0) (Ok os) /\ Forall2 yields es os.
  Proof.
    intros Hp Hall. destruct (stream_iter_ok L pagesize Hps sha1 es pack Hsha Hp (whole_entries _ Hall)) as (os & He & HF).
    exists os. split; [exact He|]. clear -HF Hall. induction HF as [|p o es os (rest & -> & Hz) HF IH]; [constructor|].
    inversion Hall as [|? ? (Hw & _) Hall']; subst. constructor; [|now apply IH].
    cbn [po_offset po_type_id po_size po_delta po_stream]. repeat (split; [reflexivity|]). split.
    - intros ops. apply (known_contiguous L _ _ _ _ Hz).
    - intros n Hn. exists (2 * length (pn_data (snd p)) + 3)%nat. intros f Hf. cbn [run_stream po_stream].
      destruct (read_whole L _ _ rest n f Hz Hw Hn Hf) as (r' & -> & _). reflexivity.
  Qed.

  Lemma iter_empty e es pack : pack_file L sha1 ((12, e) :: es) pack -> pn_data e = [] ->
    diverges (fun f => stream_iter K pagesize f pack 0).
  Proof.
    intros (body & fin & Hes & _ & ->) He fuel. inversion Hes as [|off e' hdr z es' b fin' Hb Hrest]; subst.
    set (h := pack_head (len ((12, e) :: es))). assert (Hh : len h = 12) by reflexivity.
    unfold stream_iter, footer_size, first_object_offset. cbn [Z.eqb]. destruct fuel as [|f]; [reflexivity|]. set (g := S f) at 2. cbn [iter_loop].
    destruct (entry_fields L _ _ _ Hb) as (Hz & _ & Hl & _). pose proof (len_nonneg _ z). pose proof (len_nonneg _ b).
    replace (12 <? _) with true by (rewrite !len_app, Hh, Hsha; lia).
    enough (iter_step K pagesize g ((h ++ hdr ++ z ++ b) ++ sha1 (h ++ hdr ++ z ++ b)) 12 = Diverge) as -> by reflexivity.
    unfold iter_step. set (tr := sha1 _). replace ((h ++ hdr ++ z ++ b) ++ tr) with (h ++ hdr ++ z ++ (b ++ tr)) by now rewrite <- !app_assoc.
    rewrite <- Hh. rewrite (pack_object_at_bytes L e hdr z h (b ++ tr) Hb). cbn [bind po_stream po_size po_offset]. rewrite He. cbn [len length Z.of_nat].
    unfold g, stream_copy. cbn [stream_copy_loop]. change (Z.min (chunk_size pagesize) (0 - 0)) with (Z.min (chunk_size pagesize) 0).
    replace (Z.min (chunk_size pagesize) 0) with 0 by (unfold chunk_size; lia).
    assert (read (S f) (reader_init K (z ++ b ++ tr) (Some 0)) 0 = Ok ([], reader_init K (z ++ b ++ tr) (Some 0))) as -> by reflexivity.
    cbn [bind null_write len length Z.of_nat]. change ((0 <? 0) || (0 + 0 =? 0)) with true. cbn [bind].
    change (r_br (reader_init K (z ++ b ++ tr) (Some 0)) =? 0) with true. unfold py_assert. rewrite He in Hz.
    rewrite (cbr_empty L z (b ++ tr) pagesize Hz). reflexivity.
  Qed.

  (** ** Chains that do not end *)
  Lemma ref_loop_stream pack ix shas offs s off e : answers ix shas offs -> index pack 0 = Ok 80 ->
    found_at shas offs s off -> entry_at L pack off e -> pn_delta e = RefDelta s ->
    diverges (fun f => entity_info K f (mk_entity ix pack) s) /\
    diverges (fun f => entity_stream K f (mk_entity ix pack) s) /\
    diverges (fun f => is_valid_sha K sha1 pagesize f (mk_entity ix pack) s).
  Proof.
    intros Ha Hsig Hf He Hd. pose proof (ref_loop L pack ix shas offs Ha Hsig s off e Hf He Hd) as Hloop.
    destruct (entity_index_found pack ix shas offs Ha _ _ Hf) as (i & E1 & E2).
    destruct (entry_region L _ _ _ He) as (rg & k & Er & Eh). destruct (entry_type L pack _ _ He) as (Hdt & _). rewrite Hd in Hdt.
    assert (Hc : forall f, collect_streams_at_offset K f (mk_entity ix pack) off = Diverge).
    { intros f. specialize (Hloop f). unfold entity_collect_streams in Hloop. rewrite E1 in Hloop. cbn [bind en_index] in Hloop. rewrite E2 in Hloop. exact Hloop. }
    assert (Hs : diverges (fun f => entity_stream K f (mk_entity ix pack) s)).
    { intros f. unfold entity_stream. rewrite E1. cbn [bind]. unfold stream_at. cbn [en_index en_pack]. rewrite E2. cbn [bind]. rewrite Er. cbn [bind].
      rewrite Eh. cbn [bind]. rewrite Hdt. cbn [negb]. now rewrite Hc. }
    split; [|split; [exact Hs|]].
    - intros f. unfold entity_info. rewrite E1. cbn [bind]. unfold info_at. cbn [en_index en_pack]. rewrite E2. cbn [bind]. rewrite Er. cbn [bind].
      rewrite Eh. cbn [bind]. rewrite Hdt. cbn [negb]. now rewrite Hc.
    - intros f. unfold is_valid_sha. now rewrite Hs.
  Qed.
  Lemma unknown_base pack ix shas offs s off l off' b s' : answers ix shas offs -> index pack 0 = Ok 80 ->
    found_at shas offs s off -> walk L pack shas offs false off l ->
    (exists ds, l = ds ++ [(off', b)]) -> pn_delta b = RefDelta s' ->
    evaluates (fun f => entity_stream K f (mk_entity ix pack) s) (Raise ValueError) /\
    forall f i, entity_info K f (mk_entity ix pack) s <> Ok i.
  Proof using L.
    clear sha1 Hsha pagesize Hps.
    intros Ha Hsig Hf Hc (ds & ->) Hb.
    destruct (entity_index_found pack ix shas offs Ha _ _ Hf) as (i & E1 & E2).
    destruct (chain_head L pack shas offs _ _ _ Hc) as (e & l' & El & He).
    destruct (entry_region L _ _ _ He) as (rg & k & Er & Eh). destruct (entry_type L pack _ _ He) as (Hdt & _).
    pose proof (chain_base L pack shas offs _ _ _ ds off' b Hc eq_refl) as Hbe. destruct (entry_type L pack _ _ Hbe) as (Hbt & _). rewrite Hb in Hbt.
    assert (Hed : is_delta_type (pn_type e) = true).
    { destruct ds as [|d ds]; cbn [app] in El; injection El as E' El'; [subst b; exact Hbt|]. rewrite Hdt.
      destruct (pn_delta e) eqn:Ed; [|reflexivity|reflexivity]. exfalso. cbn [app] in Hc. rewrite E' in Hc. inversion Hc; subst; try congruence. destruct ds; discriminate. }
    destruct (collect_at_offset L pack ix shas offs Ha Hsig off _ Hc) as (os & HF & Hcol).
    apply Forall2_app_inv_l in HF as (os1 & os2 & HF1 & HF2 & ->). inversion HF2 as [|p o ? ? Hpo HF3]; subst. inversion HF3; subst.
    destruct (obj_fields L _ _ Hpo) as (_ & Et & _ & _). cbn [snd] in Et.
    split.
    - eexists. intros f Hff. unfold entity_stream. rewrite E1. cbn [bind]. unfold stream_at. cbn [en_index en_pack]. rewrite E2. cbn [bind]. rewrite Er. cbn [bind].
      rewrite Eh. cbn [bind]. rewrite Hed. cbn [negb]. rewrite (Hcol _ Hff). cbn [bind]. rewrite index_last. cbn [bind].
      unfold dar_new. destruct (_ <? 2); [reflexivity|]. rewrite Et. unfold is_delta_type in Hbt. change OFS_DELTA with 6 in Hbt. change REF_DELTA with 7 in Hbt. rewrite Hbt. reflexivity.
    - intros f inf H. unfold entity_info in H. rewrite E1 in H. cbn [bind] in H. unfold info_at in H. cbn [en_index en_pack] in H. rewrite E2 in H. cbn [bind] in H.
      rewrite Er in H. cbn [bind] in H. rewrite Eh in H. cbn [bind] in H. rewrite Hed in H. cbn [negb] in H.
      apply bind_ok_inv in H as (streams & Hst & H). apply bind_ok_inv in H as (s0 & _ & H). apply bind_ok_inv in H as ([buf ?] & _ & H).
      apply bind_ok_inv in H as ([? ?] & _ & H). apply bind_ok_inv in H as ([? ?] & _ & H). apply bind_ok_inv in H as (last & Hl & H).
      assert (streams = os1 ++ [o]) as ->.
      { pose proof (collect_mono _ _ _ _ Hst) as Hm. specialize (Hm (Nat.max f (length (ds ++ [(off', b)]))) ltac:(lia)). rewrite Hcol in Hm by lia. congruence. }
      rewrite index_last in Hl. assert (last = o) as -> by congruence. rewrite Et, Hbt in H. discriminate.
  Qed.

  Lemma chain_type pack shas offs r off l t content tn : walk L pack shas offs r off l -> chain_object l t content -> type_id_to_type t = Ok tn ->
    exists b, tn = PBytes b.
  Proof.
    intros Hc (ds & off' & b & -> & Hd & <- & _) Ht. pose proof (chain_base L pack shas offs _ _ _ ds off' b Hc eq_refl) as Hbe.
    destruct (entry_type L pack _ _ Hbe) as (_ & Hin). specialize (Hin Hd). cbn in Hin.
    destruct Hin as [E|[E|[E|[E|[]]]]]; rewrite <- E in Ht; cbn in Ht; injection Ht as <-; eauto.
  Qed.

End Top.

(** ** Writing *)
Section TopWrite.
  Context {K : zlib} (sha1 : bytes -> bytes) (pagesize : Z).
  Context {R : Type} (oread : R -> Z -> res (bytes * R)).
  Lemma parts_forall level ofs objs ps ens : parts (K := K) pagesize oread level ofs objs ps ens ->
    Forall (fun o => 0 <= wo_size o) objs /\ Forall2 (written_as (K := K) pagesize oread level) objs ps.
  Proof.
    induction 1 as [|ofs o objs p ps en ens Hp _ [IH0 IH]]; [split; constructor|]. destruct Hp as (t & hdr & chunks & Ht & Hh & Hc & Hl & Hpart & _).
    assert (0 <= wo_size o) as H0 by (rewrite <- Hl; apply len_nonneg). split; [now constructor|]. constructor; [|exact IH].
    pose proof (type_id_range _ _ Ht) as Ht8.
    destruct (create_pack_object_header_ok t (wo_size o) Ht8 H0) as (h & Hh' & Hph). assert (h = hdr) as -> by congruence.
    exists t, hdr, chunks. repeat (split; [assumption|]). exact Hpart.
  Qed.
  Lemma parts_complete level objs : Forall (complete_obj pagesize oread) objs -> forall ofs, exists ps ens, parts (K := K) pagesize oread level ofs objs ps ens.
  Proof.
    induction 1 as [|o objs (t & chunks & Ht & Hc & Hl) _ IH]; intros ofs; [exists [], []; constructor|].
    assert (0 <= wo_size o) as H0 by (rewrite <- Hl; apply len_nonneg).
    destruct (create_pack_object_header_ok t (wo_size o) (type_id_range _ _ Ht) H0) as (h & Hh & _).
    set (p := h ++ zc_all K (zc_new K level) chunks). destruct (IH (ofs + len p)) as (ps & ens & Hp).
    exists (p :: ps), ((wo_binsha o, crc32 p 0, ofs) :: ens). constructor; [|exact Hp]. exists t, h, chunks. now repeat split.
  Qed.
  Lemma write_checks level objs oc fuel pack psha idx isha :
    write_pack K sha1 pagesize oread fuel level objs oc = Ok (pack, psha, idx, isha) ->
    exists n ps, 0 <= n <= len objs /\ announced objs oc n /\ len ps = n /\
      Forall2 (written_as (K := K) pagesize oread level) (firstn (Z.to_nat n) objs) ps /\
      pack = (pack_head n ++ concat ps) ++ sha1 (pack_head n ++ concat ps).
  Proof.
    intros H. destruct (write_pack_inv _ _ _ _ _ _ _ _ _ _ _ H) as (ps & ens & Hn & _ & Hp & Hlen & -> & -> & _).
    exists (count_of objs oc), ps. split; [exact Hn|]. split.
    { unfold announced, count_of. destruct oc as [n|]; [|reflexivity]. destruct (n =? 0) eqn:E; lia. }
    split; [exact Hlen|]. split; [|reflexivity]. apply (parts_forall _ _ _ _ _ Hp).
  Qed.
End TopWrite.
