(** Properties C33, C35, C69 and C71 of properties.jsonl for chains of any shape: what the code
    makes of them. *)
From Coq Require Import ZifyBool ZifyNat.
From Verif Require Import Py PyFacts FunModel FunSpec FunProofs IndexModel IndexSpec IndexProofs DeltaModel DeltaSpec ZlibModel ZlibProofs ReaderModel StreamSpec ReaderProofs
  DeltaReaderModel PackModel PackSpec PackProofs PackChainProofs PackTop PackCheckProofs Prop_Index Prop_Reader Prop_Pack.
Ltac Zify.zify_post_hook ::= Z.div_mod_to_equations.

(** ** C35 *)
(** Every chain is followed as [walk] says: rightly up to the first REF_DELTA, and after it with
    the distances of OFS_DELTA taken for offsets. *)
Theorem C35_followed :
  forall (K : zlib) (L : zlib_laws K) (v : Z) (shas : list bytes) (crcs offs : list Z) (idx : bytes) (ix : pidx)
    (pack sha : bytes) (off : Z) (l : list (Z * pentry)),
  index_file v shas crcs offs idx -> strictly_sorted_shas shas -> index_open idx = Ok ix -> index pack 0 = Ok 80 ->
  found_at shas offs sha off -> walk L pack shas offs false off l ->
  exists os, evaluates (fun f => entity_collect_streams K f (mk_entity ix pack) sha) (Ok os) /\
    Forall2 (fun p o => po_offset o = fst p /\ po_type_id o = pn_type (snd p) /\ po_delta o = pn_delta (snd p) /\ po_size o = len (pn_data (snd p))) l os.
Proof.
  intros K L v shas crcs offs idx ix pack sha off l Hidx Hs Hopen Hsig Hf Hc.
  destruct (entity_collect L pack ix shas offs (index_answers _ _ _ _ _ _ Hidx Hs Hopen) Hsig sha off l Hf Hc) as (os & HF & H).
  exists os. split; [eexists; exact H|]. clear -HF. induction HF as [|p o l os Ho HF IH]; constructor; [|exact IH].
  destruct (obj_fields L _ _ Ho) as (A & B & C & D). now repeat split.
Qed.
Print Assumptions C35_followed.
(** An OFS_DELTA after a REF_DELTA is followed to the right place only by chance: if it is as far
    from its base as the base from the start of the pack. *)
Theorem C35_right_place :
  forall (K : zlib) (L : zlib_laws K) (pack : bytes) (shas : list bytes) (offs : list Z) (off n : Z) (e : pentry) (l l' : list (Z * pentry)),
  pn_delta e = OfsDelta n -> base_chain L pack shas offs off ((off, e) :: l) -> walk L pack shas offs true off ((off, e) :: l') ->
  map fst l = map fst l' -> off = 2 * n.
Proof.
  intros K L pack shas offs off n e l l' Hd Hb Hw E. inversion Hb; subst; try congruence. inversion Hw; subst; try congruence.
  assert (n0 = n) by congruence. assert (n1 = n) by congruence. subst. cbv iota in *.
  match goal with H : base_chain _ _ _ _ _ l |- _ => inversion H; subst end;
  match goal with H : walk _ _ _ _ _ _ l' |- _ => inversion H; subst end; cbn [map fst] in E; injection E; intros; lia.
Qed.
Print Assumptions C35_right_place.

(** ** C69 *)
(** What info and stream return for a chain of any shape: the object that the chain as it is
    followed stands for. *)
Theorem C69_followed :
  forall (K : zlib) (L : zlib_laws K) (v : Z) (shas : list bytes) (crcs offs : list Z) (idx : bytes) (ix : pidx)
    (pack sha : bytes) (off : Z) (l : list (Z * pentry)) (t : Z) (content : bytes),
  index_file v shas crcs offs idx -> strictly_sorted_shas shas -> index_open idx = Ok ix -> index pack 0 = Ok 80 ->
  found_at shas offs sha off -> walk L pack shas offs false off l -> chain_object l t content -> chain_readable L l ->
  exists tn st, type_id_to_type t = Ok tn /\
    evaluates (fun f => entity_info K f (mk_entity ix pack) sha) (Ok (mk_oinfo sha tn (len content))) /\
    evaluates (fun f => entity_stream K f (mk_entity ix pack) sha) (Ok st) /\ os_type st = tn /\ os_size st = len content /\
    (1 < len l \/ Forall (fun p => dense L (pn_z (snd p)) (pn_data (snd p))) l ->
     forall ops, evaluates (fun f => run_stream (os_read f) os_seek0 st ops) (Ok (cursor content 0 ops))) /\
    forall n, n < 1 \/ len content <= n -> evaluates (fun f => run_stream (os_read f) os_seek0 st [Read n]) (Ok [content]).
Proof.
  intros K L v shas crcs offs idx ix pack sha off l t content Hidx Hs Hopen Hsig Hf Hc Hco Hd.
  destruct (entity_stream_ok L pack ix shas offs (index_answers _ _ _ _ _ _ Hidx Hs Hopen) Hsig sha off l t content Hf Hc Hco Hd)
    as (tn & o & Ht & Hst & Hty & Hsz & Hrun & (f1 & Hone) & Hinfo).
  exists tn, o. repeat (split; [assumption|]). split.
  - intros Hl ops. destruct (Hrun Hl) as (f0 & Hr). exists f0. intros f Hff. now apply Hr.
  - intros n Hn. exists f1. intros f Hff. now apply Hone.
Qed.
Print Assumptions C69_followed.
(** So for every object whose chain has an OFS_DELTA after a REF_DELTA: if the wrong turn ends at
    some object as well, the content read is the one made from that. *)
Theorem C69_every_mixed_refuted :
  forall (K : zlib) (L : zlib_laws K) (v : Z) (shas : list bytes) (crcs offs : list Z) (idx : bytes) (ix : pidx)
    (pack sha : bytes) (off : Z) (l l' : list (Z * pentry)) (t t' : Z) (content content' : bytes),
  index_file v shas crcs offs idx -> strictly_sorted_shas shas -> index_open idx = Ok ix -> index pack 0 = Ok 80 ->
  found_at shas offs sha off -> base_chain L pack shas offs off l -> chain_object l t content ->
  walk L pack shas offs false off l' -> chain_object l' t' content' -> chain_readable L l' -> content' <> content ->
  exists out, out <> content /\
    evaluates (fun f => let! st := entity_stream K f (mk_entity ix pack) sha in run_stream (os_read f) os_seek0 st [Read 0]) (Ok [out]).
Proof.
  intros K L v shas crcs offs idx ix pack sha off l l' t t' content content' Hidx Hs Hopen Hsig Hf _ _ Hw Hco Hrd Hne.
  destruct (C69_followed K L v shas crcs offs idx ix pack sha off l' t' content' Hidx Hs Hopen Hsig Hf Hw Hco Hrd)
    as (tn & st & _ & _ & (f1 & H1) & _ & _ & _ & Hone). destruct (Hone 0 ltac:(lia)) as (f2 & H2).
  exists content'. split; [exact Hne|]. exists (Nat.max f1 f2). intros f Hff. rewrite H1 by lia. cbn [bind]. apply H2. lia.
Qed.
Print Assumptions C69_every_mixed_refuted.

(** ** C33 *)
(** The verdict of is_valid_sha is about the chain as it is followed. *)
Theorem C33_followed :
  forall (K : zlib) (L : zlib_laws K) (sha1 : bytes -> bytes) (pagesize : Z) (v : Z) (shas : list bytes) (crcs offs : list Z) (idx : bytes) (ix : pidx)
    (pack sha : bytes) (off : Z) (l : list (Z * pentry)) (t : Z) (content : bytes),
  0 < pagesize -> index_file v shas crcs offs idx -> strictly_sorted_shas shas -> index_open idx = Ok ix -> index pack 0 = Ok 80 ->
  found_at shas offs sha off -> walk L pack shas offs false off l -> chain_object l t content -> chain_readable L l ->
  1 < len l \/ len content <= chunk_size pagesize \/ Forall (fun p => dense L (pn_z (snd p)) (pn_data (snd p))) l ->
  exists tn, type_id_to_type t = Ok (PBytes tn) /\
  forall obj, loose_form tn content obj ->
    evaluates (fun f => is_valid_sha K sha1 pagesize f (mk_entity ix pack) sha)
      (if beq (sha1 obj) sha then Ok true else Raise AssertionError).
Proof.
  intros K L sha1 pagesize v shas crcs offs idx ix pack sha off l t content Hps Hidx Hs Hopen Hsig Hf Hc Hco Hd Hl.
  pose proof (index_answers _ _ _ _ _ _ Hidx Hs Hopen) as Ha.
  destruct (entity_stream_ok L pack ix shas offs Ha Hsig sha off l t content Hf Hc Hco Hd) as (tn & o & Ht & Hst & Hty & Hsz & Hrun & Hone & _).
  destruct (chain_type L pack shas offs false off l t content tn Hc Hco Ht) as (tb & ->).
  exists tb. split; [exact Ht|]. intros obj Hobj.
  destruct Hl as [Hl|[Hl|Hl]].
  - apply (sha_verdict sha1 pagesize Hps (mk_entity ix pack) sha o content Hst Hsz (Hrun (or_introl Hl))). now rewrite Hty.
  - apply (sha_verdict_once sha1 pagesize (mk_entity ix pack) sha o content Hst Hsz Hl Hone). now rewrite Hty.
  - apply (sha_verdict sha1 pagesize Hps (mk_entity ix pack) sha o content Hst Hsz (Hrun (or_intror Hl))). now rewrite Hty.
Qed.
Print Assumptions C33_followed.

(** ** C71 *)
(** If the chain as it is followed ends in a REF_DELTA whose base is not in the pack, stream
    raises and info does not return. *)
Theorem C71_followed :
  forall (K : zlib) (L : zlib_laws K) (v : Z) (shas : list bytes) (crcs offs : list Z) (idx : bytes) (ix : pidx)
    (pack sha : bytes) (off : Z) (ds : list (Z * pentry)) (off' : Z) (last : pentry) (base : bytes),
  index_file v shas crcs offs idx -> strictly_sorted_shas shas -> index_open idx = Ok ix -> index pack 0 = Ok 80 ->
  found_at shas offs sha off -> walk L pack shas offs false off (ds ++ [(off', last)]) -> pn_delta last = RefDelta base ->
  evaluates (fun f => entity_stream K f (mk_entity ix pack) sha) (Raise ValueError) /\
  forall f i, entity_info K f (mk_entity ix pack) sha <> Ok i.
Proof.
  intros K L v shas crcs offs idx ix pack sha off ds off' last base Hidx Hs Hopen Hsig Hf Hc Hb.
  apply (unknown_base L pack ix shas offs sha off _ off' last base (index_answers _ _ _ _ _ _ Hidx Hs Hopen) Hsig Hf Hc); [now exists ds|exact Hb].
Qed.
Print Assumptions C71_followed.
(** For every object whose base is missing, but whose chain takes a wrong turn to some object
    before: info and stream return, with what is made from that object. *)
Theorem C71_every_mixed_refuted :
  forall (K : zlib) (L : zlib_laws K) (v : Z) (shas : list bytes) (crcs offs : list Z) (idx : bytes) (ix : pidx)
    (pack sha : bytes) (off : Z) (ds : list (Z * pentry)) (off' : Z) (last : pentry) (base : bytes) (l' : list (Z * pentry)) (t : Z) (content : bytes),
  index_file v shas crcs offs idx -> strictly_sorted_shas shas -> index_open idx = Ok ix -> index pack 0 = Ok 80 ->
  found_at shas offs sha off -> base_chain L pack shas offs off (ds ++ [(off', last)]) -> pn_delta last = RefDelta base -> ~ In base shas ->
  walk L pack shas offs false off l' -> chain_object l' t content -> chain_readable L l' ->
  evaluates (fun f => let! i := entity_info K f (mk_entity ix pack) sha in Ok (oi_size i)) (Ok (len content)) /\
  evaluates (fun f => let! st := entity_stream K f (mk_entity ix pack) sha in run_stream (os_read f) os_seek0 st [Read 0]) (Ok [content]).
Proof.
  intros K L v shas crcs offs idx ix pack sha off ds off' last base l' t content Hidx Hs Hopen Hsig Hf _ _ _ Hw Hco Hrd.
  destruct (C69_followed K L v shas crcs offs idx ix pack sha off l' t content Hidx Hs Hopen Hsig Hf Hw Hco Hrd)
    as (tn & st & _ & (f0 & H0) & (f1 & H1) & _ & _ & _ & Hone). destruct (Hone 0 ltac:(lia)) as (f2 & H2). split.
  - exists f0. intros f Hff. now rewrite H0 by lia.
  - exists (Nat.max f1 f2). intros f Hff. rewrite H1 by lia. cbn [bind]. apply H2. lia.
Qed.
Print Assumptions C71_every_mixed_refuted.

(** ** Examples *)
(** The packs of C69_mixed_refuted and C71_mixed_chain_refuted. *)
Definition d_walked : list (Z * pentry) := [(92, e_ref s_ofs); (75, e_ofs); (25, e_ones)].
Definition u_walked : list (Z * pentry) := [(118, e_ref s_ofs); (101, u_ofs); (38, e_ones)].
Lemma e_copies base : len base = 13 -> delta_chain base [d_app; d_copy] (base ++ [33]).
Proof.
  intros Hb. assert (Hall : firstn 13 base = base) by (apply firstn_all2; unfold len in Hb; lia).
  apply (chain_cons _ d_app [d_copy] base); [apply (chain_cons _ d_copy [] base); [constructor|]|].
  - exists [13], [13], [Copy 0 13], [144; 13]. split; [reflexivity|]. rewrite Hb.
    split; [apply varint_last; cbn; lia|]. split; [apply varint_last; cbn; lia|]. split; [cbn; lia|].
    split; [|split; [repeat constructor; cbn; lia|]].
    + apply (enc_cons (Copy 0 13) [] [144; 13] []); [|constructor].
      apply (enc_copy false false false false true false false 0 0 0 0 13 0 0); try easy. apply bytes_check. reflexivity.
    + cbn -[firstn]. change (Pos.to_nat 13) with 13%nat. now rewrite Hall, app_nil_r.
  - exists [13], [14], [Copy 0 13; Insert [33]], [144; 13; 1; 33]. split; [reflexivity|]. rewrite len_app, Hb.
    split; [apply varint_last; cbn; lia|]. split; [apply varint_last; cbn; lia|]. split; [cbn; lia|].
    split; [|split; [repeat constructor; cbn; lia|]].
    + apply (enc_cons (Copy 0 13) [Insert [33]] [144; 13] [1; 33]).
      * apply (enc_copy false false false false true false false 0 0 0 0 13 0 0); try easy. apply bytes_check. reflexivity.
      * apply (enc_cons (Insert [33]) [] [1; 33] []); [|constructor]. apply (enc_insert [33]); [cbn; lia|apply bytes_check; reflexivity].
    + cbn -[firstn]. change (Pos.to_nat 13) with 13%nat. now rewrite Hall.
Qed.
Lemma e_readable x o p q o' b : is_bytes (pn_data p) -> pn_z p = s_compress (pn_data p) -> is_bytes (pn_data q) -> pn_z q = s_compress (pn_data q) ->
  is_bytes (pn_data b) -> pn_z b = s_compress (pn_data b) -> chain_readable stored_laws [(x, p); (o, q); (o', b)].
Proof.
  assert (Hd : forall e, is_bytes (pn_data e) -> pn_z e = s_compress (pn_data e) -> forall n, at_once stored_laws n e).
  { intros e He Hz n. left. rewrite Hz. now apply s_compress_dense. }
  intros. exists [(x, p); (o, q)], (o', b). split; [reflexivity|]. split; [|now apply Hd].
  constructor; [now apply Hd|]. constructor; [now apply Hd|constructor].
Qed.
Example C69_example_mixed :
  base_chain stored_laws d_pack d_shas d_offs 92 d_mixed /\ walk stored_laws d_pack d_shas d_offs false 92 d_walked /\
  chain_object d_mixed 3 d_object /\ chain_object d_walked 3 (d_ones ++ [33]) /\ chain_readable stored_laws d_walked /\ d_ones ++ [33] <> d_object.
Proof.
  split; [apply C69_mixed_refuted|]. split; [|split; [apply C69_mixed_refuted|split; [|split; [|discriminate]]]].
  - apply (wk_ref _ _ _ _ false 92 (e_ref s_ofs) s_ofs 75); [exact d_at_ref|reflexivity|apply (d_found _ _ 0); reflexivity|].
    apply (wk_ofs _ _ _ _ true 75 e_ofs 25); [exact d_at_ofs|reflexivity|]. apply wk_full; [exact d_at_ones|reflexivity].
  - exists [(92, e_ref s_ofs); (75, e_ofs)], 25, e_ones. repeat (split; [reflexivity|]). now apply e_copies.
  - apply e_readable; first [reflexivity | apply bytes_check; reflexivity].
Qed.
Lemma u_at_ones : entry_at stored_laws u_pack 38 e_ones.
Proof.
  exists (pack_head 5 ++ ([62] ++ s_compress u_filler)), h_blob, (s_compress d_ones). eexists. split; [unfold u_pack, u_pre; rewrite <- !app_assoc; reflexivity|]. split; [reflexivity|].
  apply eb_full; [cbn; tauto|apply (ph_short 3 13); lia|now apply d_stream].
Qed.
Example C71_example_mixed :
  base_chain stored_laws u_pack u_shas u_offs 118 ([(118, e_ref s_ofs); (101, u_ofs)] ++ [(63, e_ref (repeat 255 20))]) /\ ~ In (repeat 255 20) u_shas /\
  walk stored_laws u_pack u_shas u_offs false 118 u_walked /\ chain_object u_walked 3 (d_ones ++ [33]) /\ chain_readable stored_laws u_walked.
Proof.
  split; [exact u_chain|]. split; [apply C71_mixed_chain_refuted|]. pose proof u_chain as H. inversion H; subst; try discriminate.
  match goal with H : base_chain _ _ _ _ _ [_; _] |- _ => rename H into H' end. inversion H'; subst; try discriminate.
  split; [|split; [|apply e_readable; first [reflexivity | apply bytes_check; reflexivity]]].
  - apply (wk_ref _ _ _ _ false 118 (e_ref s_ofs) s_ofs 101); [assumption|reflexivity|exists 0; repeat split; try lia|].
    apply (wk_ofs _ _ _ _ true 101 u_ofs 38); [|reflexivity|apply wk_full; [exact u_at_ones|reflexivity]].
    assumption.
  - exists [(118, e_ref s_ofs); (101, u_ofs)], 38, e_ones. repeat (split; [reflexivity|]). now apply e_copies.
Qed.
(** The chain of C71_example as it is followed. *)
Example C71_example_followed : walk stored_laws d_pack d_shas d_offs false 206 ([] ++ [(206, e_ref (repeat 255 20))]).
Proof.
  destruct C71_example as (H & _). apply walk_chain; [exact H|]. cbn. tauto.
Qed.
(** A pack with the blob of ones at 25 and an OFS_DELTA on it at 50. *)
Definition c_pack : bytes := d_pre ++ ([100; 25] ++ s_compress d_copy) ++ repeat 0 20.
Example C35_example_right_place :
  base_chain stored_laws c_pack [] [] 50 [(50, e_ofs); (25, e_ones)] /\ walk stored_laws c_pack [] [] true 50 [(50, e_ofs); (25, e_ones)] /\ pn_delta e_ofs = OfsDelta 25.
Proof.
  assert (H1 : entry_at stored_laws c_pack 50 e_ofs).
  { exists d_pre, ([100] ++ [25]), (s_compress d_copy). eexists. split; [unfold c_pack; rewrite <- !app_assoc; reflexivity|]. split; [reflexivity|].
    apply eb_ofs; [apply (ph_short 6 4); lia| |now apply d_stream]. exists [], 25. repeat split; try lia. constructor. }
  assert (H2 : entry_at stored_laws c_pack 25 e_ones).
  { exists (pack_head 7 ++ (h_x ++ s_compress [120])), h_blob, (s_compress d_ones). eexists. split; [unfold c_pack, d_pre; rewrite <- !app_assoc; reflexivity|]. split; [reflexivity|].
    apply eb_full; [cbn; tauto|apply (ph_short 3 13); lia|now apply d_stream]. }
  split; [|split; [|reflexivity]].
  - apply (bc_ofs _ _ _ _ 50 e_ofs 25); [exact H1|reflexivity|]. apply bc_full; [exact H2|reflexivity].
  - apply (wk_ofs _ _ _ _ true 50 e_ofs 25); [exact H1|reflexivity|]. apply wk_full; [exact H2|reflexivity].
Qed.
