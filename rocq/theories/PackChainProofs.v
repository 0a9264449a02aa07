(** Following and resolving delta chains in packs. *)
From Coq Require Import ZifyBool ZifyNat Sorting.Sorted.
From Verif Require Import Py PyFacts FunModel FunSpec FunProofs ZlibModel ReaderModel StreamSpec ReaderProofs
  DeltaModel DeltaSpec DeltaReaderModel DeltaReaderProofs IndexModel IndexSpec IndexProofs IndexSearch Crc32 PackModel PackSpec SimProofs PackProofs.
Ltac Zify.zify_post_hook ::= Z.div_mod_to_equations.

(** ** Lookups *)
Lemma strict_index_inj shas i j s : strictly_sorted_shas shas -> 0 <= i -> 0 <= j ->
  index shas i = Ok s -> index shas j = Ok s -> i = j.
Proof.
  intros [_ Hs] Hi Hj H1 H2.
  assert (W : forall (l : list bytes) a b x, StronglySorted sha_lt l -> 0 <= a < b -> index l a = Ok x -> index l b = Ok x -> False).
  { clear. induction l as [|y l IH]; intros a b x Hs Hab Ha Hb.
    - apply index_ok_range in Ha; [|lia]. rewrite len_nil in Ha. lia.
    - inversion Hs as [|? ? Hs' Hall]; subst.
      assert (Hsh : forall k, 0 < k -> index (y :: l) k = index l (k - 1)).
      { intros k Hk. unfold index. rewrite len_cons. replace (k <? 0) with false by lia. replace (k - 1 <? 0) with false by lia.
        replace ((0 <=? k) && (k <? len l + 1)) with ((0 <=? k - 1) && (k - 1 <? len l)) by lia.
        replace (Z.to_nat k) with (S (Z.to_nat (k - 1))) by lia. reflexivity. }
      rewrite (Hsh b) in Hb by lia. destruct (Z.eq_dec a 0) as [->|Hne].
      + assert (x = y) as ->.
        { unfold index in Ha. rewrite len_cons in Ha. pose proof (len_nonneg _ l). cbn [Z.ltb Z.compare Z.leb andb] in Ha.
          replace (0 <? len l + 1) with true in Ha by lia. cbn in Ha. congruence. }
        apply index_ok_split in Hb as (p & q & -> & _); [|lia]. rewrite Forall_app in Hall. destruct Hall as [_ Hall].
        inversion Hall as [|? ? Hlt _]; subst. unfold sha_lt in Hlt. now rewrite blt_irrefl in Hlt.
      + rewrite (Hsh a) in Ha by lia. apply (IH (a - 1) (b - 1) x); try easy. lia. }
  destruct (Z.lt_trichotomy i j) as [H|[H|H]]; [exfalso|easy|exfalso].
  - apply (W shas i j s Hs); [lia|exact H1|exact H2].
  - apply (W shas j i s Hs); [lia|exact H2|exact H1].
Qed.
Lemma strict_sorted shas : strictly_sorted_shas shas -> sorted_shas shas.
Proof.
  intros [H1 H2]. split; [exact H1|]. induction H2 as [|a l _ IH Hall]; constructor.
  - apply IH. now inversion H1.
  - eapply Forall_impl; [|exact Hall]. intros b Hb. now apply blt_antisym.
Qed.

(** The index answers questions about [shas] and [offs]. *)
Definition answers (ix : pidx) (shas : list bytes) (offs : list Z) : Prop :=
  (forall s i o, 0 <= i -> index shas i = Ok s -> index offs i = Ok o -> sha_to_index ix s = Ok (Some i) /\ ix_offset ix i = Ok o) /\
  (forall s, sha_ok s -> ~ In s shas -> sha_to_index ix s = Ok None).
Lemma index_answers v shas crcs offs d ix : index_file v shas crcs offs d -> strictly_sorted_shas shas ->
  index_open d = Ok ix -> answers ix shas offs.
Proof.
  intros Hf Hs Ho. destruct (open_file _ _ _ _ _ Hf) as (ix' & H1 & (_ & _ & Hr) & Hop & _).
  assert (ix' = ix) as -> by congruence. pose proof (strict_sorted _ Hs) as Hs'.
  assert (Hlen : length crcs = length shas) by (inversion Hf; subst; [now rewrite map_length|easy]).
  split.
  - intros s i o Hi Hsi Hoi.
    assert (sha_ok s) as Hsha.
    { destruct Hs as [Hall _]. apply index_ok_split in Hsi as (p & q & -> & _); [|lia]. rewrite Forall_app in Hall. destruct Hall as [_ Hall]. now inversion Hall. }
    destruct (sha_to_index_complete ix shas s Hop Hs' Hsha) as (r & R1 & R2).
    assert (exists c, index crcs i = Ok c) as (c & Hc).
    { apply index_in. apply index_ok_range in Hsi; [|lia]. unfold len in *. lia. }
    destruct (Hr i s c o Hi Hsi Hc Hoi) as (_ & _ & Hoff & _). split; [|exact Hoff].
    destruct r as [j|].
    + destruct R2 as [Hj R2]. rewrite R1. f_equal. f_equal. now apply (strict_index_inj shas j i s).
    + exfalso. apply R2. apply index_ok_split in Hsi as (p & q & -> & _); [|lia]. apply in_app_iff. right. now left.
  - intros s Hsha Hn. destruct (sha_to_index_complete ix shas s Hop Hs' Hsha) as (r & R1 & R2). rewrite R1.
    destruct r as [j|]; [|easy]. exfalso. destruct R2 as [Hj R2]. apply Hn.
    apply index_ok_split in R2 as (p & q & -> & _); [|lia]. apply in_app_iff. right. now left.
Qed.

Section Chains.
  Context {K : zlib} (L : zlib_laws K).
  Notation reader := (reader K).
  Notation pobj := (pobj K).
  Notation obj_of := (obj_of L).

  Lemma obj_fields p o : obj_of p o -> po_offset o = fst p /\ po_type_id o = pn_type (snd p) /\ po_size o = len (pn_data (snd p)) /\ po_delta o = pn_delta (snd p).
  Proof. intros (rest & -> & _). now repeat split. Qed.

  (** ** C34: termination of PackFile.collect_streams *)
  Lemma collect_terminates data : is_bytes data ->
    (forall off n o, pack_object_at K data off = Ok (n, o) -> po_delta o <> OfsDelta 0) ->
    forall fuel off, (Z.to_nat (off + 1) < fuel)%nat -> collect_streams K fuel data off <> Diverge.
  Proof.
    intros Hb H0. induction fuel as [|fuel IH]; intros off Hf; [lia|]. cbn [collect_streams].
    destruct (pack_object_at K data off) as [[n o]| |] eqn:E; cbn [bind]; try discriminate.
    - pose proof (H0 _ _ _ E) as Hne. destruct (po_delta o) as [|d|s] eqn:Ed; try discriminate.
      unfold pack_object_at, region in E. destruct ((0 <=? off) && (off <? len data)) eqn:Er; [|discriminate]. cbn [bind] in E.
      apply bind_ok_inv in E as ([[t sz] k] & E1 & E). apply bind_ok_inv in E as ([dl k2] & E2 & E).
      assert (po_offset o = off /\ po_delta o = dl) as [Eo Edl].
      { injection E as _ <-. easy. }
      assert (0 <= d) as Hd.
      { rewrite Ed in Edl. subst dl. destruct (t =? OFS_DELTA).
        - apply bind_ok_inv in E2 as ([d' i'] & E2 & E3). injection E3 as -> ->.
          assert (Hk : 0 <= k <= len (slice_from data off) \/ len (slice_from data off) < k \/ k < 0) by lia.
          unfold pack_object_header_info in E1. destruct (slice_from data off) as [|c rest] eqn:Es; [discriminate|].
          rewrite <- Es in *.
          assert (is_bytes (slice_from data off)) as Hbs by (unfold slice_from; now apply is_bytes_skipn).
          assert (0 <= k) as Hk0.
          { apply bind_ok_inv in E1 as ([s0 i0] & E1 & E4). injection E4 as _ _ <-.
            assert (W : forall rest c sz s i v j, 0 <= i -> poh_loop rest c sz s i = Ok (v, j) -> 0 <= j).
            { clear. induction rest as [|c' rest IH]; intros c sz s i v j Hi H; cbn [poh_loop] in H; destruct (Z.land c 128 =? 0); try discriminate.
              - injection H as _ <-. exact Hi.
              - injection H as _ <-. exact Hi.
              - apply IH in H; lia. }
            apply W in E1; lia. }
          destruct (Z.le_gt_cases k (len (slice_from data off))) as [Hle|Hgt].
          + destruct (ofs_decode_inv _ _ _ _ Hbs Hk0 Hle E2) as (pre & bs & tl & _ & _ & _ & (init & last & -> & _ & _ & ->)).
            assert (W : forall bs acc, 0 <= acc -> 0 <= concat7 acc bs).
            { clear. induction bs as [|b bs IH]; intros acc Ha; cbn [concat7]; [exact Ha|]. apply IH. lia. }
            assert (W2 : forall k, 0 <= geo7 k).
            { clear. induction k as [|[|k] IH]; cbn [geo7]; try lia. cbn [geo7] in IH. pose proof (Z.pow_nonneg 2 (7 * Z.of_nat (S k)) ltac:(lia)). lia. }
            pose proof (W (init ++ [last]) 0 ltac:(lia)). pose proof (W2 (length (init ++ [last]))). lia.
          + exfalso. unfold ofs_delta_info in E2. rewrite slice_from_spec in E2 by lia. rewrite skipn_all2 in E2 by (unfold len in *; lia). discriminate.
        - destruct (t =? REF_DELTA); [discriminate E2|]. discriminate E2. }
      assert (d <> 0) by (intros ->; now apply Hne). rewrite Eo.
      specialize (IH (off - d) ltac:(lia)).
      destruct (collect_streams K fuel data (off - d)); cbn [bind]; congruence.
    - exfalso. clear - E. unfold pack_object_at in E. destruct (region data off) as [r| |] eqn:Er; cbn [bind] in E; try discriminate.
      2:{ unfold region in Er. destruct (_ && _) in Er; discriminate. }
      destruct (pack_object_header_info r) as [[[t s] k]| |] eqn:E1; cbn [bind] in E; try discriminate.
      2:{ unfold pack_object_header_info in E1. destruct r as [|c rest]; [discriminate|].
          assert (W : forall rest c sz s i, poh_loop rest c sz s i <> Diverge).
          { clear. induction rest as [|c' rest IH]; intros c sz s i; cbn [poh_loop]; destruct (Z.land c 128 =? 0); try discriminate. apply IH. }
          specialize (W rest c (Z.land c 15) 4 1). destruct (poh_loop rest c (Z.land c 15) 4 1) as [[]| |]; cbn [bind] in E1; congruence. }
      destruct (t =? OFS_DELTA).
      + unfold ofs_delta_info in E. destruct (slice_from r k) as [|c rest]; [discriminate|].
        assert (W : forall rest c d i, ofs_loop rest c d i <> Diverge).
        { clear. induction rest as [|c' rest IH]; intros c d i; cbn [ofs_loop]; destruct (Z.land c 128 =? 0); try discriminate. apply IH. }
        specialize (W rest c (Z.land c 127) (k + 1)). destruct (ofs_loop rest c (Z.land c 127) (k + 1)) as [[]| |]; cbn [bind] in E; congruence.
      + destruct (t =? REF_DELTA); discriminate.
  Qed.
  Lemma collect_loop data off e : entry_at L data off e -> pn_delta e = OfsDelta 0 ->
    diverges (fun f => collect_streams K f data off).
  Proof.
    intros He Hd fuel. induction fuel as [|fuel IH]; [reflexivity|]. cbn [collect_streams].
    destruct (pack_object_at_entry L _ _ _ He) as (n & o & -> & Ho). cbn [bind].
    destruct (obj_fields _ _ Ho) as (E1 & _ & _ & E2). cbn [fst snd] in *. rewrite E2, Hd, E1, Z.sub_0_r, IH. reflexivity.
  Qed.

  (** ** C35: chains *)
  Section Entity.
    Context (pack : bytes) (ix : pidx) (shas : list bytes) (offs : list Z) (Hix : answers ix shas offs).
    Context (Hsig : index pack 0 = Ok 80).
    Notation ent := (mk_entity ix pack).
    Notation base_chain := (base_chain L pack shas offs).

    Lemma entry_not_0 e : ~ entry_at L pack 0 e.
    Proof.
      intros (pre & hdr & z & post & E & Hp & He). apply len_0_nil in Hp. subst pre. cbn [app] in E.
      destruct (entry_fields _ _ _ _ He) as (_ & _ & Hl & _).
      assert (exists t h n, pack_header t h n /\ exists r, hdr = h ++ r /\ In t [1;2;3;4;6;7]) as (t & h & n & Hh & r & -> & Ht).
      { inversion He; subst; eexists _, _, _; (split; [eassumption|]).
        - exists []. rewrite app_nil_r. split; [easy|]. cbn in *. lia.
        - eexists. split; [reflexivity|cbn; lia].
        - eexists. split; [reflexivity|cbn; lia]. }
      assert (Hidx : forall c (x : bytes), index (c :: x) 0 = Ok c).
      { intros c x. change (c :: x) with ([] ++ c :: x). now apply index_app. }
      rewrite E in Hsig. cbn in Ht. inversion Hh as [m Hm|lo bs hi Hlo Hv]; subst; cbn [app] in Hsig; rewrite Hidx in Hsig.
      - assert (16 * t + n = 80) by congruence. lia.
      - assert (128 + 16 * t + lo = 80) by congruence. lia.
    Qed.
    Lemma pack_stream_entry off e : entry_at L pack off e -> exists o, pack_stream K pack off = Ok o /\ obj_of (off, e) o.
    Proof.
      intros He. unfold pack_stream. destruct (Z.eqb_spec off 0) as [->|Hne]; [now apply entry_not_0 in He|].
      destruct (pack_object_at_entry L _ _ _ He) as (n & o & -> & Ho). cbn [bind]. eauto.
    Qed.
    Notation walk := (walk L pack shas offs).
    Lemma walk_refs off l : base_chain off l -> refs_only l -> forall r, walk r off l.
    Proof.
      induction 1 as [off e He Hd|off e s He Hd Hn|off e n l He Hd Hl IH|off e s off' l He Hd Hf Hl IH]; cbn [refs_only]; rewrite Hd; intros [Hx Hor] r.
      - now apply wk_full.
      - now apply (wk_unknown _ _ _ _ _ _ _ s).
      - easy.
      - apply (wk_ref _ _ _ _ _ _ _ s off'); auto.
    Qed.
    Lemma walk_chain off l : base_chain off l -> ofs_then_refs l -> walk false off l.
    Proof.
      induction 1 as [off e He Hd|off e s He Hd Hn|off e n l He Hd Hl IH|off e s off' l He Hd Hf Hl IH]; cbn [ofs_then_refs]; rewrite Hd; intros Hor.
      - now apply wk_full.
      - now apply (wk_unknown _ _ _ _ _ _ _ s).
      - apply (wk_ofs _ _ _ _ _ _ _ n); auto.
      - apply (wk_ref _ _ _ _ _ _ _ s off'); [easy..|]. now apply walk_refs.
    Qed.
    Lemma chain_head r off l : walk r off l -> exists e l', l = (off, e) :: l' /\ entry_at L pack off e.
    Proof. intros H. inversion H; subst; eauto. Qed.

    Lemma collect_chain off l : walk false off l ->
      exists l1 p l2 os o, l = l1 ++ p :: l2 /\ Forall2 obj_of l1 os /\ obj_of p o /\
        (forall fuel, (length l <= fuel)%nat -> collect_streams K fuel pack off = Ok (os ++ [o])) /\
        walk true (fst p) (p :: l2) /\ match pn_delta (snd p) with OfsDelta _ => False | _ => True end.
    Proof.
      remember false as r eqn:Er. intros H. revert Er.
      induction H as [r off e He Hd|r off e s He Hd Hn|r off e n l He Hd Hl IH|r off e s off' l He Hd Hf Hl IH]; intros ->.
      - destruct (pack_object_at_entry L _ _ _ He) as (k & o & Eo & Ho). destruct (obj_fields _ _ Ho) as (_ & _ & _ & Ed).
        exists [], (off, e), [], [], o. split; [easy|]. split; [constructor|]. split; [easy|]. split.
        { intros fuel Hf. destruct fuel as [|fuel]; [cbn in Hf; lia|]. cbn [collect_streams]. rewrite Eo. cbn [bind snd] in *. now rewrite Ed, Hd. }
        split; [now apply wk_full|]. cbn. now rewrite Hd.
      - destruct (pack_object_at_entry L _ _ _ He) as (k & o & Eo & Ho). destruct (obj_fields _ _ Ho) as (_ & _ & _ & Ed).
        exists [], (off, e), [], [], o. split; [easy|]. split; [constructor|]. split; [easy|]. split.
        { intros fuel Hf. destruct fuel as [|fuel]; [cbn in Hf; lia|]. cbn [collect_streams]. rewrite Eo. cbn [bind snd] in *. now rewrite Ed, Hd. }
        split; [eapply wk_unknown; eassumption|]. cbn. now rewrite Hd.
      - destruct (IH eq_refl) as (l1 & p & l2 & os & o & -> & HF & Ho & Hc & Hb & Hr).
        destruct (pack_object_at_entry L _ _ _ He) as (k & o0 & Eo & Ho0). destruct (obj_fields _ _ Ho0) as (Eoff & _ & _ & Ed). cbn [fst snd] in *.
        exists ((off, e) :: l1), p, l2, (o0 :: os), o. split; [easy|]. split; [now constructor|]. split; [easy|]. split; [|easy].
        intros fuel Hf. destruct fuel as [|fuel]; [cbn in Hf; lia|]. cbn [collect_streams]. rewrite Eo. cbn [bind]. rewrite Ed, Hd, Eoff.
        rewrite Hc by (cbn [app length] in Hf; lia). reflexivity.
      - destruct (pack_object_at_entry L _ _ _ He) as (k & o & Eo & Ho). destruct (obj_fields _ _ Ho) as (_ & _ & _ & Ed).
        exists [], (off, e), l, [], o. split; [easy|]. split; [constructor|]. split; [easy|]. split.
        { intros fuel Hfu. destruct fuel as [|fuel]; [cbn in Hfu; lia|]. cbn [collect_streams]. rewrite Eo. cbn [bind snd] in *. now rewrite Ed, Hd. }
        split; [eapply wk_ref; eassumption|]. cbn [snd]. now rewrite Hd.
    Qed.
    Lemma resolve_chain off l : walk true off l -> forall o e l', l = (off, e) :: l' -> obj_of (off, e) o ->
      exists os, Forall2 obj_of l' os /\ forall fuel, (length l <= fuel)%nat -> resolve_loop K fuel ent o = Ok os.
    Proof.
      remember true as r eqn:Er. intros H. revert Er.
      induction H as [r off e He Hd|r off e s He Hd Hn|r off e n l He Hd Hl IH|r off e s off' l He Hd Hf Hl IH]; intros -> o e0 l' El Ho;
        injection El as <- <-; destruct (obj_fields _ _ Ho) as (_ & _ & _ & Ed); cbn [snd] in Ed.
      - exists []. split; [constructor|]. intros fuel Hfu. destruct fuel as [|fuel]; [cbn in Hfu; lia|]. cbn [resolve_loop]. now rewrite Ed, Hd.
      - exists []. split; [constructor|]. intros fuel Hfu. destruct fuel as [|fuel]; [cbn in Hfu; lia|]. cbn [resolve_loop]. rewrite Ed, Hd.
        cbn [en_index]. destruct He as (pre & hdr & z & post & _ & _ & He). destruct (entry_fields _ _ _ _ He) as (_ & _ & _ & [[_ X]|[[? [_ X]]|[s' [_ [X Hsha]]]]]); try congruence.
        assert (s' = s) as -> by congruence. destruct Hix as [_ Hno]. now rewrite (Hno s Hsha Hn).
      - destruct (chain_head _ _ _ Hl) as (e1 & l1 & -> & He1). destruct (pack_stream_entry _ _ He1) as (o1 & Eo1 & Ho1).
        destruct (IH eq_refl o1 e1 l1 eq_refl Ho1) as (os & HF & Hres). exists (o1 :: os). split; [now constructor|].
        intros fuel Hfu. destruct fuel as [|fuel]; [cbn in Hfu; lia|]. cbn [resolve_loop]. rewrite Ed, Hd.
        cbn [en_pack]. rewrite Eo1. cbn [bind]. rewrite Hres by (cbn [length] in *; lia). reflexivity.
      - destruct (chain_head _ _ _ Hl) as (e1 & l1 & -> & He1). destruct (pack_stream_entry _ _ He1) as (o1 & Eo1 & Ho1).
        destruct (IH eq_refl o1 e1 l1 eq_refl Ho1) as (os & HF & Hres). exists (o1 :: os). split; [now constructor|].
        intros fuel Hfu. destruct fuel as [|fuel]; [cbn in Hfu; lia|]. cbn [resolve_loop]. rewrite Ed, Hd.
        destruct Hf as (i & Hi1 & Hi2 & Hi3). destruct Hix as [Hyes _]. destruct (Hyes s i off' Hi3 Hi1 Hi2) as [Hs1 Hs2].
        cbn [en_index en_pack]. rewrite Hs1. cbn [bind]. rewrite Hs2. cbn [bind]. rewrite Eo1. cbn [bind].
        rewrite Hres by (cbn [length] in *; lia). reflexivity.
    Qed.
    Lemma index_last {A} (l : list A) x : index (l ++ [x]) (-1) = Ok x.
    Proof.
      unfold index. rewrite len_app, len_cons, len_nil. pose proof (len_nonneg _ l).
      change (-1 <? 0) with true. cbv iota zeta. replace (-1 + (len l + (0 + 1))) with (len l) by lia.
      replace (_ && _) with true by lia. unfold len. rewrite Nat2Z.id, nth_error_app2, Nat.sub_diag by lia. reflexivity.
    Qed.
    Lemma collect_at_offset off l : walk false off l -> exists os, Forall2 obj_of l os /\
      forall fuel, (length l <= fuel)%nat -> collect_streams_at_offset K fuel ent off = Ok os.
    Proof.
      intros Hb. destruct (collect_chain _ _ Hb) as (l1 & p & l2 & os & o & -> & HF & Ho & Hc & Hb2 & Hr).
      destruct p as [off2 e2]. cbn [fst snd] in Hb2, Hr.
      destruct (resolve_chain _ _ Hb2 o e2 l2 eq_refl Ho) as (os2 & HF2 & Hres).
      exists (os ++ o :: os2). split; [apply Forall2_app; [easy|now constructor]|].
      intros fuel Hf. unfold collect_streams_at_offset. cbn [en_pack]. rewrite Hc by exact Hf. cbn [bind].
      rewrite index_last. cbn [bind]. rewrite app_length in Hf. cbn [length] in Hf.
      specialize (Hres fuel ltac:(cbn [length]; lia)).
      destruct (obj_fields _ _ Ho) as (_ & _ & _ & Ed). cbn [snd] in Ed.
      assert (Hnd : po_delta o = NoDelta -> os2 = []).
      { intros E. rewrite E in Ed. inversion Hb2; subst; try congruence. now inversion HF2. }
      destruct (po_delta o) eqn:E; cbn [bind].
      - rewrite (Hnd eq_refl). reflexivity.
      - rewrite <- Ed in Hr. easy.
      - rewrite Hres. cbn [bind]. now rewrite <- app_assoc.
    Qed.
    Lemma entity_index_found s off : found_at shas offs s off -> exists i, entity_index ent s = Ok i /\ ix_offset ix i = Ok off.
    Proof.
      intros (i & H1 & H2 & H3). destruct Hix as [Hyes _]. destruct (Hyes s i off H3 H1 H2) as [Hs1 Hs2].
      exists i. unfold entity_index. cbn [en_index]. rewrite Hs1. now split.
    Qed.
    Lemma entity_index_missing s : sha_ok s -> ~ In s shas -> entity_index ent s = Raise BadObject.
    Proof. intros Hs Hn. destruct Hix as [_ Hno]. unfold entity_index. cbn [en_index]. now rewrite (Hno s Hs Hn). Qed.
    Lemma entity_collect s off l : found_at shas offs s off -> walk false off l -> exists os, Forall2 obj_of l os /\
      forall fuel, (length l <= fuel)%nat -> entity_collect_streams K fuel ent s = Ok os.
    Proof.
      intros Hf Hb. destruct (entity_index_found _ _ Hf) as (i & E1 & E2). destruct (collect_at_offset _ _ Hb) as (os & HF & Hc).
      exists os. split; [exact HF|]. intros fuel Hfu. unfold entity_collect_streams. rewrite E1. cbn [bind en_index]. rewrite E2. cbn [bind]. now apply Hc.
    Qed.
    (** A REF_DELTA entry whose base is itself *)
    Lemma ref_loop s off e : found_at shas offs s off -> entry_at L pack off e -> pn_delta e = RefDelta s ->
      diverges (fun f => entity_collect_streams K f ent s).
    Proof.
      intros Hf He Hd fuel. destruct (entity_index_found _ _ Hf) as (i & E1 & E2). unfold entity_collect_streams. rewrite E1.
      cbn [bind en_index]. rewrite E2. cbn [bind]. unfold collect_streams_at_offset. cbn [en_pack]. destruct fuel as [|fuel]; [reflexivity|].
      cbn [collect_streams]. destruct (pack_object_at_entry L _ _ _ He) as (k & o & -> & Ho). cbn [bind].
      destruct (obj_fields _ _ Ho) as (_ & _ & _ & Ed). cbn [snd] in Ed. rewrite Ed, Hd. cbn [bind].
      change (index [o] (-1)) with (index ([] ++ [o]) (-1)). rewrite index_last. cbn [bind]. rewrite Ed, Hd.
      enough (forall f o, obj_of (off, e) o -> resolve_loop K f ent o = Diverge) as ->; [reflexivity|exact Ho|].
      clear - Hd E1 E2 He Hix Hsig. induction f as [|f IH]; intros o Ho; [reflexivity|]. cbn [resolve_loop].
      destruct (obj_fields _ _ Ho) as (_ & _ & _ & Ed). cbn [snd] in Ed. rewrite Ed, Hd. cbn [en_index en_pack].
      unfold entity_index in E1. cbn [en_index] in E1. apply bind_ok_inv in E1 as (r & E1 & E3). rewrite E1. cbn [bind].
      destruct r as [j|]; [|discriminate]. assert (j = i) as -> by congruence. rewrite E2. cbn [bind].
      destruct (pack_stream_entry _ _ He) as (o1 & -> & Ho1). cbn [bind]. now rewrite (IH _ Ho1).
    Qed.
    (** A REF_DELTA entry whose base is an OFS_DELTA entry: the distance is taken for an offset. *)
    Lemma ofs_after_ref s off e s1 off1 e1 n fuel l : found_at shas offs s off -> entry_at L pack off e -> pn_delta e = RefDelta s1 ->
      found_at shas offs s1 off1 -> entry_at L pack off1 e1 -> pn_delta e1 = OfsDelta n -> 0 < n ->
      entity_collect_streams K fuel ent s = Ok l -> exists l', map po_offset l = off :: off1 :: n :: l'.
    Proof.
      intros Hf He Hd Hf1 He1 Hd1 Hn. destruct (entity_index_found _ _ Hf) as (i & E1 & E2). destruct (entity_index_found _ _ Hf1) as (i1 & E3 & E4).
      unfold entity_collect_streams. rewrite E1. cbn [bind en_index]. rewrite E2. cbn [bind]. unfold collect_streams_at_offset. cbn [en_pack].
      destruct fuel as [|fuel]; [discriminate|]. cbn [collect_streams]. destruct (pack_object_at_entry L _ _ _ He) as (k & o & -> & Ho). cbn [bind].
      destruct (obj_fields _ _ Ho) as (Eo & _ & _ & Ed). cbn [fst snd] in *. rewrite Ed, Hd. cbn [bind].
      change (index [o] (-1)) with (index ([] ++ [o]) (-1)). rewrite index_last. cbn [bind]. rewrite Ed, Hd.
      cbn [resolve_loop]. rewrite Ed, Hd. cbn [en_index en_pack].
      unfold entity_index in E3. cbn [en_index] in E3. apply bind_ok_inv in E3 as (r & E3 & E5). rewrite E3. cbn [bind].
      destruct r as [j|]; [|discriminate]. assert (j = i1) as -> by congruence. rewrite E4. cbn [bind].
      destruct (pack_stream_entry _ _ He1) as (o1 & -> & Ho1). cbn [bind]. destruct (obj_fields _ _ Ho1) as (Eo1 & _ & _ & Ed1). cbn [fst snd] in *.
      destruct fuel as [|fuel]; [discriminate|]. cbn [resolve_loop]. rewrite Ed1, Hd1. cbn [en_pack]. intros H.
      apply bind_ok_inv in H as (l0 & H & Hl). injection Hl as <-. apply bind_ok_inv in H as (l1 & H & Hl). injection Hl as <-.
      apply bind_ok_inv in H as (o2 & H2 & H). apply bind_ok_inv in H as (l2 & _ & Hl). injection Hl as <-.
      unfold pack_stream in H2. replace (n =? 0) with false in H2 by lia. apply bind_ok_inv in H2 as ([k2 o2'] & H2 & Hl). injection Hl as <-.
      unfold pack_object_at in H2. apply bind_ok_inv in H2 as (rg & _ & H2). apply bind_ok_inv in H2 as ([[t sz] k3] & _ & H2). apply bind_ok_inv in H2 as ([dl k4] & _ & H2).
      injection H2 as _ <-. exists (map po_offset l2). cbn [map app po_offset]. now rewrite Eo, Eo1.
    Qed.

    (** ** C69: resolving *)
    Definition delivers (F : nat) (r : reader) (s : bool * bytes) : Prop :=
      exists z d rest pos, zl_stream L z d /\ H L z d rest true r pos /\ snd s = skipn pos d /\ (2 * length d + 3 <= F)%nat /\
        (dense L z d \/ snd s = [] \/ (fst s = false /\ pos = O /\ r = reader_init K (z ++ rest) (Some (len d)) /\ whole L z d)).
    Lemma delivers_sim F : forall r s n out s1, delivers F r s -> once_read s n = Ok (out, s1) ->
      exists r1, read F r n = Ok (out, r1) /\ delivers F r1 s1.
    Proof.
      intros r [b c] n out [b1 c1] (z & d & rest & pos & Hz & HH & Hc & Hf & Hst) Hs. cbn [fst snd] in *. subst c. unfold once_read in Hs.
      destruct (((0 <? n) || _) && _) eqn:E; [|discriminate]. injection Hs as <- <- <-.
      destruct (H_read L z d rest Hz F r pos n HH Hf) as (out & r' & R1 & R2 & R3 & R4 & R5 & _).
      assert (len (skipn pos d) = 0 \/ 0 < n) as Hn by lia. apply andb_prop in E as [_ Eb].
      exists r'. assert (out = firstn (Z.to_nat n) (skipn pos d) /\ (dense L z d \/ skipn (Z.to_nat n) (skipn pos d) = [])) as (Eo & Hd').
      { destruct Hst as [Hd|[Hd|(-> & -> & -> & Hw)]].
        - split; [|now left]. rewrite (R5 (or_introl Hd)). destruct (Z.ltb_spec n 1); [|reflexivity].
          destruct Hn as [Hn|Hn]; [|lia]. apply len_0_nil in Hn. now rewrite Hn, firstn_nil.
        - rewrite Hd in *. rewrite firstn_nil in R3. rewrite R3, firstn_nil, skipn_nil. split; [reflexivity|now right].
        - cbn [orb skipn] in *. assert (len d <= n) by lia.
          destruct (read_whole L z d rest n F Hz Hw ltac:(lia) Hf) as (r2 & W1 & _). rewrite W1 in R1. injection R1 as <- _.
          rewrite firstn_all2, skipn_all2 by (unfold len in *; lia). split; [reflexivity|now right]. }
      rewrite R1, <- Eo. split; [reflexivity|].
      exists z, d, rest, (pos + length out)%nat. cbn [fst snd]. split; [exact Hz|]. split; [exact R2|].
      split; [|split; [exact Hf|destruct Hd' as [Hd'|Hd']; [now left|right; now left]]].
      rewrite Eo, firstn_length, firstn_skipn_add. symmetry.
      destruct (Nat.le_gt_cases (Z.to_nat n) (length (skipn pos d))).
      - now rewrite Nat.min_l.
      - rewrite Nat.min_r by lia. rewrite skipn_all. symmetry. apply skipn_all2. lia.
    Qed.
    Lemma obj_delivers k p o : obj_of p o -> at_once L k (snd p) ->
      exists b, (b = true \/ len (pn_data (snd p)) <= k) /\
        forall F, (2 * length (pn_data (snd p)) + 3 <= F)%nat -> delivers F (po_stream o) (b, pn_data (snd p)).
    Proof.
      intros (rest & -> & Hz) [Hd|[Hd Hk]].
      - exists true. split; [now left|]. intros F Hf. exists (pn_z (snd p)), (pn_data (snd p)), rest, O. cbn [po_stream skipn fst snd].
        repeat (split; [first [assumption|reflexivity|now apply H_init]|]). now left.
      - exists false. split; [now right|]. intros F Hf. exists (pn_z (snd p)), (pn_data (snd p)), rest, O. cbn [po_stream skipn fst snd].
        repeat (split; [first [assumption|reflexivity|now apply H_init]|]). right. right. repeat (split; [reflexivity|]). now right.
    Qed.
    Lemma once_read_once : once_reader once_read snd (fun s => fst s = true).
    Proof.
      intros [b c] n Hn Hs. cbn [fst snd] in *. exists (true, skipn (Z.to_nat n) c). split; [|now split]. unfold once_read.
      replace (((0 <? n) || _) && _) with true; [reflexivity|].
      destruct Hs as [->|Hs]; destruct Hn as [Hn|[-> ->]]; cbn [orb]; rewrite ?len_nil in *; lia.
    Qed.
    Lemma slice_to_last {A} (l : list A) x : slice_to (l ++ [x]) (-1) = l.
    Proof.
      unfold slice_to, norm_idx. rewrite len_app, len_cons, len_nil. pose proof (len_nonneg _ l). change (-1 <? 0) with true. cbv iota.
      replace (Z.to_nat (Z.max 0 (-1 + (len l + (0 + 1))))) with (length l) by (unfold len; lia). apply firstn_app_length.
    Qed.
    (** Reading an OStream from the start, with rewinds for a DeltaApplyReader or a
        DecompressMemMapReader *)
    Notation os_seek0 := (@os_seek0 K).
    Lemma run_delta fuel sha t : forall ops s v, run_stream dar_read' dar_rewind s ops = Ok v ->
      run_stream (os_read fuel) os_seek0 (ODelta sha t s) ops = Ok v.
    Proof.
      induction ops as [|[n|] ops IH]; intros s v H; cbn [run_stream] in *; [exact H| |].
      - unfold dar_read' in H. cbn [bind] in H. cbn [os_read]. destruct (dar_read s n) as [d s']. cbn [bind] in *.
        apply bind_ok_inv in H as (l & H1 & H2). rewrite (IH _ _ H1). exact H2.
      - apply bind_ok_inv in H as (s1 & H1 & H2). cbn [os_seek0]. unfold dar_rewind in H1. rewrite H1. cbn [bind].
        apply bind_ok_inv in H2 as (l & H2 & H3). rewrite (IH _ _ H2). exact H3.
    Qed.
    Lemma run_plain fuel sha t size : forall ops (s : reader) v, run_stream (read fuel) rew0 s ops = Ok v ->
      run_stream (os_read fuel) os_seek0 (OPlain sha t size s) ops = Ok v.
    Proof.
      induction ops as [|[n|] ops IH]; intros s v H; cbn [run_stream] in *; [exact H| |].
      - cbn [os_read]. apply bind_ok_inv in H as ([d s'] & -> & H). cbn [bind] in *.
        apply bind_ok_inv in H as (l & H1 & H2). rewrite (IH _ _ H1). exact H2.
      - apply bind_ok_inv in H as (s1 & H1 & H2). cbn [os_seek0]. unfold rew0 in H1. rewrite H1. cbn [bind].
        apply bind_ok_inv in H2 as (l & H2 & H3). rewrite (IH _ _ H2). exact H3.
    Qed.

    Lemma type_ok t : In t [1; 2; 3; 4] -> exists n, type_id_to_type t = Ok n /\ is_delta_type t = false /\ (t =? 6) || (t =? 7) = false.
    Proof. cbn. intros [<-|[<-|[<-|[<-|[]]]]]; eexists; (split; [reflexivity|split; reflexivity]). Qed.
    Lemma entry_type off e : entry_at L pack off e ->
      is_delta_type (pn_type e) = match pn_delta e with NoDelta => false | _ => true end /\
      (pn_delta e = NoDelta -> In (pn_type e) [1; 2; 3; 4]).
    Proof.
      intros (pre & hdr & z & post & _ & _ & He). destruct (entry_fields _ _ _ _ He) as (_ & _ & _ & [[X Y]|[[? [X Y]]|[? [X [Y _]]]]]); rewrite Y.
      - split; [|easy]. now destruct (type_ok _ X) as (? & _ & ? & _).
      - rewrite X. now split.
      - rewrite X. now split.
    Qed.

    Definition fuel_for (l : list (Z * pentry)) : nat :=
      (length l + fold_right (fun p n => Nat.max (2 * length (pn_data (snd p)) + 3) n) O l)%nat.
    Lemma fuel_for_in l p : In p l -> (2 * length (pn_data (snd p)) + 3 <= fuel_for l)%nat.
    Proof.
      intros H. enough (2 * length (pn_data (snd p)) + 3 <= fold_right (fun p n => Nat.max (2 * length (pn_data (snd p)) + 3) n) O l)%nat by (unfold fuel_for; lia).
      induction l as [|q l IH]; [easy|]. cbn [fold_right]. destruct H as [->|H]; [lia|]. specialize (IH H). lia.
    Qed.

    Lemma chain_base r off l ds off' base : walk r off l -> l = ds ++ [(off', base)] -> entry_at L pack off' base.
    Proof.
      intros H. revert ds. induction H as [r off e He Hd|r off e s He Hd Hn|r off e n l He Hd Hl IH|r off e s off2 l He Hd Hf Hl IH]; intros ds E.
      - destruct ds as [|? [|? ?]]; try discriminate. now injection E as <- <-.
      - destruct ds as [|? [|? ?]]; try discriminate. now injection E as <- <-.
      - destruct ds as [|d ds].
        + destruct (chain_head _ _ _ Hl) as (? & ? & -> & _). discriminate.
        + cbn [app] in E. injection E as _ ->. now apply (IH ds).
      - destruct ds as [|d ds].
        + destruct (chain_head _ _ _ Hl) as (? & ? & -> & _). discriminate.
        + cbn [app] in E. injection E as _ ->. now apply (IH ds).
    Qed.

    (** The whole of PackEntity.info and PackEntity.stream on a resolvable object *)
    Lemma entity_stream_ok s off l t content : found_at shas offs s off -> walk false off l ->
      chain_object l t content -> chain_readable L l ->
      exists tn o, type_id_to_type t = Ok tn /\
        evaluates (fun f => entity_stream K f ent s) (Ok o) /\ os_type o = tn /\ os_size o = len content /\
        (1 < len l \/ Forall (fun p => dense L (pn_z (snd p)) (pn_data (snd p))) l ->
         exists f0, forall f, (f0 <= f)%nat -> forall ops, run_stream (os_read f) os_seek0 o ops = Ok (cursor content 0 ops)) /\
        (exists f0, forall f, (f0 <= f)%nat -> forall n, n < 1 \/ len content <= n -> run_stream (os_read f) os_seek0 o [Read n] = Ok [content]) /\
        evaluates (fun f => entity_info K f ent s) (Ok (mk_oinfo s tn (len content))).
    Proof.
      intros Hfnd Hb (ds & off' & base & El & Hnd & Ht & Hch) Hread.
      assert (Forall (fun p => at_once L 512 (snd p)) ds /\
        if len ds =? 0 then whole L (pn_z base) (pn_data base) else at_once L 1048576 base) as (Hrd & Hrb).
      { destruct Hread as (ds1 & [off1 base1] & E' & F1 & F2). rewrite El in E'. apply app_inj_tail in E' as (<- & [= <- <-]). now split. }
      destruct (entity_index_found _ _ Hfnd) as (i & E1 & E2).
      destruct (chain_head _ _ _ Hb) as (e & l' & El' & He).
      destruct (entry_region L _ _ _ He) as (rg & k & Er & Eh).
      destruct (entry_type _ _ He) as (Hdt & Hty).
      pose proof (chain_base _ _ _ _ _ _ Hb El) as Hbase. destruct (entry_type _ _ Hbase) as (Hdtb & Htyb). specialize (Htyb Hnd). rewrite Ht in Htyb.
      destruct (type_ok _ Htyb) as (tn & Etn & Edt & Edt2). exists tn.
      destruct ds as [|p ds].
      - (* undeltified *)
        cbn [app map] in *. rewrite El in El'. injection El' as <- <- <-.
        inversion Hch; subst content. rewrite Hnd in Hdt.
        destruct (pack_stream_entry _ _ He) as (o1 & Eo1 & Ho1). destruct (obj_fields _ _ Ho1) as (_ & Et1 & Es1 & _). cbn [fst snd] in *.
        exists (OPlain s tn (len (pn_data base)) (po_stream o1)). split; [exact Etn|]. split.
        { exists O. intros f _. unfold entity_stream. rewrite E1. cbn [bind]. unfold stream_at. cbn [en_index en_pack]. rewrite E2. cbn [bind].
          rewrite Er. cbn [bind]. rewrite Eh. cbn [bind]. rewrite Hdt. cbn [negb]. rewrite Eo1. cbn [bind]. rewrite Et1, Ht, Etn. cbn [bind]. now rewrite Es1. }
        split; [reflexivity|]. split; [reflexivity|]. split; [|split].
        { intros [Hl|Hdense]; [rewrite El in Hl; cbn in Hl; lia|].
          destruct Ho1 as (rest & -> & Hz). cbn [snd po_stream] in *. rewrite El in Hdense. inversion Hdense; subst. cbn [snd] in *.
          exists (2 * length (pn_data base) + 3)%nat. intros f Hf ops. apply run_plain.
          destruct (known_run L (pn_z base) (pn_data base) rest Hz f Hf ops _ _ (H_init L (pn_z base) (pn_data base) rest Hz)) as (outs & r' & _ & R2 & _ & _ & _ & R3 & _).
          rewrite R2. now rewrite R3. }
        { destruct Ho1 as (rest & -> & Hz). cbn [snd po_stream] in *. exists (2 * length (pn_data base) + 3)%nat. intros f Hf n Hn.
          apply run_plain. cbn [run_stream]. destruct (read_whole L _ _ rest n f Hz Hrb Hn Hf) as (r' & -> & _). reflexivity. }
        exists O. intros f _. unfold entity_info. rewrite E1. cbn [bind]. unfold info_at. cbn [en_index en_pack]. rewrite E2. cbn [bind].
        rewrite Er. cbn [bind]. rewrite Eh. cbn [bind]. rewrite Hdt. cbn [negb]. rewrite Ht, Etn. reflexivity.
      - (* delta *)
        assert (p = (off, e)) as -> by (rewrite El in El'; cbn [app] in El'; congruence).
        destruct (collect_at_offset _ _ Hb) as (os & HF & Hc).
        rewrite El in HF. apply Forall2_app_inv_l in HF as (osd & osb & HFd & HFb & ->).
        inversion HFb as [|? ob ? ? Hob Hnil]; subst. inversion Hnil; subst. clear Hnil HFb.
        set (l := ((off, e) :: ds) ++ [(off', base)]) in *.
        set (steady := fun s : bool * bytes => fst s = true).
        assert (exists ss, (forall F, (fuel_for l <= F)%nat -> Forall2 (Pds (delivers F)) (map (fun o => (po_stream o, po_size o)) osd) ss) /\
                 streams_of snd steady ss (map (fun p => pn_data (snd p)) ((off, e) :: ds))) as (ss & Hdel & Hso).
        { assert (Hsub : forall p, In p ((off, e) :: ds) -> In p l) by (intros q Hq; unfold l; apply in_app_iff; now left).
          clear Hc Hch El'. revert HFd Hsub Hrd. generalize ((off, e) :: ds). intros ds0 HFd. induction HFd as [|q o ds0 osd Ho _ IH]; intros Hsub Hrd.
          - exists []. split; [constructor|constructor].
          - inversion Hrd as [|? ? Hq Hrd']; subst. destruct IH as (ss & I1 & I2); [intros p Hp; apply Hsub; now right|exact Hrd'|].
            destruct (obj_delivers 512 q o Ho Hq) as (b & Hb1 & Hb2).
            exists (((b, pn_data (snd q)), len (pn_data (snd q))) :: ss). split.
            + intros F HF. cbn [map]. constructor; [|now apply I1]. split; cbn [fst snd].
              * apply Hb2. pose proof (fuel_for_in l q ltac:(apply Hsub; now left)). lia.
              * now destruct (obj_fields _ _ Ho) as (_ & _ & -> & _).
            + constructor; [|exact I2]. cbn [fst snd]. repeat (split; [reflexivity|]). exact Hb1. }
        assert (exists b, (b = true \/ len (pn_data base) <= copy_chunk) /\ forall F, (fuel_for l <= F)%nat -> delivers F (po_stream ob) (b, pn_data base)) as (bb & Hbb & Hdelb).
        { cbn [len length] in Hrb. replace (len ((off, e) :: ds) =? 0) with false in Hrb by (rewrite len_cons; pose proof (len_nonneg _ ds); lia).
          destruct (obj_delivers copy_chunk (off', base) ob Hob Hrb) as (b & Hb1 & Hb2). exists b. split; [exact Hb1|]. intros F HF. apply Hb2.
          assert (In (off', base) l) as Hin by (unfold l; apply in_app_iff; right; now left). pose proof (fuel_for_in l _ Hin). lia. }
        destruct (dar_chain_ok once_read snd steady once_read_once (pn_data base) (map (fun p => pn_data (snd p)) ((off, e) :: ds)) content
                    ss (bb, pn_data base) Hch)
          as (st & (f0 & Hst) & Hsz & Hrun).
        { discriminate. }
        { exact Hso. }
        { reflexivity. }
        { exact Hbb. }
        destruct (obj_fields _ _ Hob) as (_ & Etb & Esb & _). cbn [snd] in Etb, Esb.
        assert (Hisd : is_delta_type (pn_type e) = true).
        { rewrite Hdt. destruct (pn_delta e) eqn:Ed; try reflexivity. exfalso. clear - Hb Ed. unfold l in Hb. cbn [app] in Hb.
          inversion Hb; subst; try congruence; destruct ds; discriminate. }
        exists (ODelta s tn st). split; [exact Etn|]. split.
        { exists (f0 + fuel_for l)%nat. intros f Hf. unfold entity_stream. rewrite E1. cbn [bind]. unfold stream_at. cbn [en_index en_pack]. rewrite E2. cbn [bind].
          rewrite Er. cbn [bind]. rewrite Eh. cbn [bind]. rewrite Hisd. cbn [negb].
          rewrite Hc by (unfold fuel_for in Hf; lia). cbn [bind]. rewrite index_last. cbn [bind]. rewrite slice_to_last.
          assert (dar_new (read f) f (map (fun o => (po_stream o, po_size o)) osd) (po_stream ob) (po_size ob) (po_type_id ob) = Ok st) as ->.
          { unfold dar_new. rewrite Etb, Edt2. rewrite len_map.
            assert (0 < len osd) by (inversion HFd; subst; rewrite len_cons; pose proof (len_nonneg _ l'0); lia).
            replace (len osd + 1 <? 2) with false by lia. rewrite Esb.
            apply (sim_dar_init (read f) once_read (delivers f) (delivers_sim f) f0 f _ ss _ (bb, pn_data base)); [lia| | |].
            - apply Hdel. lia.
            - apply Hdelb. lia.
            - now apply Hst. }
          cbn [bind]. rewrite Etb, Etn. reflexivity. }
        split; [reflexivity|]. split; [exact Hsz|]. split; [|split].
        { intros _. exists O. intros f _ ops. apply run_delta. apply Hrun. }
        { exists O. intros f _ n Hn. apply run_delta. rewrite Hrun. cbn [cursor skipn]. destruct (Z.ltb_spec n 1); [reflexivity|].
          rewrite firstn_all2; [reflexivity|unfold len in *; lia]. }
        exists (f0 + fuel_for l)%nat. intros f Hf. unfold entity_info. rewrite E1. cbn [bind]. unfold info_at. cbn [en_index en_pack]. rewrite E2. cbn [bind].
        rewrite Er. cbn [bind]. rewrite Eh. cbn [bind]. rewrite Hisd. cbn [negb].
        rewrite Hc by (unfold fuel_for in Hf; lia). cbn [bind].
        inversion HFd as [|? o0 ? osd' Ho0 HFd']; subst.
        change (index ((o0 :: osd') ++ [ob]) 0) with (index ([] ++ o0 :: (osd' ++ [ob])) 0). rewrite index_app by reflexivity. cbn [bind].
        cbn [map] in Hch. inversion Hch as [|d0 ds0 mid tgt Hch0 Hisdel]; subst.
        pose proof (Hdel f ltac:(lia)) as HD. cbn [map] in HD. inversion HD as [|? ? ? ? HD0 _]; subst.
        cbn [map] in Hso. inversion Hso as [|[s0 n0] ? ? ? (Hs0 & Hn0 & Hfit0) _]; subst. cbn [fst snd] in *. rewrite Hn0, <- Hs0 in HD0.
        destruct (peek_ok once_read snd steady once_read_once s0 mid (snd s0) content eq_refl Hfit0 ltac:(now rewrite Hs0)) as (inf & Hinf & Hio).
        destruct (sim_peek (read f) once_read (delivers f) (delivers_sim f) _ _ _ HD0 Hinf) as (inf2 & Hinf2 & (_ & _ & _ & HPt & _)).
        destruct Hio as (ops0 & e0 & Hio & _).
        unfold peek in Hinf2.
        apply bind_ok_inv in Hinf2 as ([buf r1] & R1 & Hinf2). rewrite R1. cbn [bind].
        apply bind_ok_inv in Hinf2 as ([o sz] & M1 & Hinf2). rewrite M1. cbn [bind].
        apply bind_ok_inv in Hinf2 as ([o2 tsz] & M2 & Hinf2). rewrite M2. cbn [bind].
        rewrite index_last. cbn [bind]. rewrite Etb, Edt, Etn. cbn [bind].
        assert (tsz = di_tgt inf) as -> by (rewrite <- HPt; injection Hinf2 as <-; reflexivity).
        f_equal. f_equal. apply Hio.
    Qed.
  End Entity.
End Chains.
