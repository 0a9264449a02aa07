(** Facts about reading packs, for every zlib satisfying the laws. *)
From Coq Require Import ZifyBool ZifyNat.
From Verif Require Import Py PyFacts FunModel FunSpec FunProofs ZlibModel ReaderModel StreamSpec ReaderProofs
  DeltaModel DeltaSpec DeltaReaderModel DeltaReaderProofs IndexModel IndexSpec IndexProofs IndexSearch Crc32 PackModel PackSpec SimProofs.
Ltac Zify.zify_post_hook ::= Z.div_mod_to_equations.

Section PackRead.
  Context {K : zlib} (L : zlib_laws K).
  Notation reader := (reader K).
  Notation pobj := (pobj K).

  Lemma entry_fields e hdr z : entry_bytes L e hdr z ->
    zl_stream L z (pn_data e) /\ pn_z e = z /\ 0 < len hdr /\
    (In (pn_type e) [1; 2; 3; 4] /\ pn_delta e = NoDelta \/ (exists n, pn_type e = 6 /\ pn_delta e = OfsDelta n) \/
     (exists s, pn_type e = 7 /\ pn_delta e = RefDelta s /\ sha_ok s)).
  Proof.
    assert (Hh : forall t h n, pack_header t h n -> 0 < len h).
    { intros t h n H. inversion H; subst; rewrite ?len_cons, ?len_nil; try lia. pose proof (len_nonneg _ bs). lia. }
    intros H. inversion H as [t h d z' Ht Hp Hz|h bs n d z' Hp Ho Hz|h s d z' Hp Hs Hz]; subst; cbn [pn_data pn_type pn_delta pn_z];
      (split; [exact Hz|]); (split; [reflexivity|]).
    - split; [now apply (Hh _ _ _ Hp)|]. left. easy.
    - split; [rewrite len_app; pose proof (Hh _ _ _ Hp); pose proof (len_nonneg _ bs); lia|]. right. left. eauto.
    - split; [rewrite len_app; pose proof (Hh _ _ _ Hp); pose proof (len_nonneg _ s); lia|]. right. right. eauto.
  Qed.

  Lemma region_app (pre x : bytes) : x <> [] -> region (pre ++ x) (len pre) = Ok x.
  Proof.
    intros Hx. unfold region. rewrite len_app. pose proof (len_nonneg _ pre).
    assert (0 < len x) by (destruct x; [easy|rewrite len_cons; pose proof (len_nonneg _ x); lia]).
    replace (_ && _) with true by lia. now rewrite slice_from_app.
  Qed.
  Lemma entry_header e hdr z x : entry_bytes L e hdr z -> exists k,
    pack_object_header_info (hdr ++ x) = Ok (pn_type e, len (pn_data e), k).
  Proof.
    intros H. inversion H as [t h d z' Ht Hp Hz|h bs n d z' Hp Ho Hz|h s d z' Hp Hs Hz]; subst; cbn [pn_data pn_type].
    - exists (len hdr). apply pack_header_parse; [|exact Hp]. cbn in Ht. lia.
    - exists (len h). rewrite <- app_assoc. now apply pack_header_parse.
    - exists (len h). rewrite <- app_assoc. now apply pack_header_parse.
  Qed.
  Lemma pack_object_at_bytes e hdr z pre post : entry_bytes L e hdr z ->
    pack_object_at K (pre ++ hdr ++ z ++ post) (len pre) =
    Ok (len pre + len hdr, mk_pobj (len pre) (pn_type e) (len (pn_data e)) (pn_delta e)
                             (reader_init K (z ++ post) (Some (len (pn_data e))))).
  Proof.
    intros H. pose proof (entry_fields _ _ _ H) as (_ & _ & Hl & _). unfold pack_object_at.
    rewrite region_app by (destruct hdr; [rewrite len_nil in Hl; lia|easy]). cbn [bind].
    inversion H as [t h d z' Ht Hp Hz|h bs n d z' Hp Ho Hz|h s d z' Hp Hs Hz]; subst; cbn [pn_data pn_type pn_delta].
    - rewrite (pack_header_parse t hdr (len d)) by (easy || (cbn in Ht; lia)). cbn [bind]. unfold OFS_DELTA, REF_DELTA.
      replace (t =? 6) with false by (cbn in Ht; lia). replace (t =? 7) with false by (cbn in Ht; lia). cbn [bind].
      now rewrite slice_from_app.
    - rewrite <- app_assoc. rewrite (pack_header_parse 6 h (len d)) by easy. cbn [bind].
      change (6 =? OFS_DELTA) with true. cbv iota. rewrite (ofs_decode h bs _ n Ho). cbn [bind].
      rewrite app_assoc. rewrite slice_from_app by now rewrite len_app. now rewrite len_app.
    - rewrite <- app_assoc. rewrite (pack_header_parse 7 h (len d)) by easy. cbn [bind].
      change (7 =? OFS_DELTA) with false. change (7 =? REF_DELTA) with true. cbv iota. cbn [bind].
      destruct Hs as [Hs _]. rewrite slice_mid by lia. rewrite app_assoc, slice_from_app by (rewrite len_app; lia).
      now rewrite len_app, Hs.
  Qed.
  (** The object pack_object_at makes of an entry *)
  Definition obj_of (p : Z * pentry) (o : pobj) : Prop :=
    exists rest, o = mk_pobj (fst p) (pn_type (snd p)) (len (pn_data (snd p))) (pn_delta (snd p))
                      (reader_init K (pn_z (snd p) ++ rest) (Some (len (pn_data (snd p))))) /\
                 zl_stream L (pn_z (snd p)) (pn_data (snd p)).
  Lemma pack_object_at_entry pack off e : entry_at L pack off e -> exists n o,
    pack_object_at K pack off = Ok (n, o) /\ obj_of (off, e) o.
  Proof.
    intros (pre & hdr & z & post & -> & <- & H). eexists _, _. split; [exact (pack_object_at_bytes _ _ _ _ _ H)|].
    destruct (entry_fields _ _ _ H) as (Hz & <- & _). exists post. split; [reflexivity|exact Hz].
  Qed.
  (** The header alone *)
  Lemma entry_region pack off e : entry_at L pack off e -> exists r k,
    region pack off = Ok r /\ pack_object_header_info r = Ok (pn_type e, len (pn_data e), k).
  Proof.
    intros (pre & hdr & z & post & -> & <- & H). destruct (entry_header _ _ _ (z ++ post) H) as (k & Hk).
    pose proof (entry_fields _ _ _ H) as (_ & _ & Hl & _).
    exists (hdr ++ z ++ post), k. split; [|exact Hk]. apply region_app. destruct hdr; [rewrite len_nil in Hl; lia|easy].
  Qed.

  Lemma read_whole z d rest n fuel : zl_stream L z d -> whole L z d -> n < 1 \/ len d <= n -> (2 * length d + 3 <= fuel)%nat ->
    exists r', read fuel (reader_init K (z ++ rest) (Some (len d))) n = Ok (d, r') /\
      H L z d rest true r' (length d) /\ zs_tail K (r_zip r') = [].
  Proof.
    intros Hz Hw Hn Hf. pose proof (H_init L z d rest Hz) as HH.
    destruct (H_read L z d rest Hz fuel _ 0 n HH Hf) as (out & r' & R1 & R2 & R3 & R4 & R5 & R6).
    assert (out = d) as ->.
    { destruct Hw as [Hd|Hw].
      - rewrite (R5 (or_introl Hd)). cbn [skipn]. destruct (Z.ltb_spec n 1); [easy|]. apply firstn_all2. unfold len in *. lia.
      - clear R5. unfold read, get_s, reader_init in R1. cbn [r_s bind] in R1.
        destruct fuel as [|[|fuel]]; try lia. rewrite read_s_S in R1. cbv zeta in R1. cbn [r_br r_buf] in R1.
        rewrite Z.sub_0_r in R1. pose proof (len_nonneg _ d) as Hd0.
        replace (if n <? 1 then len d else Z.min n (len d)) with (len d) in R1 by (destruct (Z.ltb_spec n 1); lia).
        destruct (Z.eqb_spec (len d) 0) as [E|E].
        + apply len_0_nil in E. subst d. congruence.
        + rewrite read_rest_S in R1.
          destruct (zl_start K L _ _ Hz) as (H1 & H2 & H3 & H4).
          assert (HU : U L z d rest (mk_reader (z ++ rest) (zs_new K) None 0 (Some (len d)) 0 0 0 0 false) [] z d).
          { unfold U. cbn. rewrite H3, H4. cbn. repeat split; try easy. apply reach_new. }
          destruct (inflate_step L z d rest Hz _ _ _ _ (len d) HU ltac:(lia))
            as (o1 & r2 & used & over & zr' & dr' & I1 & _ & _ & _ & _ & _ & _ & _ & _ & I8).
          cbn [r_cws r_cwe r_zip] in I8. rewrite H3 in I8.
          assert (o1 = d) as ->.
          { rewrite I8.
            - apply firstn_all2. unfold len. lia.
            - unfold window. rewrite len_nil. cbn [Z.eqb negb]. rewrite Z.add_0_l, Z.sub_0_r.
              destruct (Z.ltb_spec (len d) 8); cbn [fst snd]; lia. }
          rewrite I1 in R1. cbn [bind app] in R1. rewrite len_nil, Z.sub_0_r, Z.ltb_irrefl in R1.
          rewrite andb_false_r in R1. cbn [andb] in R1. congruence. }
    exists r'. split; [exact R1|]. split; [exact R2|]. apply R6.
    - now destruct (zl_start K L _ _ Hz) as (_ & _ & ? & _).
    - cbn [skipn]. exact Hn.
  Qed.
  (** What no read without buffer changes *)
  Definition keeps (r r' : reader) : Prop :=
    r_m r' = r_m r /\ r_buf r' = None /\ r_buflen r' = r_buflen r /\ r_s r' = r_s r /\ r_phi r' = r_phi r.
  Lemma keeps_trans r1 r2 r3 : keeps r1 r2 -> keeps r2 r3 -> keeps r1 r3.
  Proof. unfold keeps. intros (? & ? & ? & ? & ?) (? & ? & ? & ? & ?). repeat split; congruence. Qed.
  Lemma inflate_keeps r n out r' : r_buf r = None -> inflate_some r n = Ok (out, r') -> keeps r r'.
  Proof.
    unfold inflate_some. intros Hb H. destruct (window _ _ _ _) as [ws we]. destruct (n <? 0); [discriminate|].
    apply bind_ok_inv in H as ([o zip] & _ & H). injection H as _ <-. now repeat split.
  Qed.
  Lemma read_keeps : forall f,
    (forall s (r : reader) n out r', r_buf r = None -> read_s f s r n = Ok (out, r') -> keeps r r') /\
    (forall s (r : reader) dat n out r', r_buf r = None -> read_rest f s r dat n = Ok (out, r') -> keeps r r').
  Proof.
    induction f as [|f [IHs IHr]]; [split; discriminate|]. split.
    - intros s r n out r' Hb. rewrite read_s_S. cbv zeta. rewrite Hb. destruct (_ =? 0).
      + intros H. injection H as _ <-. now repeat split.
      + now apply IHr.
    - intros s r dat n out r' Hb. rewrite read_rest_S. intros H. apply bind_ok_inv in H as ([o r1] & H1 & H).
      pose proof (inflate_keeps _ _ _ _ Hb H1) as Hk. destruct (_ && _).
      + apply bind_ok_inv in H as ([o2 r2] & H2 & H). injection H as _ <-. apply (keeps_trans _ r1); [exact Hk|].
        apply (IHs _ _ _ _ _ ltac:(apply Hk) H2).
      + injection H as _ <-. exact Hk.
  Qed.
  Lemma read_keeps' f (r : reader) n out r' s : r_buf r = None -> r_s r = Some s -> read f r n = Ok (out, r') -> keeps r r'.
  Proof. unfold read, get_s. intros Hb Hs H. rewrite Hs in H. cbn [bind] in H. now apply (read_keeps f) in H. Qed.
  Lemma scrub_keeps pagesize inner s : forall f (r r' : reader), r_buf r = None -> r_s r = Some s ->
    while f (scrub_step pagesize inner) r = Ok r' -> keeps r r'.
  Proof.
    induction f as [|f IH]; intros r r' Hb Hs H; [discriminate|]. cbn [while] in H.
    destruct (scrub_step pagesize inner r) as [[r1|r1]| |] eqn:E; try discriminate; unfold scrub_step in E.
    - destruct (_ && _); [|discriminate]. apply bind_ok_inv in E as ([o r2] & E & E2). injection E2 as ->.
      pose proof (read_keeps' _ _ _ _ _ _ Hb Hs E) as Hk. apply (keeps_trans _ r1); [exact Hk|].
      destruct Hk as (_ & Hb1 & _ & Hs1 & _). apply IH; congruence.
    - destruct (_ && _); [now apply bind_ok_inv in E as ([o r2] & E & E2)|]. injection E as <-. injection H as <-. now repeat split.
  Qed.
  Lemma cbr_keeps pagesize f (r : reader) n r' s : r_buf r = None -> r_s r = Some s ->
    compressed_bytes_read pagesize f r = Ok (n, r') -> keeps r r'.
  Proof.
    unfold compressed_bytes_read. intros Hb Hs H. unfold get_s at 1 in H. rewrite Hs in H. cbn [bind] in H.
    destruct (_ && _).
    - apply bind_ok_inv in H as (r1 & H1 & H). pose proof (scrub_keeps _ _ s _ (with_buf r (r_buf r) (r_buflen r) 0) _ Hb Hs H1) as Hk.
      destruct Hk as (Hk1 & Hk2 & Hk3 & Hk4 & Hk5). unfold get_s in H. cbn [with_buf r_s r_m r_buflen r_phi] in *.
      rewrite Hk4, Hs in H. cbn [bind] in H. injection H as _ <-. repeat split; cbn; congruence.
    - injection H as _ <-. now repeat split.
  Qed.

  Section Iter.
    Context (pagesize : Z) (Hps : 0 < pagesize).
    (** stream_iter's round on an entry whose data it reads in one go *)
    Lemma iter_step_ok e hdr z pre post fuel : entry_bytes L e hdr z -> whole L z (pn_data e) -> pn_data e <> [] ->
      len (pn_data e) <= chunk_size pagesize -> (2 * length (pn_data e) + length z + 6 <= fuel)%nat ->
      iter_step K pagesize fuel (pre ++ hdr ++ z ++ post) (len pre) =
      Ok (mk_pobj (len pre) (pn_type e) (len (pn_data e)) (pn_delta e) (reader_init K (z ++ post) (Some (len (pn_data e)))),
          len pre + len hdr + len z).
    Proof.
      intros He Hw Hne Hc Hf. destruct (entry_fields _ _ _ He) as (Hz & _ & Hl & _). unfold iter_step.
      rewrite (pack_object_at_bytes _ _ _ _ _ He). cbn [bind po_stream po_size po_offset po_type_id po_delta].
      set (d := pn_data e) in *.
      destruct (read_whole z d post (len d) fuel Hz Hw ltac:(right; lia) ltac:(lia)) as (r' & R1 & R2 & R3).
      unfold stream_copy. destruct fuel as [|fuel]; [lia|]. cbn [stream_copy_loop].
      rewrite Z.sub_0_r, Z.min_r by exact Hc. rewrite R1. cbn [bind]. unfold null_write at 1. cbn [bind].
      rewrite Z.add_0_l, Z.ltb_irrefl, Z.eqb_refl. cbn [orb bind].
      assert (Hbr : r_br r' = len d) by apply R2. unfold py_assert. rewrite Hbr, Z.eqb_refl.
      destruct (cbr_ok L z d post Hz pagesize r' (S fuel) Hne Hps R2 ltac:(lia)) as (_ & r2 & E). rewrite R3, len_nil, Z.sub_0_r in E. rewrite E. cbn [bind].
      pose proof (read_keeps' _ _ _ _ _ _ (eq_refl : r_buf (reader_init K (z ++ post) (Some (len d))) = None) (eq_refl _) R1) as Hk1.
      assert (Hk2 : keeps r' r2) by (apply (cbr_keeps pagesize (S fuel) _ _ _ (len d)) in E; [exact E| |]; apply R2).
      destruct (keeps_trans _ _ _ Hk1 Hk2) as (M1 & M2 & M3 & M4 & M5). cbn in M1, M3, M4, M5.
      unfold seek. cbn [negb orb Z.eqb bind]. unfold rewind. rewrite M1, M2, M3, M4, M5.
      replace (len pre + (len pre + len hdr - len pre + len z)) with (len pre + len hdr + len z) by lia. reflexivity.
    Qed.
    Lemma iter_loop_ok footer fin : forall es off b, entries L off es b fin -> forall pre, len pre = off ->
      exists os, Forall2 obj_of es os /\ forall rounds fuel,
      Forall (fun p => whole L (pn_z (snd p)) (pn_data (snd p)) /\ pn_data (snd p) <> [] /\ len (pn_data (snd p)) <= chunk_size pagesize /\
                       (2 * length (pn_data (snd p)) + length (pn_z (snd p)) + 6 <= fuel)%nat) es ->
      (length es < rounds)%nat ->
      iter_loop K pagesize rounds fuel (pre ++ b ++ footer) fin off = Ok os.
    Proof.
      induction 1 as [off|off e hdr z es b fin He Hes IH]; intros pre Hpre.
      - exists []. split; [constructor|]. intros rounds fuel Hall Hr.
        destruct rounds as [|rounds]; [lia|]. cbn [iter_loop]. now rewrite Z.ltb_irrefl.
      - destruct (IH (pre ++ hdr ++ z)) as (os & HF & Ho); [rewrite !len_app; lia|].
        destruct (entry_fields _ _ _ He) as (Hz & Ez & Hl & _).
        eexists (mk_pobj off (pn_type e) (len (pn_data e)) (pn_delta e) (reader_init K (z ++ b ++ footer) (Some (len (pn_data e)))) :: os).
        split.
        { constructor; [|exact HF]. exists (b ++ footer). cbn [fst snd]. rewrite Ez. easy. }
        intros rounds fuel Hall Hr. destruct rounds as [|rounds]; [cbn in Hr; lia|]. cbn [iter_loop].
        assert (Hfin : off + len hdr + len z <= fin).
        { clear -Hes. induction Hes as [|off' e' hdr' z' es' b' fin' _ _ IH]; [lia|]. pose proof (len_nonneg _ hdr'). pose proof (len_nonneg _ z'). lia. }
        pose proof (len_nonneg _ z). replace (off <? fin) with true by lia.
        inversion Hall as [|? ? (H1 & H2 & H3 & H4) Hall']; subst. cbn [snd] in *.
        replace (pre ++ (hdr ++ pn_z e ++ b) ++ footer) with (pre ++ hdr ++ pn_z e ++ b ++ footer) by now rewrite <- !app_assoc.
        rewrite (iter_step_ok e hdr (pn_z e) pre (b ++ footer) fuel) by assumption. cbn [bind].
        specialize (Ho rounds fuel Hall' ltac:(cbn in Hr; lia)).
        rewrite <- !app_assoc in Ho. rewrite Ho. reflexivity.
    Qed.
    Lemma entries_fin off es b fin : entries L off es b fin -> fin = off + len b.
    Proof. induction 1; [rewrite len_nil; lia|]. rewrite !len_app. lia. Qed.
    Lemma stream_iter_ok (sha1 : bytes -> bytes) es pack : (forall d, len (sha1 d) = 20) -> pack_file L sha1 es pack ->
      Forall (fun p => whole L (pn_z (snd p)) (pn_data (snd p)) /\ pn_data (snd p) <> [] /\ len (pn_data (snd p)) <= chunk_size pagesize) es ->
      exists os, evaluates (fun f => stream_iter K pagesize f pack 0) (Ok os) /\ Forall2 obj_of es os.
    Proof.
      intros Hsha (body & fin & Hes & Hn & ->) Hall. set (h := pack_head (len es)).
      assert (Hh : len h = 12) by reflexivity.
      set (m := fold_right (fun p n => Nat.max (2 * length (pn_data (snd p)) + length (pn_z (snd p)) + 6) n) O es).
      assert (Hm : forall f, (m <= f)%nat -> Forall (fun p => whole L (pn_z (snd p)) (pn_data (snd p)) /\ pn_data (snd p) <> [] /\ len (pn_data (snd p)) <= chunk_size pagesize /\
                       (2 * length (pn_data (snd p)) + length (pn_z (snd p)) + 6 <= f)%nat) es).
      { subst m. clear -Hall. induction Hall as [|p es (H1 & H2 & H3) _ IH]; intros f Hf; [constructor|]. cbn [fold_right] in Hf.
        constructor; [|apply IH; lia]. repeat (split; [assumption|]). lia. }
      destruct (iter_loop_ok (sha1 (h ++ body)) fin es 12 body Hes h Hh) as (os & HF & Ho).
      exists os. split; [|exact HF]. exists (m + length es + 1)%nat. intros f Hf.
      unfold stream_iter, first_object_offset, footer_size. cbn [Z.eqb].
      replace (len ((h ++ body) ++ sha1 (h ++ body)) - 20) with fin
        by (rewrite !len_app, Hsha, Hh, (entries_fin _ _ _ _ Hes); lia).
      rewrite <- (app_assoc h body (sha1 (h ++ body))). apply Ho; [apply Hm; lia|lia].
    Qed.
  End Iter.
End PackRead.
