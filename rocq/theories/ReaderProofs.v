(** Facts about the model of DecompressMemMapReader, for every zlib satisfying the laws. *)
From Coq Require Import ZifyBool ZifyNat.
From Verif Require Import Py PyFacts FunModel FunSpec FunProofs ZlibModel ReaderModel StreamSpec.
Ltac Zify.zify_post_hook ::= Z.div_mod_to_equations.

Lemma skipn_app_length {A} (a b : list A) : skipn (length a) (a ++ b) = b.
Proof. rewrite skipn_app, skipn_all, Nat.sub_diag. reflexivity. Qed.
Lemma firstn_app_length {A} (a b : list A) : firstn (length a) (a ++ b) = a.
Proof. rewrite firstn_app, firstn_all, Nat.sub_diag. cbn [firstn]. apply app_nil_r. Qed.

Lemma read_s_S {K} f s (r : reader K) size : read_s (S f) s r size =
  let size := if size <? 1 then s - r_br r else Z.min size (s - r_br r) in
  if size =? 0 then Ok ([], r)
  else
    match r_buf r with
    | Some b =>
        if size <=? r_buflen r then
          let (dat, b) := bio_read b size in
          Ok (dat, with_buf r (Some b) (r_buflen r - size) (r_br r + size))
        else read_rest f s (with_buf r None 0 (r_br r + r_buflen r)) b (size - r_buflen r)
    | None => read_rest f s r [] size
    end.
Proof. reflexivity. Qed.
Lemma read_rest_S {K} f s (r : reader K) dat size : read_rest (S f) s r dat size =
  let! (out, r) := inflate_some r size in
  if negb (len (dat ++ out) =? 0) && (len (dat ++ out) - len dat <? size) && (r_br r <? s) then
    let! (more, r) := read_s f s r (size - len (dat ++ out)) in Ok ((dat ++ out) ++ more, r)
  else Ok (dat ++ out, r).
Proof. reflexivity. Qed.

(** More fuel does not change a result. *)
Lemma read_mono1 {K} : forall f,
  (forall s (r : reader K) n v, read_s f s r n = Ok v -> read_s (S f) s r n = Ok v) /\
  (forall s (r : reader K) dat n v, read_rest f s r dat n = Ok v -> read_rest (S f) s r dat n = Ok v).
Proof.
  induction f as [|f [IHs IHr]]; [split; discriminate|]. split.
  - intros s r n v. rewrite (read_s_S f), (read_s_S (S f)). cbv zeta. destruct (_ =? 0); [easy|].
    destruct (r_buf r); [|apply IHr]. destruct (_ <=? _); [easy|apply IHr].
  - intros s r dat n v. rewrite (read_rest_S f), (read_rest_S (S f)).
    destruct (inflate_some r n) as [[out r']| |]; cbn [bind]; try easy.
    destruct (_ && _); [|easy]. intros H. apply bind_ok_inv in H as (x & H1 & H2). now rewrite (IHs _ _ _ _ H1).
Qed.
Lemma read_s_mono {K} f f' s (r : reader K) n v : (f <= f')%nat -> read_s f s r n = Ok v -> read_s f' s r n = Ok v.
Proof. intros Hle H. induction Hle; [easy|]. now apply read_mono1. Qed.
Lemma parse_mono {K} f f' (r : reader K) v : (f <= f')%nat -> parse_header_info f r = Ok v -> parse_header_info f' r = Ok v.
Proof.
  unfold parse_header_info. intros Hle H. apply bind_ok_inv in H as (x & H1 & H2). now rewrite (read_s_mono _ _ _ _ _ _ Hle H1).
Qed.
Lemma get_s_mono {K} f f' (r : reader K) v : (f <= f')%nat -> get_s f r = Ok v -> get_s f' r = Ok v.
Proof.
  unfold get_s. intros Hle H. destruct (r_s r); [easy|]. apply bind_ok_inv in H as (x & H1 & H2).
  now rewrite (parse_mono _ _ _ _ Hle H1).
Qed.
Lemma read_mono {K} f f' (r : reader K) n v : (f <= f')%nat -> read f r n = Ok v -> read f' r n = Ok v.
Proof.
  unfold read. intros Hle H. apply bind_ok_inv in H as ([s r1] & H1 & H2). rewrite (get_s_mono _ _ _ _ Hle H1).
  cbn [bind]. now apply (read_s_mono f).
Qed.
Lemma run_stream_mono {S} (rd rd' : S -> Z -> res (bytes * S)) rw : (forall s n v, rd s n = Ok v -> rd' s n = Ok v) ->
  forall ops s v, run_stream rd rw s ops = Ok v -> run_stream rd' rw s ops = Ok v.
Proof.
  intros Hm. induction ops as [|[n|] ops IH]; intros s v H; cbn [run_stream] in *; [easy| |].
  - apply bind_ok_inv in H as ([x s1] & H1 & H2). rewrite (Hm _ _ _ H1). cbn [bind].
    apply bind_ok_inv in H2 as (l & H2 & H3). now rewrite (IH _ _ H2).
  - apply bind_ok_inv in H as (s1 & H1 & H2). rewrite H1. cbn [bind].
    apply bind_ok_inv in H2 as (l & H2 & H3). now rewrite (IH _ _ H2).
Qed.
Lemma run_state_mono {S} (rd rd' : S -> Z -> res (bytes * S)) rw : (forall s n v, rd s n = Ok v -> rd' s n = Ok v) ->
  forall ops s v, run_state rd rw s ops = Ok v -> run_state rd' rw s ops = Ok v.
Proof.
  intros Hm. induction ops as [|[n|] ops IH]; intros s v H; cbn [run_state] in *; [easy| |].
  - apply bind_ok_inv in H as ([x s1] & H1 & H2). rewrite (Hm _ _ _ H1). cbn [bind].
    apply bind_ok_inv in H2 as ([l s2] & H2 & H3). now rewrite (IH _ _ H2).
  - apply bind_ok_inv in H as (s1 & H1 & H2). rewrite H1. cbn [bind].
    apply bind_ok_inv in H2 as ([l s2] & H2 & H3). now rewrite (IH _ _ H2).
Qed.
Lemma while_mono2 {S A} (st st' : S -> res (S + A)) : (forall s v, st s = Ok v -> st' s = Ok v) ->
  forall f f' s v, (f <= f')%nat -> while f st s = Ok v -> while f' st' s = Ok v.
Proof.
  intros Hm. induction f as [|f IH]; intros f' s v Hf H; [discriminate|]. destruct f' as [|f']; [lia|].
  cbn [while] in *. destruct (st s) as [[s'|a]| |] eqn:E; try discriminate; rewrite (Hm _ _ E); [|exact H].
  apply (IH f'); [lia|exact H].
Qed.
Lemma cbr_mono {K} pagesize f f' (r : reader K) v : (f <= f')%nat ->
  compressed_bytes_read pagesize f r = Ok v -> compressed_bytes_read pagesize f' r = Ok v.
Proof.
  unfold compressed_bytes_read. intros Hf H. apply bind_ok_inv in H as ([s r1] & H1 & H2).
  rewrite (get_s_mono _ _ _ _ Hf H1). cbn [bind].
  destruct (_ && _); [|exact H2]. apply bind_ok_inv in H2 as (r2 & H2 & H3).
  erewrite while_mono2; [|clear H2|exact Hf|exact H2].
  - cbn [bind]. apply bind_ok_inv in H3 as ([s3 r3] & H3 & H4). rewrite (get_s_mono _ _ _ _ Hf H3). exact H4.
  - intros s0 v0. unfold scrub_step. destruct (_ && _); [|easy]. intros H.
    apply bind_ok_inv in H as ([o r4] & H & H5). rewrite (read_mono _ _ _ _ _ Hf H). exact H5.
Qed.

Section ReaderFacts.
  Context {K : zlib} (L : zlib_laws K) (z d rest : bytes) (Hz : zl_stream L z d).
  Notation reader := (reader K).
  Notation tail r := (zs_tail K (r_zip r)).
  Notation unused r := (zs_unused K (r_zip r)).

  Lemma reach_at st zr dr : reach L z d st zr dr -> zl_at L st zr dr.
  Proof.
    intros H. induction H as [|st zr dr inp n zr' dr' out st' _ _ _ _ _ H]; [now apply zl_start|].
    now destruct H as (_ & ? & ? & _ & _ & _ & _ & ? & _).
  Qed.

  (** The zlib stream has not been consumed completely: zr is still to be fed. *)
  Definition U (r : reader) (pre zr dr : bytes) : Prop :=
    r_m r = z ++ rest /\ z = pre ++ zr /\ zr <> [] /\ reach L z d (r_zip r) zr dr /\
    r_cwe r - len (tail r) = len pre /\ unused r = [] /\ r_cbr r = len pre /\ (tail r <> [] -> dr <> []) /\ 0 <= r_cws r.
  (** The end of the zlib stream has been seen. *)
  Definition F (r : reader) : Prop :=
    r_m r = z ++ rest /\ zl_at L (r_zip r) [] [] /\ len (tail r) <= r_cwe r.
  Definition F27 (r : reader) : Prop :=
    r_cbr r = len z - len (tail r) /\ (unused r = [] -> tail r = [] /\ r_cwe r = len z) /\
    (rest = [] -> unused r = []) /\ prefix (tail r) rest /\
    r_cwe r = len z + len (unused r) /\ (tail r = [] \/ tail r = unused r) /\ prefix (unused r) rest.
  Definition G (b : bool) (r : reader) (dr : bytes) : Prop :=
    (exists pre zr, U r pre zr dr) \/ (F r /\ (b = true -> F27 r) /\ dr = []).
  (** Nothing but the position in the streams changed. *)
  Definition same (r r' : reader) (k : Z) : Prop :=
    r_m r' = r_m r /\ r_buf r' = r_buf r /\ r_buflen r' = r_buflen r /\ r_s r' = r_s r /\
    r_phi r' = r_phi r /\ r_br r' = r_br r + k.
  Lemma same_trans r1 r2 r3 a b c : same r1 r2 a -> same r2 r3 b -> c = a + b -> same r1 r3 c.
  Proof. unfold same. intros (? & ? & ? & ? & ? & ?) (? & ? & ? & ? & ? & ?) ->. repeat split; try congruence. lia. Qed.

  Lemma window_ok cws cwe t size : 0 < size -> exists we,
    window cws cwe t size = (cwe - len t, we) /\ cwe - len t + 8 <= we.
  Proof.
    intros Hs. unfold window. pose proof (len_nonneg _ t).
    destruct (Z.eqb_spec (len t) 0) as [E|E]; cbn [negb].
    - rewrite E, Z.sub_0_r. destruct (Z.ltb_spec (cws + size - cwe) 8); eexists; (split; [reflexivity|lia]).
    - destruct (Z.ltb_spec (cwe - len t + size - (cwe - len t)) 8); eexists; (split; [reflexivity|lia]).
  Qed.
  (** The window reaches to the end of a zlib stream that is not longer than the request. *)
  Lemma window_large cws cwe t size (pre zr : bytes) : 0 < size -> 0 <= cws -> cwe - len t = len pre -> z = pre ++ zr -> len z <= size ->
    len zr <= snd (window cws cwe t size) - fst (window cws cwe t size).
  Proof.
    intros Hs Hc He Hp Hl. rewrite Hp, len_app in Hl. pose proof (len_nonneg _ pre). pose proof (len_nonneg _ t).
    unfold window. destruct (Z.eqb_spec (len t) 0) as [E|E]; cbn [negb].
    - destruct (Z.ltb_spec (cws + size - cwe) 8); cbn [fst snd]; lia.
    - destruct (Z.ltb_spec (cwe - len t + size - (cwe - len t)) 8); cbn [fst snd]; lia.
  Qed.
  Lemma slice_window (pre q : bytes) we : len pre + 8 <= we -> exists k,
    slice (pre ++ q) (len pre) we = firstn k q /\ (8 <= k)%nat /\ Z.of_nat k = we - len pre.
  Proof.
    intros H. pose proof (len_nonneg _ pre). exists (Z.to_nat (we - len pre)). split; [|lia].
    rewrite slice_spec by lia. f_equal. unfold len. rewrite Nat2Z.id. apply skipn_app_length.
  Qed.
  Lemma firstn_prefix (zr : bytes) k : prefix (firstn k (zr ++ rest)) zr \/ prefix zr (firstn k (zr ++ rest)).
  Proof.
    destruct (Nat.le_gt_cases k (length zr)).
    - left. exists (skipn k zr). rewrite firstn_app. replace (k - length zr)%nat with O by lia.
      cbn [firstn]. now rewrite app_nil_r, firstn_skipn.
    - right. exists (firstn (k - length zr) rest). rewrite firstn_app. f_equal. apply firstn_all2. lia.
  Qed.

  Lemma inflate_step r pre zr dr size : U r pre zr dr -> 0 < size ->
    exists out r' used over zr' dr',
      inflate_some r size = Ok (out, r') /\ same r r' (len out) /\
      zr = used ++ zr' /\ dr = out ++ dr' /\ len out <= size /\
      (zr' <> [] -> U r' (pre ++ used) zr' dr' /\ tail r' = over /\ (over <> [] -> len out = size)) /\
      (zr' = [] -> dr' = [] /\ F r' /\ F27 r' /\ tail r' = match tail r with [] => [] | _ => over end) /\
      (dr = [] -> used <> []) /\
      (dense L z d -> dr <> [] -> out <> []) /\
      (len zr <= snd (window (r_cws r) (r_cwe r) (tail r) size) - fst (window (r_cws r) (r_cwe r) (tail r) size) ->
       out = firstn (Z.to_nat size) dr).
  Proof.
    intros (Hm & Hpre & Hne & Hr & Hcwe & Hun & Hcbr & Ht & Hcws) Hs.
    destruct (window_ok (r_cws r) (r_cwe r) (tail r) size Hs) as (we & Hw & Hwe).
    unfold inflate_some. rewrite Hw. rewrite Hcwe in *.
    destruct (slice_window pre (zr ++ rest) we Hwe) as (k & Esl & Hk & Hkwe).
    replace (slice (r_m r) (len pre) we) with (firstn k (zr ++ rest)) by (rewrite Hm, Hpre, <- app_assoc; congruence).
    set (inp := firstn k (zr ++ rest)).
    pose proof (firstn_prefix zr k) as Hp. fold inp in Hp.
    destruct (zl_step K L _ _ _ inp size (reach_at _ _ _ Hr) Hne Hs Hp) as (zr' & dr' & out & st' & Hstep).
    pose proof (reach_step L z d _ _ _ _ _ _ _ _ _ Hr Hne Hs Hp Hstep) as Hreach.
    destruct Hstep as (Hd & used & over & Hinp & Hzr & Hdr & Hout & Hat & Hunf & Hfin).
    replace (size <? 0) with false by lia. rewrite Hd. cbn [bind].
    pose proof (len_nonneg _ pre) as Hlp. pose proof (len_nonneg _ used) as Hlu. pose proof (len_nonneg _ over) as Hlo.
    assert (Hinpne : inp <> []).
    { unfold inp. destruct zr as [|a zr]; [easy|]. destruct k; [lia|]. easy. }
    assert (Hlinp : len inp = len used + len over) by (rewrite Hinp, len_app; lia).
    assert (Hall : 8 <= len inp \/ inp = zr ++ rest).
    { unfold inp. rewrite len_firstn. destruct (Z.le_gt_cases 8 (len (zr ++ rest))); [left; lia|].
      right. apply firstn_all2. unfold len in *. lia. }
    eexists out, _, used, over, zr', dr'. split; [reflexivity|]. split; [now repeat split|].
    split; [easy|]. split; [easy|]. split; [easy|]. cbn [r_m r_zip r_cwe r_cbr r_br]. split; [|split; [|split; [|split]]].
    - intros Hne'. destruct (Hunf Hne') as (Ht' & Hu' & Ho'). split; [|split; [easy|intros H; now apply Ho']].
      unfold U. cbn [r_m r_zip r_cwe r_cbr].
      split; [easy|]. split; [rewrite Hpre, Hzr; now rewrite app_assoc|].
      split; [easy|]. split; [easy|]. rewrite Ht', Hu', Hun, len_nil, Hcbr, len_app. split; [lia|]. split; [easy|].
      split; [lia|]. split; [intros H; now apply Ho'|]. cbn [r_cws]. lia.
    - intros ->. destruct (Hfin eq_refl) as (-> & Hu' & Ht'). rewrite app_nil_r in Hzr. subst zr.
      rewrite Hun in Hu'. cbn [app] in Hu'.
      split; [easy|]. split.
      { unfold F. cbn [r_m r_zip r_cwe r_cbr]. rewrite Ht'. split; [easy|]. split; [easy|].
        destruct (tail r); rewrite ?len_nil; lia. }
      split; [|easy]. unfold F27. cbn [r_m r_zip r_cwe r_cbr]. rewrite Hu', Hpre, len_app, Hcbr.
      assert (Hover : prefix over rest).
      { assert (Hi : prefix inp (used ++ rest)) by (exists (skipn k (used ++ rest)); unfold inp; now rewrite firstn_skipn).
        destruct Hi as (q & Hq). rewrite Hinp, <- app_assoc in Hq. apply app_inv_head in Hq. now exists q. }
      split; [|split; [|split]].
      + rewrite Ht'. lia.
      + intros ->. rewrite Ht', len_nil in *. split; [now destruct (tail r)|lia].
      + intros Hrest. destruct Hp as [[q Hq]|[q Hq]].
        * rewrite Hinp in Hq. apply (f_equal len) in Hq. rewrite !len_app in Hq. pose proof (len_nonneg _ q).
          apply len_0_nil. unfold bytes in *. lia.
        * assert (len inp <= len used).
          { unfold inp. rewrite len_firstn, Hrest, app_nil_r. lia. }
          apply len_0_nil. lia.
      + rewrite Ht'. split; [destruct (tail r); [now exists rest|exact Hover]|].
        split; [unfold bytes in *; lia|]. split; [destruct (tail r); auto|exact Hover].
    - intros ->. destruct zr' as [|a zr'].
      + rewrite app_nil_r in Hzr. now rewrite <- Hzr.
      + destruct (Hunf ltac:(easy)) as (_ & _ & Ho'). intros ->. destruct over as [|o over].
        * cbn in Hinp. easy.
        * destruct (Ho' ltac:(easy)) as [_ H]. symmetry in Hdr. now apply app_eq_nil in Hdr as [_ ->].
    - intros Hdense Hdr0. destruct Hall as [H8|Hwhole]; [exact (Hdense _ _ _ _ _ _ _ Hr Hne Hdr0 Hp H8 Hs Hd)|].
      destruct zr' as [|a zr'].
      + destruct (Hfin eq_refl) as (-> & _ & _). rewrite app_nil_r in Hdr. congruence.
      + destruct (Hunf ltac:(easy)) as (_ & _ & Ho'). destruct over as [|o over].
        * exfalso. rewrite app_nil_r in Hinp. rewrite Hwhole, Hzr, <- app_assoc in Hinp.
          apply (f_equal len) in Hinp. rewrite !len_app, len_cons in Hinp.
          pose proof (len_nonneg _ zr'). pose proof (len_nonneg _ rest). unfold bytes in *. lia.
        * destruct (Ho' ltac:(easy)) as [E _]. intros ->. rewrite len_nil in E. lia.
    - cbn [fst snd]. intros Hfit. destruct zr' as [|a zr'].
      + destruct (Hfin eq_refl) as (-> & _ & _). rewrite app_nil_r in Hdr. subst dr.
        now rewrite firstn_all2 by (unfold len in *; lia).
      + destruct (Hunf ltac:(easy)) as (_ & _ & Ho'). destruct over as [|o over].
        * exfalso. assert (len inp = len used) as Hl by (rewrite Hinp, app_nil_r; easy).
          unfold inp in Hl. rewrite len_firstn, len_app in Hl. rewrite Hzr, len_app, len_cons in Hl, Hfit.
          pose proof (len_nonneg _ zr'). pose proof (len_nonneg _ rest). unfold bytes in *. lia.
        * destruct (Ho' ltac:(easy)) as [E _]. rewrite Hdr.
          replace (Z.to_nat size) with (length out) by (unfold len in *; lia). now rewrite firstn_app_length.
  Qed.

  Lemma inflate_done r size : F r -> 0 < size ->
    exists r', inflate_some r size = Ok ([], r') /\ same r r' 0 /\ F r' /\
      r_cwe r' = r_cwe r - len (tail r) + len (slice (r_m r) (fst (window (r_cws r) (r_cwe r) (tail r) size)) (snd (window (r_cws r) (r_cwe r) (tail r) size))) /\
      unused r' = unused r ++ slice (r_m r) (fst (window (r_cws r) (r_cwe r) (tail r) size)) (snd (window (r_cws r) (r_cwe r) (tail r) size)) /\
      (tail r = [] -> tail r' = [] /\ r_cbr r' = r_cbr r - len (unused r)).
  Proof.
    intros (Hm & Hat & Ht) Hs.
    destruct (window_ok (r_cws r) (r_cwe r) (tail r) size Hs) as (we & Hw & Hwe).
    unfold inflate_some. rewrite Hw. cbn [fst snd].
    set (inp := slice (r_m r) (r_cwe r - len (tail r)) we).
    destruct (zl_done K L _ inp size Hat Hs) as (st' & Hd & Hat' & Hu' & Ht').
    replace (size <? 0) with false by lia. rewrite Hd. cbn [bind]. eexists. split; [reflexivity|].
    split; [repeat split; cbn [r_br]; rewrite len_nil; lia|]. split.
    - unfold F. cbn [r_m r_zip r_cwe]. split; [easy|]. split; [easy|]. rewrite Ht'.
      pose proof (len_nonneg _ inp). destruct (tail r) eqn:E; rewrite ?len_nil in *; lia.
    - cbn [r_cwe r_zip r_cbr]. split; [easy|]. split; [easy|]. intros E. rewrite E in Ht'. rewrite Ht'. split; [easy|].
      rewrite Hu', len_app, len_nil. lia.
  Qed.

  Lemma inflate_G b r dr size : G b r dr -> 0 < size -> (b = true -> dr <> []) ->
    exists out r' dr', inflate_some r size = Ok (out, r') /\ same r r' (len out) /\ G b r' dr' /\
      dr = out ++ dr' /\ len out <= size /\ (dense L z d -> dr <> [] -> out <> []) /\
      (len z <= size -> out = firstn (Z.to_nat size) dr) /\
      (b = true -> tail r = [] -> len dr <= size -> tail r' = []).
  Proof.
    intros [(pre & zr & HU)|(HF & HF27 & ->)] Hs Hb.
    - destruct (inflate_step _ _ _ _ _ HU Hs) as (out & r' & used & over & zr' & dr' & H1 & H2 & H3 & H4 & H5 & H6 & H7 & _ & H8 & H9).
      exists out, r', dr'. split; [easy|]. split; [easy|]. split.
      { destruct zr' as [|a zr'].
        - right. destruct (H7 eq_refl) as (-> & HF & HF27 & _). split; [exact HF|]. split; [intros _; exact HF27|reflexivity].
        - left. destruct (H6 ltac:(easy)) as (HU' & _). eauto. }
      split; [easy|]. split; [easy|]. split; [easy|]. split.
      { intros Hl. apply H9. pose proof HU as (_ & Hpre & _ & _ & Hcwe & _ & _ & _ & Hcws).
        apply (window_large _ _ _ _ _ _ Hs Hcws Hcwe Hpre Hl). }
      intros _ Ht Hl.
      destruct zr' as [|a zr'].
      + destruct (H7 eq_refl) as (_ & _ & _ & ->). now rewrite Ht.
      + destruct (H6 ltac:(easy)) as ((_ & _ & _ & _ & _ & _ & _ & Ht' & _) & Hto & Ho). destruct over as [|o over]; [easy|].
        exfalso. specialize (Ho ltac:(easy)). rewrite Hto in Ht'. specialize (Ht' ltac:(easy)).
        rewrite H4, len_app in Hl. destruct dr' as [|x dr']; [easy|]. rewrite len_cons in Hl. pose proof (len_nonneg _ dr'). lia.
    - destruct b; [now specialize (Hb eq_refl)|].
      destruct (inflate_done _ _ HF Hs) as (r' & H1 & H2 & H3 & _).
      exists [], r', []. split; [easy|]. split; [easy|]. split; [right; easy|].
      split; [easy|]. split; [rewrite len_nil; lia|]. split; [easy|]. split; [intros _; now rewrite firstn_nil|easy].
  Qed.

  (** Reading without a buffer. *)
  Lemma read_rest_None b s : forall n fuel r dr size,
    (length dr <= n)%nat -> (2 * n + 2 <= fuel)%nat -> G b r dr -> r_buf r = None ->
    0 < size -> r_br r + size <= s -> (b = true -> s = r_br r + len dr) ->
    exists out r' dr', read_rest fuel s r [] size = Ok (out, r') /\ same r r' (len out) /\ G b r' dr' /\
      dr = out ++ dr' /\ len out <= size /\ (dense L z d \/ len z <= size -> out = firstn (Z.to_nat size) dr) /\
      (b = true -> tail r = [] -> len dr <= size -> tail r' = []).
  Proof.
    induction n as [|n IH]; intros fuel r dr size Hn Hfuel HG Hbuf Hs Hbr Hb;
      (destruct fuel as [|fuel]; [lia|]); rewrite read_rest_S;
      (destruct (inflate_G b r dr size HG Hs) as (out & r' & dr' & H1 & H2 & H3 & H4 & H5 & H6 & H6' & H7);
        [intros Eb; specialize (Hb Eb); intros ->; rewrite len_nil in Hb; lia|]);
      rewrite H1; cbn [bind app]; rewrite len_nil, Z.sub_0_r.
    - destruct dr as [|? ?]; [|cbn in Hn; lia]. symmetry in H4. apply app_eq_nil in H4 as [-> ->].
      cbn [len length Z.of_nat Z.eqb negb andb]. exists [], r', [].
      split; [easy|]. split; [easy|]. split; [easy|]. split; [easy|]. split; [rewrite len_nil; lia|].
      split; [intros _; now rewrite firstn_nil|easy].
    - assert (Hbr' : r_br r' = r_br r + len out) by apply H2.
      destruct (negb (len out =? 0) && (len out <? size) && (r_br r' <? s)) eqn:E.
      + assert (0 < len out < size) as Hout by (pose proof (len_nonneg _ out); lia).
        destruct fuel as [|fuel]; [lia|]. rewrite read_s_S; cbv zeta.
        replace (size - len out <? 1) with false by lia.
        replace (Z.min (size - len out) (s - r_br r')) with (size - len out) by lia.
        replace (size - len out =? 0) with false by lia.
        assert (r_buf r' = None) as Hbuf' by (destruct H2 as (_ & -> & _); easy). rewrite Hbuf'.
        destruct (IH fuel r' dr' (size - len out)) as (out2 & r2 & dr2 & I1 & I2 & I3 & I4 & I5 & I6 & I7); try easy; try lia.
        { rewrite H4, app_length in Hn. unfold len in Hout. lia. }
        { intros Eb. rewrite (Hb Eb), Hbr', H4, len_app. unfold bytes in *. lia. }
        rewrite I1. cbn [bind]. exists (out ++ out2), r2, dr2.
        split; [easy|]. split; [eapply same_trans; eauto; now rewrite len_app|]. split; [easy|].
        split; [rewrite H4, I4; now rewrite app_assoc|]. rewrite len_app. split; [lia|]. split.
        * intros [Hd|Hl].
          2: { specialize (H6' Hl). assert (dr' = []) as ->.
               { apply len_0_nil. rewrite H4 in H6'. apply (f_equal len) in H6'. rewrite len_firstn, len_app in H6'.
                 pose proof (len_nonneg _ dr'). unfold bytes in *. lia. }
               symmetry in I4. apply app_eq_nil in I4 as [-> _]. now rewrite app_nil_r. }
          rewrite (I6 (or_introl Hd)), H4. replace (Z.to_nat size) with (length out + Z.to_nat (size - len out))%nat by (unfold len in *; lia).
          now rewrite firstn_app_2.
        * intros Eb Ht Hl. apply I7; try easy; [now apply H7|]. rewrite H4, len_app in Hl. unfold bytes in *. lia.
      + exists out, r', dr'.
        split; [easy|]. split; [easy|]. split; [easy|]. split; [easy|]. split; [easy|]. split; [|easy].
        intros [Hd|Hl]; [|now apply H6'].
        specialize (H6 Hd).
        assert (len out = size \/ len out = 0) as [Ho|Ho] by (pose proof (len_nonneg _ out); lia).
        * rewrite H4. replace (Z.to_nat size) with (length out + 0)%nat by (unfold len in *; lia).
          rewrite firstn_app_2. cbn. now rewrite app_nil_r.
        * apply len_0_nil in Ho. destruct dr as [|x dr]; [now rewrite firstn_nil|]. now specialize (H6 ltac:(easy)).
  Qed.
  Lemma read_s_None b s fuel r dr size q :
    (2 * length dr + 3 <= fuel)%nat -> G b r dr -> r_buf r = None ->
    q = (if size <? 1 then s - r_br r else Z.min size (s - r_br r)) -> 0 <= q -> (b = true -> s = r_br r + len dr) ->
    exists out r' dr', read_s fuel s r size = Ok (out, r') /\ same r r' (len out) /\ G b r' dr' /\
      dr = out ++ dr' /\ len out <= q /\ (dense L z d \/ len z <= q -> out = firstn (Z.to_nat q) dr) /\
      (b = true -> tail r = [] -> len dr <= q -> tail r' = []).
  Proof.
    intros Hf HG Hbuf Hq Hq0 Hb. destruct fuel as [|fuel]; [lia|]. rewrite read_s_S; cbv zeta. rewrite <- Hq, Hbuf.
    destruct (Z.eqb_spec q 0) as [->|Hne].
    - exists [], r, dr. split; [easy|]. split; [unfold same; rewrite len_nil; repeat split; lia|].
      now repeat (split; [easy|]).
    - apply (read_rest_None b s (length dr)); try easy; try lia. destruct (Z.ltb_spec size 1); lia.
  Qed.

  (** ** Readers of known size *)
  Definition H (b : bool) (r : reader) (pos : nat) : Prop :=
    G b r (skipn pos d) /\ (pos <= length d)%nat /\ r_buf r = None /\ r_s r = Some (len d) /\
    r_br r = Z.of_nat pos /\ r_phi r = false.
  Lemma H_init : H true (reader_init K (z ++ rest) (Some (len d))) 0.
  Proof.
    destruct (zl_start K L _ _ Hz) as (H1 & H2 & H3 & H4).
    split; [|cbn; repeat split; lia]. left. exists [], z. unfold reader_init. cbn.
    unfold U. cbn. rewrite H3, H4. cbn. repeat split; try easy. apply reach_new.
  Qed.
  Lemma H_rewind b r pos : H b r pos -> H true (rewind r) 0.
  Proof.
    intros (HG & Hp & Hb & Hs & Hbr & Hphi).
    destruct (zl_start K L _ _ Hz) as (H1 & H2 & H3 & H4).
    unfold rewind. rewrite Hphi, Hs, Hb. split; [|cbn; repeat split; lia]. left. exists [], z.
    assert (r_m r = z ++ rest) as Hm by (destruct HG as [(? & ? & HU)|(HF & _)]; [apply HU|apply HF]).
    unfold U. cbn. rewrite H3, H4. cbn. repeat split; try easy. apply reach_new.
  Qed.
  Lemma H_read fuel r pos n : H true r pos -> (2 * length d + 3 <= fuel)%nat ->
    exists out r', read fuel r n = Ok (out, r') /\ H true r' (pos + length out) /\
      out = firstn (length out) (skipn pos d) /\ (1 <= n -> len out <= n) /\
      (let e := if n <? 1 then skipn pos d else firstn (Z.to_nat n) (skipn pos d) in dense L z d \/ len z <= len e -> out = e) /\
      (tail r = [] -> (n < 1 \/ len (skipn pos d) <= n) -> tail r' = []).
  Proof.
    intros (HG & Hp & Hbuf & Hs & Hbr & Hphi) Hf. unfold read, get_s. rewrite Hs. cbn [bind].
    assert (Hls : len (skipn pos d) = len d - Z.of_nat pos) by (rewrite len_skipn; unfold len; lia).
    destruct (read_s_None true (len d) fuel r (skipn pos d) n _ ltac:(rewrite skipn_length; lia) HG Hbuf eq_refl)
      as (out & r' & dr' & R1 & R2 & R3 & R4 & R5 & R6 & R7).
    { destruct (Z.ltb_spec n 1); unfold len in *; lia. }
    { intros _. lia. }
    destruct R2 as (S1 & S2 & S3 & S4 & S5 & S6).
    assert (Hlo : (length out <= length d - pos)%nat).
    { apply (f_equal (@length Z)) in R4. rewrite skipn_length, app_length in R4. lia. }
    exists out, r'. split; [easy|]. split; [|split; [|split; [|split]]].
    - split; [|unfold len in *; repeat split; try congruence; lia].
      replace (skipn (pos + length out) d) with dr'; [easy|].
      rewrite Nat.add_comm, <- skipn_skipn, R4. now rewrite skipn_app_length.
    - rewrite R4. now rewrite firstn_app_length.
    - intros H1. destruct (Z.ltb_spec n 1); lia.
    - cbv zeta. intros Hd. rewrite R6 at 1.
      2: { destruct Hd as [Hd|Hd]; [now left|right]. destruct (Z.ltb_spec n 1); rewrite ?len_firstn in Hd; lia. }
      destruct (Z.ltb_spec n 1) as [Hn|Hn].
      + apply firstn_all2. unfold len in *. lia.
      + destruct (Z.le_gt_cases n (len d - r_br r)).
        * now replace (Z.min n (len d - r_br r)) with n by lia.
        * rewrite !firstn_all2; [easy| |]; unfold len in *; lia.
    - intros Ht Hn. apply R7; try easy. destruct (Z.ltb_spec n 1); lia.
  Qed.

  Definition rew0 (r : reader) : res reader := seek r 0 0.
  Lemma known_run fuel : (2 * length d + 3 <= fuel)%nat -> forall ops r pos, H true r pos ->
    exists outs r', run_state (read fuel) rew0 r ops = Ok (outs, r') /\
      run_stream (read fuel) rew0 r ops = Ok outs /\
      H true r' (position pos ops outs) /\ contiguous d pos ops outs /\ within_request ops outs /\
      (dense L z d -> outs = cursor d pos ops) /\
      (tail r = [] -> Forall (fun op => match op with Read n => n < 1 \/ len d <= n | Rewind => True end) ops ->
       tail r' = []).
  Proof.
    intros Hf. induction ops as [|[n|] ops IH]; intros r pos HH.
    - exists [], r. repeat (split; [easy|]). split; [constructor|]. easy.
    - destruct (H_read fuel r pos n HH Hf) as (out & r' & R1 & R2 & R3 & R4 & R5 & R6).
      destruct (IH _ _ R2) as (outs & r2 & I1 & I2 & I3 & I4 & I5 & I6 & I7).
      exists (out :: outs), r2. cbn [run_state run_stream position contiguous cursor].
      rewrite R1. cbn [bind]. rewrite I1, I2. cbn [bind].
      split; [easy|]. split; [easy|]. split; [easy|]. split; [easy|]. split; [now constructor|]. split.
      + intros Hd. rewrite (I6 Hd). rewrite (R5 (or_introl Hd)) at 1 2. reflexivity.
      + intros Ht Hall. inversion Hall; subst. apply I7; [|easy]. apply R6; [easy|].
        match goal with X : _ \/ _ |- _ => destruct X as [?|?] end; [now left|right].
        rewrite len_skipn. pose proof (len_nonneg _ d). lia.
    - destruct (IH _ _ (H_rewind _ _ _ HH)) as (outs & r2 & I1 & I2 & I3 & I4 & I5 & I6 & I7).
      exists ([] :: outs), r2. cbn [run_state run_stream position contiguous cursor].
      change (rew0 r) with (Ok (rewind r)). cbn [bind]. rewrite I1, I2. cbn [bind].
      split; [easy|]. split; [easy|]. split; [easy|]. split; [easy|]. split; [now constructor|]. split.
      + intros Hd. now rewrite (I6 Hd).
      + intros Ht Hall. inversion Hall; subst. apply I7; [|easy]. now destruct (zl_start K L _ _ Hz) as (_ & _ & ? & _).
  Qed.

  (** ** compressed_bytes_read *)
  Definition SC (r : reader) (k : nat) : Prop :=
    r_m r = z ++ rest /\ r_buf r = None /\ r_s r = Some (len d) /\ r_br r = 0 /\ tail r = [] /\
    ((exists pre zr, U r pre zr [] /\ (length zr + 1 <= k)%nat) \/
     (F r /\ unused r = [] /\ r_cbr r = len z /\ r_cwe r = len z /\ (1 <= k)%nat)).
  Lemma scrub_read f (r : reader) pagesize out (r' : reader) : d <> [] -> 0 < pagesize -> r_buf r = None -> r_s r = Some (len d) -> r_br r = 0 ->
    (forall size, 0 < size -> size = Z.min pagesize (len d) -> inflate_some r size = Ok ([], r')) -> out = [] ->
    read (S (S f)) r pagesize = Ok (out, r').
  Proof.
    intros Hd Hp Hb Hs Hbr Hi ->. unfold read, get_s. rewrite Hs. cbn [bind]. rewrite read_s_S. cbv zeta.
    rewrite Hbr, Z.sub_0_r, Hb. assert (0 < len d).
    { destruct d; [easy|]. rewrite len_cons. pose proof (len_nonneg _ b). lia. }
    replace (pagesize <? 1) with false by lia. replace (_ =? 0) with false by lia.
    rewrite read_rest_S, Hi by lia. cbn [bind app]. reflexivity.
  Qed.
  Lemma scrub_ok pagesize inner : d <> [] -> 0 < pagesize -> (2 <= inner)%nat -> forall k fuel r, SC r k -> (k + 1 <= fuel)%nat ->
    exists r', while fuel (scrub_step pagesize inner) r = Ok r' /\ r_cbr r' = len z /\ r_s r' = Some (len d).
  Proof.
    intros Hd Hp Hi. destruct inner as [|[|inner]]; try lia.
    assert (Hexit : forall fuel r, r_cbr r = len z -> r_s r = Some (len d) -> unused r <> [] -> (1 <= fuel)%nat ->
      exists r', while fuel (scrub_step pagesize (S (S inner))) r = Ok r' /\ r_cbr r' = len z /\ r_s r' = Some (len d)).
    { intros fuel r Hc Hs Hu Hf. destruct fuel as [|fuel]; [lia|]. cbn [while]. unfold scrub_step.
      destruct (unused r) eqn:E; [easy|]. rewrite len_cons. pose proof (len_nonneg _ b).
      replace (len b + 1 =? 0) with false by lia. cbn [andb]. eauto. }
    induction k as [|k IH]; intros fuel r (Hm & Hb & Hs & Hbr & Ht & Hcase) Hf.
    - exfalso. destruct Hcase as [(? & ? & _ & Hk)|(_ & _ & _ & _ & Hk)]; lia.
    - destruct fuel as [|fuel]; [lia|]. cbn [while]. unfold scrub_step at 1.
      destruct Hcase as [(pre & zr & HU & Hk)|(HF & Hu & Hcbr & Hcwe & Hk)].
      + pose proof HU as (_ & Hz' & Hne & _ & _ & Hun & Hcbr & _).
        rewrite Hun, len_nil, Hcbr, Hm.
        replace (len (z ++ rest)) with (len pre + len zr + len rest) by (rewrite Hz', !len_app; lia).
        assert (0 < len zr) as Hlz by (destruct zr; [easy|rewrite len_cons; pose proof (len_nonneg _ zr); lia]).
        pose proof (len_nonneg _ rest) as Hlr. replace (0 =? 0) with true by lia.
        replace (len pre =? len pre + len zr + len rest) with false by lia. cbn [negb andb].
        set (size := Z.min pagesize (len d)).
        assert (0 < size) as Hsz.
        { unfold size. destruct d; [easy|]. rewrite len_cons. pose proof (len_nonneg _ b). lia. }
        destruct (inflate_step _ _ _ _ _ HU Hsz) as (out & r' & used & over & zr' & dr' & H1 & H2 & H3 & H4 & H5 & H6 & H7 & H8 & _).
        symmetry in H4. apply app_eq_nil in H4 as [-> ->]. specialize (H8 eq_refl).
        rewrite (scrub_read inner r pagesize [] r'); try easy; [|intros s Hs0 ->; exact H1]. cbn [bind].
        destruct H2 as (M & S2 & S3 & S4 & S5 & S6). rewrite len_nil in S6.
        destruct zr' as [|a zr'].
        * destruct (H7 eq_refl) as (_ & HF & (F1 & F2 & _) & Ht'). rewrite Ht in Ht'.
          rewrite Ht', len_nil, Z.sub_0_r in F1. destruct (unused r') eqn:Eu.
          -- destruct (F2 eq_refl) as [_ F3]. apply IH; [|lia].
             split; [congruence|]. split; [congruence|]. split; [congruence|]. split; [lia|]. split; [easy|].
             right. repeat (split; [easy|]). rewrite H3, app_nil_r in Hk. destruct used; [easy|cbn in Hk; lia].
          -- apply Hexit; try congruence. lia.
        * destruct (H6 ltac:(easy)) as (HU' & Hto & Ho). apply IH; [|lia].
          split; [congruence|]. split; [congruence|]. split; [congruence|]. split; [lia|]. split.
          { destruct over; [easy|]. specialize (Ho ltac:(easy)). rewrite len_nil in Ho. lia. }
          left. exists (pre ++ used), (a :: zr'). split; [easy|]. rewrite H3, app_length in Hk. destruct used; [easy|cbn [length] in *; lia].
      + rewrite Hu, len_nil, Hcbr, Hm, len_app. replace (0 =? 0) with true by lia. cbn [andb].
        destruct (Z.eqb_spec (len z) (len z + len rest)) as [E|E]; cbn [negb].
        * eauto.
        * set (size := Z.min pagesize (len d)).
          assert (0 < size) as Hsz.
          { unfold size. destruct d; [easy|]. rewrite len_cons. pose proof (len_nonneg _ b). lia. }
          destruct (inflate_done _ _ HF Hsz) as (r' & H1 & H2 & H3 & _ & H4 & H5).
          rewrite (scrub_read inner r pagesize [] r'); try easy; [|intros s Hs0 ->; exact H1]. cbn [bind].
          destruct (H5 Ht) as (_ & Hc'). apply Hexit; [rewrite Hc', Hu, len_nil; lia| |  |lia].
          { destruct H2 as (_ & _ & _ & -> & _). easy. }
          rewrite H4, Hu. cbn [app].
          destruct (window_ok (r_cws r) (r_cwe r) (tail r) size Hsz) as (we & -> & Hwe). cbn [fst snd].
          rewrite Ht, len_nil, Hcwe, Z.sub_0_r in *. rewrite Hm.
          destruct (slice_window z rest we Hwe) as (kk & -> & Hkk & _).
          destruct rest; [rewrite len_nil in E; lia|]. destruct kk; [lia|]. easy.
  Qed.
  Lemma cbr_ok pagesize r fuel : d <> [] -> 0 < pagesize -> H true r (length d) -> (length z + 3 <= fuel)%nat ->
    prefix (tail r) rest /\ exists r', compressed_bytes_read pagesize fuel r = Ok (len z - len (tail r), r').
  Proof.
    intros Hd Hp (HG & _ & Hbuf & Hs & Hbr & Hphi) Hf. rewrite skipn_all in HG.
    unfold compressed_bytes_read, get_s. rewrite Hs. cbn [bind]. unfold len at 4. rewrite Hbr, Z.eqb_refl. cbn [andb].
    assert (Hscrub : unused r = [] -> tail r = [] -> SC (with_buf r (r_buf r) (r_buflen r) 0) (length z + 1) ->
      exists r', (if len (unused r) =? 0
       then let! r0 := while fuel (scrub_step pagesize fuel) (with_buf r (r_buf r) (r_buflen r) 0) in
            let! (s, r1) := match r_s r0 with
                            | Some s => Ok (s, r0)
                            | None => let! (_, s, r1) := parse_header_info fuel r0 in Ok (s, r1)
                            end in Ok (r_cbr r1, with_buf r1 (r_buf r1) (r_buflen r1) s)
       else Ok (r_cbr r, r)) = Ok (len z - len (tail r), r')).
    { intros Hu Ht0 HSC. rewrite Hu, Ht0. cbn [len length Z.of_nat Z.eqb]. rewrite Z.sub_0_r.
      destruct (scrub_ok pagesize fuel Hd Hp ltac:(lia) _ fuel _ HSC ltac:(lia)) as (r' & -> & Hc & Hs').
      cbn [bind]. rewrite Hs'. cbn [bind]. rewrite Hc. eauto. }
    destruct HG as [(pre & zr & HU)|(HF & HF27 & _)].
    - pose proof HU as (Hm & Hz' & Hne & _ & _ & Hu & _ & Ht' & _).
      assert (tail r = []) as Ht0 by (destruct (tail r); [easy|exfalso; now apply Ht']).
      split; [rewrite Ht0; now exists rest|]. apply Hscrub; [easy|easy|].
      split; [easy|]. split; [easy|]. split; [easy|]. split; [easy|]. split; [easy|].
      left. exists pre, zr. split; [exact HU|]. rewrite Hz', app_length. lia.
    - destruct (HF27 eq_refl) as (F1 & F2 & F3 & F4 & _). split; [exact F4|].
      destruct (unused r) eqn:Eu.
      + destruct (F2 eq_refl) as [Ht0 Hcwe]. apply Hscrub; [easy|easy|]. pose proof HF as (Hm & _).
        split; [easy|]. split; [easy|]. split; [easy|]. split; [easy|]. split; [easy|]. right.
        split; [exact HF|]. split; [easy|]. split; [cbn [with_buf r_cbr]; rewrite F1, Ht0, len_nil; lia|]. split; [easy|lia].
      + rewrite len_cons. pose proof (len_nonneg _ b). replace (len b + 1 =? 0) with false by lia. rewrite F1. eauto.
  Qed.
End ReaderFacts.

(** ** Readers that parse the object header themselves *)
Lemma firstn_skipn_add {A} (l : list A) pos k : skipn (pos + k) l = skipn k (skipn pos l).
Proof. rewrite skipn_skipn. f_equal. lia. Qed.

Lemma app_split {A} : forall (a c out dr : list A), a ++ c = out ++ dr -> (length a <= length out)%nat ->
  exists b, out = a ++ b /\ c = b ++ dr.
Proof.
  induction a as [|x a IH]; intros c out dr E Hl; [now exists out|].
  destruct out as [|y out]; [cbn in Hl; lia|]. cbn in E. injection E as -> E.
  destruct (IH _ _ _ E) as (b & -> & ->); [cbn in Hl; lia|]. now exists b.
Qed.

Section ObjectReader.
  Context {K : zlib} (L : zlib_laws K) (t c z rest : bytes).
  Notation hdr := (loose_object_header t (len c)).
  Context (Hz : zl_stream L z (hdr ++ c)) (Ht1 : ~ In BYTE_SPACE t) (Ht2 : ~ In NULL_BYTE t).
  Notation reader := (reader K).
  Notation GG := (G L z (hdr ++ c) rest false).

  (** The header is parsed, pos bytes of the content have been delivered; the bytes before
      position B come or came from the buffer. *)
  Definition P (B : nat) (r : reader) (pos : nat) : Prop :=
    (pos <= length c)%nat /\ r_s r = Some (len c) /\ r_br r = Z.of_nat pos /\ r_phi r = true /\
    ((r_buf r = None /\ r_buflen r = 0 /\ (B <= pos)%nat /\ GG r (skipn pos c)) \/
     (exists b dr, r_buf r = Some b /\ r_buflen r = len b /\ (pos + length b)%nat = B /\
        skipn pos c = b ++ dr /\ GG r dr)).
  (** The header is still to be parsed. *)
  Definition N (r : reader) : Prop :=
    U L z (hdr ++ c) rest r [] z (hdr ++ c) /\ r_cws r = 0 /\ r_cwe r = 0 /\ zs_tail K (r_zip r) = [] /\
    r_br r = 0 /\ r_buflen r = 0 /\ (r_buf r = None \/ r_buf r = Some []).

  Lemma N_init s : N (reader_init K (z ++ rest) s).
  Proof.
    destruct (zl_start K L _ _ Hz) as (H1 & H2 & H3 & H4).
    split; [|cbn; auto 10]. unfold U, reader_init. cbn. rewrite H3, H4. cbn.
    repeat split; try easy. apply reach_new.
  Qed.
  Lemma G_same r r' dr : GG r dr -> r_m r' = r_m r -> r_zip r' = r_zip r -> r_cws r' = r_cws r -> r_cwe r' = r_cwe r ->
    r_cbr r' = r_cbr r -> GG r' dr.
  Proof.
    unfold G, U, F, F27. intros HG -> -> -> -> ->. exact HG.
  Qed.
  Lemma N_rewind B r pos : P B r pos -> (B <= pos)%nat -> N (rewind r) /\ r_s (rewind r) = None.
  Proof.
    intros (Hp & Hs & Hbr & Hphi & Hc) HB.
    destruct (zl_start K L _ _ Hz) as (H1 & H2 & H3 & H4).
    assert (r_m r = z ++ rest) as Hm.
    { destruct Hc as [(_ & _ & _ & [(? & ? & HU)|(HF & _)])|(? & ? & _ & _ & _ & _ & [(? & ? & HU)|(HF & _)])];
        first [apply HU|apply HF]. }
    unfold rewind. rewrite Hphi. split; [|easy]. split.
    - unfold U. cbn. rewrite H3, H4. cbn. repeat split; try easy. apply reach_new.
    - cbn. do 4 (split; [easy|]). destruct Hc as [(Hb & Hl & _)|(b & dr & Hb & Hl & HB' & _)]; [auto|].
      destruct b as [|x b]; [auto|]. cbn [length] in HB'. lia.
  Qed.

  Definition tame : Prop := dense L z (hdr ++ c) \/ len z <= 8192.
  Lemma N_header_read r fuel : N r -> (2 * length (hdr ++ c) + 5 <= fuel)%nat ->
    exists out r' dr, read_s fuel 8192 r 8192 = Ok (out, r') /\ GG r' dr /\ hdr ++ c = out ++ dr /\ len out <= 8192 /\
      (tame -> out = firstn (Z.to_nat 8192) (hdr ++ c)).
  Proof.
    intros (HU & Hcws & Hcwe & Htail & Hbr & Hl & Hb) Hf. destruct fuel as [|fuel]; [lia|]. rewrite read_s_S. cbv zeta. rewrite Hbr.
    change (8192 - 0) with 8192. change (8192 <? 1) with false. cbv iota. change (Z.min 8192 8192) with 8192.
    change (8192 =? 0) with false. cbv iota.
    assert (exists r1, U L z (hdr ++ c) rest r1 [] z (hdr ++ c) /\ r_cws r1 = 0 /\ r_cwe r1 = 0 /\ zs_tail K (r_zip r1) = [] /\
      r_br r1 = 0 /\ r_buf r1 = None /\
      match r_buf r with
      | Some b => if 8192 <=? r_buflen r then let (dat, b0) := bio_read b 8192 in
           Ok (dat, with_buf r (Some b0) (r_buflen r - 8192) (0 + 8192))
          else read_rest fuel 8192 (with_buf r None 0 (0 + r_buflen r)) b (8192 - r_buflen r)
      | None => read_rest fuel 8192 r [] 8192 end = read_rest fuel 8192 r1 [] 8192)
      as (r1 & HU1 & Hcws1 & Hcwe1 & Htail1 & Hbr1 & Hb1 & ->).
    { destruct Hb as [Hb|Hb]; rewrite Hb.
      - now exists r.
      - rewrite Hl. cbn [Z.leb Z.compare]. exists (with_buf r None 0 0). split; [exact HU|]. now repeat split. }
    assert (HG1 : GG r1 (hdr ++ c)) by (left; eauto).
    destruct (read_rest_None L z (hdr ++ c) rest Hz false 8192 (length (hdr ++ c)) fuel r1 (hdr ++ c) 8192)
      as (out & r' & dr & R1 & R2 & R3 & R4 & R5 & R6 & _); try easy; try lia.
    exists out, r', dr. do 4 (split; [easy|]). intros [Hd|Hlz]; [now apply R6; left|].
    destruct fuel as [|fuel]; [lia|]. rewrite read_rest_S in R1.
    destruct (inflate_step L z (hdr ++ c) rest Hz _ _ _ _ 8192 HU1 ltac:(lia))
      as (o1 & r2 & used & over & zr' & dr' & H1 & H2 & H3 & H4 & H5 & H6 & H7 & _ & _ & H8).
    rewrite Hcws1, Hcwe1, Htail1 in H8. change (window 0 0 [] 8192) with (0, 8192) in H8. cbn [fst snd] in H8. specialize (H8 Hlz).
    rewrite H1 in R1. cbn [bind app] in R1. rewrite len_nil, Z.sub_0_r in R1.
    destruct (_ && _) eqn:E in R1.
    - assert (dr' = []) as ->.
      { apply len_0_nil. rewrite H4 in H8. apply (f_equal len) in H8. rewrite len_firstn, len_app in H8.
        pose proof (len_nonneg _ dr'). lia. }
      assert (HG2 : GG r2 []).
      { destruct zr' as [|a zr'].
        - right. destruct (H7 eq_refl) as (_ & HF & _). easy.
        - left. destruct (H6 ltac:(easy)) as (HU' & _). eauto. }
      assert (Hbr2 : r_br r2 = len o1) by (destruct H2 as (_ & _ & _ & _ & _ & ->); lia).
      destruct (read_s_None L z (hdr ++ c) rest Hz false 8192 fuel r2 [] (8192 - len o1) (8192 - len o1))
        as (o2 & r3 & dr3 & J1 & _ & _ & J4 & _).
      { cbn [length]. lia. }
      { exact HG2. }
      { destruct H2 as (_ & -> & _). exact Hb1. }
      { replace (8192 - len o1 <? 1) with false by lia. lia. }
      { lia. }
      { discriminate. }
      rewrite J1 in R1. cbn [bind] in R1. symmetry in J4. apply app_eq_nil in J4 as [-> _]. rewrite app_nil_r in R1.
      assert (out = o1) as -> by congruence. exact H8.
    - assert (out = o1) as -> by congruence. exact H8.
  Qed.

  (** A header that was cut off is not mistaken for the header. *)
  Lemma fmt_i_nosep : ~ In BYTE_SPACE (fmt_i (len c)) /\ ~ In NULL_BYTE (fmt_i (len c)).
  Proof.
    pose proof (len_nonneg _ c) as Hc. unfold fmt_i. replace (len c <? 0) with false by lia.
    pose proof (dec_nonneg_digits (len c) Hc) as Hd. rewrite Forall_forall in Hd.
    split; intros Hi; apply Hd in Hi; unfold BYTE_SPACE, NULL_BYTE in Hi; lia.
  Qed.
  Lemma parse_ok out dr : hdr ++ c = out ++ dr -> (length hdr <= length out)%nat ->
    parse_loose_header out = Ok (t, len c) /\ find NULL_BYTE out = len hdr - 1 /\
    exists b, out = hdr ++ b /\ c = b ++ dr.
  Proof.
    intros E Hl. destruct fmt_i_nosep as [Hs Hn].
    destruct (app_split _ _ _ _ E Hl) as (b & Eo & Ec).
    subst out. split; [apply loose_object_header_ok; auto; apply len_nonneg|]. split; [|eauto].
    unfold loose_object_header. rewrite !app_assoc. rewrite <- (app_assoc _ [NULL_BYTE]). cbn [app].
    rewrite find_app; [rewrite !len_app, !len_cons, len_nil; lia|].
    rewrite !in_app_iff. intros [[?|Hi]|?]; [easy| |easy]. destruct Hi as [Hi|[]]. discriminate.
  Qed.

  Lemma parse_header_ok r fuel out r' dr : 
    read_s fuel 8192 (mk_reader (r_m r) (r_zip r) (r_buf r) (r_buflen r) (Some 8192) (r_br r) (r_cws r) (r_cwe r) (r_cbr r) (r_phi r)) 8192 = Ok (out, r') ->
    GG r' dr -> hdr ++ c = out ++ dr -> (length hdr <= length out)%nat ->
    exists r2, parse_header_info fuel r = Ok (t, len c, r2) /\ P (length out - length hdr) r2 0.
  Proof.
    intros R HG E Hl. unfold parse_header_info. rewrite R. cbn [bind].
    destruct (parse_ok _ _ E Hl) as (Hp & Hfind & b & Eo & Ec). rewrite Hp. cbn [bind].
    eexists. split; [reflexivity|]. rewrite Hfind. replace (len hdr - 1 + 1) with (len hdr) by lia.
    split; [lia|]. cbn [r_s r_br r_phi r_buf r_buflen]. split; [easy|]. split; [easy|]. split; [easy|]. right.
    exists b, dr. rewrite Eo. rewrite slice_from_app by easy. split; [easy|].
    split; [rewrite len_app; lia|]. split; [rewrite app_length; lia|]. split; [easy|].
    now apply (G_same r').
  Qed.

  Lemma P_read B r pos n fuel : P B r pos -> (2 * length c + 8 <= fuel)%nat ->
    exists out r', read fuel r n = Ok (out, r') /\ P B r' (pos + length out) /\
      out = firstn (length out) (skipn pos c) /\
      (let e := if n <? 1 then skipn pos c else firstn (Z.to_nat n) (skipn pos c) in
       allowed (dense L z (hdr ++ c)) B (length z) pos (length e) -> out = e).
  Proof.
    intros (Hp & Hs & Hbr & Hphi & Hc) Hf. unfold read, get_s. rewrite Hs. cbn [bind].
    assert (Hls : len (skipn pos c) = len c - Z.of_nat pos) by (rewrite len_skipn; unfold len; lia).
    set (e := if n <? 1 then _ else _). cbv zeta.
    set (q := if n <? 1 then len c - r_br r else Z.min n (len c - r_br r)).
    assert (Hq0 : 0 <= q) by (unfold q; destruct (Z.ltb_spec n 1); unfold len in *; lia).
    assert (Hqe : e = firstn (Z.to_nat q) (skipn pos c) /\ len e = q).
    { unfold e, q. destruct (Z.ltb_spec n 1).
      - rewrite firstn_all2 by (unfold len in *; lia). split; [easy|lia].
      - rewrite len_firstn. split; [|lia]. destruct (Z.le_gt_cases n (len c - r_br r)).
        + now replace (Z.min n (len c - r_br r)) with n by lia.
        + rewrite !firstn_all2; [easy| |]; unfold len in *; lia. }
    destruct Hqe as [He Hle]. clearbody e.
    assert (Hskip : forall out dr', skipn pos c = out ++ dr' ->
      (length out <= length c - pos)%nat /\ out = firstn (length out) (skipn pos c) /\ dr' = skipn (pos + length out) c).
    { intros out dr' E. split.
      - apply (f_equal (@length Z)) in E. rewrite skipn_length, app_length in E. lia.
      - rewrite firstn_skipn_add, E. now rewrite firstn_app_length, skipn_app_length. }
    destruct Hc as [(Hb & Hbl & HB & HG)|(b & dr & Hb & Hbl & HB & Hcc & HG)].
    - (* the buffer is gone *)
      destruct (read_s_None L z (hdr ++ c) rest Hz false (len c) fuel r (skipn pos c) n q)
        as (out & r' & dr' & R1 & R2 & R3 & R4 & R5 & R6 & _); try easy.
      { rewrite skipn_length. lia. }
      destruct R2 as (S1 & S2 & S3 & S4 & S5 & S6). destruct (Hskip _ _ R4) as (Q1 & Q2 & Q3).
      exists out, r'. split; [easy|]. split.
      { split; [lia|]. split; [congruence|]. split; [unfold len in *; lia|]. split; [congruence|]. left.
        split; [congruence|]. split; [congruence|]. split; [lia|]. now rewrite <- Q3. }
      split; [easy|]. intros [Hin|[Hlong|[Hd _]]]; [| |now rewrite (R6 (or_introl Hd))].
      2: { rewrite R6; [easy|]. right. unfold len in *. lia. }
      assert (length e = O) as E0 by lia. assert (q = 0) as Eq by (unfold len in *; lia).
      assert (len out = 0) as E1 by (pose proof (len_nonneg _ out); lia). apply len_0_nil in E1.
      rewrite E1. destruct e; [easy|discriminate].
    - destruct fuel as [|fuel]; [lia|]. rewrite read_s_S. cbv zeta. fold q. rewrite Hb.
      destruct (Z.eqb_spec q 0) as [Eq|Eq].
      { exists [], r. rewrite Nat.add_0_r. split; [easy|]. split.
        - split; [easy|]. split; [easy|]. split; [easy|]. split; [easy|]. right. exists b, dr. easy.
        - split; [easy|]. intros _. rewrite He, Eq. easy. }
      pose proof (len_nonneg _ b) as Hlb. rewrite Hbl. destruct (Z.leb_spec q (len b)) as [Hqb|Hqb].
      + (* served from the buffer *)
        unfold bio_read. replace (q <? 0) with false by lia.
        exists (firstn (Z.to_nat q) b), (with_buf r (Some (skipn (Z.to_nat q) b)) (len b - q) (r_br r + q)).
        split; [easy|].
        assert (Hfl : length (firstn (Z.to_nat q) b) = Z.to_nat q) by (rewrite firstn_length; unfold len in *; lia).
        assert (E : skipn pos c = firstn (Z.to_nat q) b ++ (skipn (Z.to_nat q) b ++ dr)).
        { now rewrite app_assoc, firstn_skipn. }
        destruct (Hskip _ _ E) as (Q1 & Q2 & Q3). split.
        { split; [lia|]. cbn [with_buf r_s r_br r_phi r_buf r_buflen]. split; [easy|]. split; [unfold len in *; lia|]. split; [easy|].
          right. exists (skipn (Z.to_nat q) b), dr. split; [easy|]. split; [rewrite len_skipn; lia|].
          split; [rewrite skipn_length; unfold len in *; lia|]. split; [congruence|]. now apply (G_same r). }
        split; [easy|]. intros _. rewrite He, Hcc, firstn_app.
        replace (Z.to_nat q - length b)%nat with O by (unfold len in *; lia). cbn [firstn]. now rewrite app_nil_r.
      + (* across the end of the buffer *)
        set (r1 := with_buf r None 0 (r_br r + len b)).
        assert (HG1 : GG r1 dr) by now apply (G_same r).
        assert (Hldr : len dr = len c - r_br r - len b) by (rewrite Hcc, len_app in Hls; unfold bytes in *; lia).
        assert (Hqs : q <= len c - r_br r) by (unfold q; destruct (Z.ltb_spec n 1); lia).
        assert (Hdense1 : b = [] -> dense L z (hdr ++ c) -> exists out r' dr',
           read_rest fuel (len c) r1 b (q - len b) = Ok (out, r') /\ same r1 r' (len out - len b) /\ GG r' dr' /\
           b ++ dr = out ++ dr' /\ out = firstn (Z.to_nat q) (b ++ dr)).
        { intros -> Hd. rewrite len_nil, Z.sub_0_r in *.
          destruct (read_rest_None L z (hdr ++ c) rest Hz false (len c) (length dr) fuel r1 dr q)
            as (out & r' & dr' & R1 & R2 & R3 & R4 & R5 & R6 & _); try easy; try lia.
          { unfold len in *. lia. }
          { unfold r1. cbn [with_buf r_br]. rewrite ?len_nil. lia. }
          exists out, r', dr'. rewrite Z.sub_0_r. split; [easy|]. split; [easy|]. split; [easy|]. split; [easy|].
          apply R6. now left. }
        assert (Hgen : exists out r' dr',
           read_rest fuel (len c) r1 b (q - len b) = Ok (out, r') /\ same r1 r' (len out - len b) /\ GG r' dr' /\
           b ++ dr = out ++ dr' /\ len b <= len out /\ (len z <= q - len b -> out = firstn (Z.to_nat q) (b ++ dr))).
        { destruct fuel as [|fuel]; [lia|]. rewrite read_rest_S.
          destruct (inflate_G L z (hdr ++ c) rest Hz false r1 dr (q - len b) HG1 ltac:(lia) ltac:(easy))
            as (o1 & r2 & dr2 & I1 & I2 & I3 & I4 & I5 & _ & I6 & _). rewrite I1. cbn [bind].
          pose proof (len_nonneg _ o1) as Hlo1.
          assert (I6' : len z <= q - len b -> b ++ o1 = firstn (Z.to_nat q) (b ++ dr)).
          { intros Hl. rewrite (I6 Hl). replace (Z.to_nat q) with (length b + Z.to_nat (q - len b))%nat by (unfold len in *; lia). now rewrite firstn_app_2. }
          destruct (_ && _) eqn:Econd.
          - destruct I2 as (S1 & S2 & S3 & S4 & S5 & S6).
            assert (r_br r2 < len c) as Hlt by lia.
            set (arg := q - len b - len (b ++ o1)).
            destruct (read_s_None L z (hdr ++ c) rest Hz false (len c) fuel r2 dr2 arg (if arg <? 1 then len c - r_br r2 else Z.min arg (len c - r_br r2)))
              as (o3 & r3 & dr3 & J1 & J2 & J3 & J4 & _ & _ & _); try easy.
            { apply (f_equal (@length Z)) in I4. rewrite app_length in I4. unfold len in *. lia. }
            { destruct (Z.ltb_spec arg 1); lia. }
            rewrite J1. cbn [bind]. exists ((b ++ o1) ++ o3), r3, dr3. split; [easy|]. split.
            { apply (same_trans r1 r2 r3 (len o1) (len o3)); [now repeat split|easy|]. rewrite !len_app. lia. }
            split; [easy|]. split; [rewrite I4, J4; now rewrite !app_assoc|]. rewrite !len_app.
            pose proof (len_nonneg _ o3). split; [lia|]. intros Hl. exfalso. specialize (I6 Hl).
            apply (f_equal len) in I6. rewrite len_firstn in I6. rewrite len_app in Econd. unfold bytes in *. lia.
          - exists (b ++ o1), r2, dr2. split; [easy|]. rewrite len_app.
            replace (len b + len o1 - len b) with (len o1) by lia. split; [easy|]. split; [easy|].
            split; [rewrite I4; now rewrite app_assoc|]. split; [lia|]. exact I6'. }
        destruct Hgen as (out & r' & dr' & J1 & J2 & J3 & J4 & J5 & J6).
        destruct J2 as (S1 & S2 & S3 & S4 & S5 & S6). rewrite <- Hcc in J4. destruct (Hskip _ _ J4) as (Q1 & Q2 & Q3).
        exists out, r'. split; [easy|]. split.
        { split; [lia|]. split; [now rewrite S4|]. split.
          { rewrite S6. unfold r1. cbn [with_buf r_br]. unfold len in *. lia. }
          split; [now rewrite S5|]. left. split; [now rewrite S2|]. split; [now rewrite S3|].
          split; [unfold len in *; lia|]. now rewrite <- Q3. }
        split; [easy|]. intros [Hin|[Hlong|[Hd Hns]]]; [exfalso; unfold len in *; lia| |].
        { rewrite J6; [now rewrite He, Hcc|]. unfold len in *. lia. }
        assert (b = []) as Eb.
        { apply len_0_nil. unfold len in *. lia. }
        destruct (Hdense1 Eb Hd) as (out2 & r2 & dr2 & D1 & _ & _ & _ & D2). rewrite D1 in J1.
        injection J1 as <- _. rewrite D2, He, Hcc. reflexivity.
  Qed.

  (** Position up to which the content comes from the buffer, when the header read gets all
      it can. *)
  Definition bufpos : nat := (length (firstn (Z.to_nat 8192) (hdr ++ c)) - length hdr)%nat.
  Definition fresh (r : reader) : Prop := N r /\ r_s r = None /\ r_phi r = false.
  Lemma fresh_init : fresh (reader_init K (z ++ rest) None).
  Proof. split; [apply N_init|easy]. Qed.
  Lemma fresh_rewind r : fresh r -> fresh (rewind r).
  Proof.
    intros ((HU & Hcws & Hcwe & Htail & Hbr & Hl & Hb) & Hs & Hphi).
    destruct (zl_start K L _ _ Hz) as (H1 & H2 & H3 & H4).
    assert (r_m r = z ++ rest) as Hm by apply HU.
    unfold rewind. rewrite Hphi, Hs. split; [|easy]. split; [|easy].
    unfold U. cbn. rewrite H3, H4. cbn. repeat split; try easy. apply reach_new.
  Qed.
  Lemma N_with_s r s phi : N r -> N (mk_reader (r_m r) (r_zip r) (r_buf r) (r_buflen r) s (r_br r) (r_cws r) (r_cwe r) (r_cbr r) phi).
  Proof. intros (HG & Hrest). split; [exact HG|exact Hrest]. Qed.
  Lemma parse_dense r fuel : tame -> len hdr <= 8192 -> N r -> (2 * length (hdr ++ c) + 8 <= fuel)%nat ->
    exists r2, parse_header_info fuel r = Ok (t, len c, r2) /\ P bufpos r2 0.
  Proof.
    intros Hd Hl HN Hf. 
    destruct (N_header_read _ fuel (N_with_s r (Some 8192) (r_phi r) HN)) as (out & r' & dr & R1 & R2 & R3 & R4 & R5); [lia|].
    specialize (R5 Hd). unfold bufpos. rewrite <- R5. eapply parse_header_ok; eauto.
    rewrite R5, firstn_length, app_length. unfold len in Hl at 1. lia.
  Qed.
  Lemma read_fresh (r r2 : reader) fuel n : r_s r = None -> parse_header_info fuel r = Ok (t, len c, r2) -> r_s r2 = Some (len c) ->
    read fuel r n = read fuel r2 n.
  Proof. intros Hs Hp Hs2. unfold read, get_s. rewrite Hs, Hs2, Hp. reflexivity. Qed.

  Lemma object_run fuel : tame -> len hdr <= 8192 -> (2 * length (hdr ++ c) + 8 <= fuel)%nat ->
    forall ops r pos, (P bufpos r pos \/ (fresh r /\ pos = O)) -> respects (dense L z (hdr ++ c)) bufpos (length z) c pos ops ->
    run_stream (read fuel) rew0 r ops = Ok (cursor c pos ops).
  Proof.
    intros Htame Hl Hf. assert (Hfc : (2 * length c + 8 <= fuel)%nat) by (rewrite app_length in Hf; lia).
    induction ops as [|[n|] ops IH]; intros r pos Hst Hresp; [easy| |].
    - destruct Hresp as [Hns Hresp]. cbn [run_stream cursor].
      assert (exists r1, P bufpos r1 pos /\ read fuel r n = read fuel r1 n) as (r1 & HP & ->).
      { destruct Hst as [HP|[(HN & Hs & _) ->]]; [now exists r|].
        destruct (parse_dense r fuel Htame Hl HN Hf) as (r2 & R1 & R2). exists r2. split; [easy|].
        eapply read_fresh; eauto. apply R2. }
      destruct (P_read bufpos r1 pos n fuel HP Hfc) as (out & r' & R1 & R2 & R3 & R4).
      specialize (R4 Hns). rewrite R1. cbn [bind]. rewrite (IH r' _ (or_introl R2)); rewrite R4; [easy|exact Hresp].
    - destruct Hresp as [HB Hresp]. cbn [run_stream cursor]. change (rew0 r) with (Ok (rewind r)). cbn [bind].
      rewrite (IH (rewind r) O); [easy| |easy]. right. split; [|easy].
      destruct Hst as [HP|[HF ->]]; [|now apply fresh_rewind].
      destruct (N_rewind _ _ _ HP HB) as [HN Hs]. split; [easy|]. split; [easy|].
      reflexivity.
  Qed.

  Lemma cut_header out dr t' : hdr ++ c = out ++ dr -> (length out < length hdr)%nat ->
    parse_loose_header out <> Ok (t', len c).
  Proof.
    intros E Hl. destruct fmt_i_nosep as [Hs Hn].
    pose proof (fmt_i_decimal (len c) (len_nonneg _ c)) as Hdec. set (ds := fmt_i (len c)) in *.
    set (u := t ++ [BYTE_SPACE] ++ ds).
    assert (Hu : hdr = u ++ [NULL_BYTE]) by (unfold loose_object_header, u; fold ds; now rewrite <- !app_assoc).
    assert (Hnu : ~ In NULL_BYTE u).
    { unfold u. rewrite !in_app_iff. intros [?|[[Hi|[]]|?]]; try easy. }
    assert (Hout : exists w, u = out ++ w).
    { rewrite Hu, <- app_assoc in E. symmetry in E. rewrite Hu, app_length in Hl. cbn [length] in Hl.
      destruct (app_split _ _ _ _ E ltac:(lia)) as (w & Ew & _). now exists w. }
    destruct Hout as (w & Ew).
    unfold parse_loose_header. unfold find. rewrite find_from_none; [|intros Hi; apply Hnu; rewrite Ew; apply in_app_iff; now left].
    assert (exists p w', slice_to out (-1) = p /\ u = p ++ w' /\ w' <> []) as (p & w' & -> & Eu & Hw').
    { unfold slice_to, norm_idx. replace (-1 <? 0) with true by lia.
      exists (firstn (Z.to_nat (Z.max 0 (-1 + len out))) out), (skipn (Z.to_nat (Z.max 0 (-1 + len out))) out ++ w).
      split; [easy|]. split; [now rewrite app_assoc, firstn_skipn|].
      intros Hnil. apply app_eq_nil in Hnil as [H1 ->]. rewrite app_nil_r in Ew. subst out.
      apply (f_equal (@length Z)) in H1. rewrite skipn_length in H1. cbn [length] in H1. unfold u in H1.
      rewrite !app_length in H1. unfold len in H1. rewrite !app_length in H1. cbn [length] in H1. lia. }
    unfold u in Eu. destruct (Nat.le_gt_cases (length p) (length t)) as [Hp|Hp].
    - symmetry in Eu. destruct (app_split _ _ _ _ Eu Hp) as (q & Et & _).
      rewrite split_none; [discriminate|]. intros Hi. apply Ht1. rewrite Et. apply in_app_iff. now left.
    - destruct (app_split _ _ _ _ Eu ltac:(lia)) as (q & -> & Eq). cbn [app] in Eq.
      destruct q as [|x q]; [rewrite app_nil_r in Hp; lia|]. cbn [app] in Eq. assert (x = BYTE_SPACE) as -> by congruence. assert (Eds : ds = q ++ w') by congruence. clear Eq.
      rewrite split_app by easy. rewrite split_none; [|intros Hi; apply Hs; rewrite Eds; apply in_app_iff; now left].
      destruct Hdec as (D1 & D2 & D3 & D4). rewrite Eds in D2. apply Forall_app in D2 as [D2a D2b].
      assert (Hdv : forall l a, Forall (fun d => 48 <= d <= 57) l -> 0 <= a -> l <> [] -> 10 * a <= dec_value a l).
      { clear. induction l as [|x l IH]; intros a Hf Ha Hl; [easy|]. inversion Hf; subst. cbn [dec_value].
        destruct l as [|y l]; [cbn; lia|]. specialize (IH (10 * a + (x - 48)) ltac:(easy) ltac:(lia) ltac:(easy)). lia. }
      assert (Happ : forall l1 l2 a, dec_value a (l1 ++ l2) = dec_value (dec_value a l1) l2).
      { clear. induction l1 as [|x l1 IH]; intros l2 a; cbn [app dec_value]; [easy|apply IH]. }
      assert (Hnn : forall l a, Forall (fun d => 48 <= d <= 57) l -> 0 <= a -> 0 <= dec_value a l).
      { clear. induction l as [|x l IH]; intros a Hf Ha; [easy|]. inversion Hf; subst. cbn [dec_value]. apply IH; [easy|lia]. }
      destruct q as [|x q]; [cbn; discriminate|].
      assert (x <> 48) as Hx.
      { intros ->. rewrite Eds in D4. cbn [app hd] in D4. specialize (D4 eq_refl). injection D4 as D4.
        apply app_eq_nil in D4 as [_ ->]. easy. }
      assert (Hd' : decimal (x :: q) (dec_value 0 (x :: q))) by (split; [easy|]; split; [easy|]; split; [easy|]; cbn [hd]; easy).
      rewrite (decimal_py_int _ _ Hd'). cbn [bind]. intros Heq0.
      assert (Heq : dec_value 0 (x :: q) = len c) by congruence. clear Heq0.
      assert (0 < dec_value 0 (x :: q)).
      { cbn [dec_value]. inversion D2a as [|? ? Hx1 Hx2]; subst. destruct q as [|y q]; [cbn [dec_value]; lia|].
        pose proof (Hdv (y :: q) (10 * 0 + (x - 48)) Hx2 ltac:(lia) ltac:(easy)). lia. }
      pose proof (Hdv w' (dec_value 0 (x :: q)) D2b ltac:(lia) Hw').
      rewrite Eds, Happ in D3. lia.
  Qed.

  Lemma new_contiguous f t' r : (2 * length (hdr ++ c) + 8 <= f)%nat ->
    reader_new K f (z ++ rest) = Ok (t', len c, r) -> t' = t /\ exists B, Z.of_nat B + len hdr <= 8192 /\ P B r 0.
  Proof.
    intros Hf Hnew. unfold reader_new in Hnew. pose proof (N_init (Some 0)) as HN.
    destruct (N_header_read _ f (N_with_s _ (Some 8192) (r_phi (reader_init K (z ++ rest) (Some 0))) HN))
      as (out & r' & dr & R1 & R2 & R3 & R4 & _); [lia|].
    destruct (Nat.le_gt_cases (length hdr) (length out)) as [Hl|Hl].
    - destruct (parse_header_ok _ f out r' dr R1 R2 R3 Hl) as (r2 & E & HP).
      rewrite E in Hnew. injection Hnew as <- <-. split; [easy|]. eexists. split; [|exact HP]. unfold len in *. lia.
    - exfalso. unfold parse_header_info in Hnew. rewrite R1 in Hnew. cbn [bind] in Hnew.
      destruct (parse_loose_header out) as [[t2 n2]| |] eqn:E; cbn [bind] in Hnew; try discriminate.
      assert (n2 = len c) as -> by congruence. now apply (cut_header out dr t2).
  Qed.
  Lemma object_reads_contiguous f : (2 * length (hdr ++ c) + 8 <= f)%nat -> forall ns B r pos, P B r pos ->
    exists outs, run_stream (read f) rew0 r (map Read ns) = Ok outs /\ contiguous c pos (map Read ns) outs.
  Proof.
    intros Hf. assert (Hfc : (2 * length c + 8 <= f)%nat) by (rewrite app_length in Hf; lia).
    induction ns as [|n ns IH]; intros B r pos HP; cbn [map run_stream].
    - now exists [].
    - destruct (P_read B r pos n f HP Hfc) as (out & r' & R1 & R2 & R3 & _).
      rewrite R1. cbn [bind]. destruct (IH _ _ _ R2) as (outs & -> & Hc). cbn [bind].
      exists (out :: outs). split; [easy|]. now split.
  Qed.
  Lemma object_reads_then f n : (2 * length (hdr ++ c) + 8 <= f)%nat -> forall ns B r pos, P B r pos ->
    exists outs o, run_stream (read f) rew0 r (map Read ns ++ [Read n]) = Ok (outs ++ [o]) /\
      contiguous c pos (map Read ns ++ [Read n]) (outs ++ [o]) /\
      let p := position pos (map Read ns) outs in
      let e := if n <? 1 then skipn p c else firstn (Z.to_nat n) (skipn p c) in
      ((length z + (B - p) <= length e)%nat -> o = e).
  Proof.
    intros Hf. assert (Hfc : (2 * length c + 8 <= f)%nat) by (rewrite app_length in Hf; lia).
    induction ns as [|m ns IH]; intros B r pos HP; cbn [map run_stream app].
    - destruct (P_read B r pos n f HP Hfc) as (out & r' & R1 & R2 & R3 & R4).
      rewrite R1. cbn [bind]. exists [], out. split; [easy|]. split; [now split|]. cbn [position]. intros Hl. apply R4. right. now left.
    - destruct (P_read B r pos m f HP Hfc) as (out & r' & R1 & R2 & R3 & _).
      rewrite R1. cbn [bind]. destruct (IH _ _ _ R2) as (outs & o & -> & Hc & He). cbn [bind].
      exists (out :: outs), o. split; [easy|]. split; [now split|exact He].
  Qed.
End ObjectReader.

(** ** The statements used by Prop_Reader.v *)
Lemma bufpos_gen (h c : bytes) : len h <= 8192 ->
  Z.to_nat (Z.min (len c) (8192 - len h)) = (length (firstn (Z.to_nat 8192) (h ++ c)) - length h)%nat.
Proof. intros Hl. rewrite firstn_length, app_length. unfold len in *. lia. Qed.
Lemma bufpos_all (h c : bytes) : len (h ++ c) <= 8192 -> Z.to_nat (Z.min (len c) (8192 - len h)) = length c.
Proof. rewrite len_app. unfold len. lia. Qed.
Section Final.
  Context {K : zlib} (L : zlib_laws K).
  Notation seek0 := (fun r : reader K => seek r 0 0).

  Lemma known_contiguous z d rest ops : zl_stream L z d -> exists outs,
    evaluates (fun f => run_stream (read f) seek0 (reader_init K (z ++ rest) (Some (len d))) ops) (Ok outs) /\
    contiguous d 0 ops outs /\ within_request ops outs.
  Proof.
    intros Hz. pose proof (H_init L z d rest Hz) as HH.
    destruct (known_run L z d rest Hz (2 * length d + 3) (Nat.le_refl _) ops _ _ HH) as (outs & r' & _ & H2 & _ & H3 & H4 & _).
    exists outs. split; [|easy]. exists (2 * length d + 3)%nat. intros f Hf.
    eapply run_stream_mono; [|exact H2]. intros s n v. now apply read_mono.
  Qed.
  Lemma known_exact z d rest ops : zl_stream L z d -> dense L z d ->
    evaluates (fun f => run_stream (read f) seek0 (reader_init K (z ++ rest) (Some (len d))) ops) (Ok (cursor d 0 ops)).
  Proof.
    intros Hz Hd. pose proof (H_init L z d rest Hz) as HH.
    exists (2 * length d + 3)%nat. intros f Hf.
    destruct (known_run L z d rest Hz f Hf ops _ _ HH) as (outs & r' & _ & H2 & _ & _ & _ & H3 & _).
    now rewrite <- (H3 Hd).
  Qed.
  Lemma known_long z d rest ops n : zl_stream L z d ->
    exists outs o, evaluates (fun f => run_stream (read f) seek0 (reader_init K (z ++ rest) (Some (len d))) (ops ++ [Read n])) (Ok (outs ++ [o])) /\
      contiguous d 0 (ops ++ [Read n]) (outs ++ [o]) /\
      let p := position 0 ops outs in
      let e := if n <? 1 then skipn p d else firstn (Z.to_nat n) (skipn p d) in
      (len z <= len e -> o = e).
  Proof.
    intros Hz. set (f0 := (2 * length d + 3)%nat).
    assert (Hgen : forall ops r pos, H L z d rest true r pos -> exists outs o,
      run_stream (read f0) seek0 r (ops ++ [Read n]) = Ok (outs ++ [o]) /\ contiguous d pos (ops ++ [Read n]) (outs ++ [o]) /\
      let p := position pos ops outs in
      let e := if n <? 1 then skipn p d else firstn (Z.to_nat n) (skipn p d) in (len z <= len e -> o = e)).
    { clear ops. induction ops as [|[m|] ops IH]; intros r pos HH; cbn [app run_stream].
      - destruct (H_read L z d rest Hz f0 r pos n HH (Nat.le_refl _)) as (out & r' & R1 & R2 & R3 & R4 & R5 & R6).
        exists [], out. rewrite R1. cbn [bind]. split; [easy|]. split; [now split|]. cbn [position]. cbv zeta in *. intros Hl. apply R5. now right.
      - destruct (H_read L z d rest Hz f0 r pos m HH (Nat.le_refl _)) as (out & r' & R1 & R2 & R3 & R4 & R5 & R6).
        rewrite R1. cbn [bind]. destruct (IH _ _ R2) as (outs & o & -> & Hc & He). cbn [bind].
        exists (out :: outs), o. split; [easy|]. split; [now split|exact He].
      - change (seek r 0 0) with (Ok (rewind r)). cbn [bind]. destruct (IH _ _ (H_rewind L z d rest Hz _ _ _ HH)) as (outs & o & -> & Hc & He). cbn [bind].
        exists ([] :: outs), o. split; [easy|]. split; [now split|exact He]. }
    destruct (Hgen ops _ 0%nat (H_init L z d rest Hz)) as (outs & o & H1 & H2). exists outs, o. split; [|exact H2].
    exists f0. intros f Hf. eapply run_stream_mono; [|exact H1]. intros s m v. now apply read_mono.
  Qed.
  Lemma cursor_app data ops1 : forall pos ops2, cursor data pos (ops1 ++ ops2) =
    cursor data pos ops1 ++ cursor data (position pos ops1 (cursor data pos ops1)) ops2.
  Proof.
    induction ops1 as [|[n|] ops1 IH]; intros pos ops2; cbn [app cursor position]; [easy| |]; now rewrite IH.
  Qed.
  Lemma known_nonempty z d rest ops n : zl_stream L z d -> dense L z d -> 1 <= n ->
    exists outs o, evaluates (fun f => run_stream (read f) seek0 (reader_init K (z ++ rest) (Some (len d))) (ops ++ [Read n]))
                     (Ok (outs ++ [o])) /\
      ((position 0 ops outs < length d)%nat -> o <> []).
  Proof.
    intros Hz Hd Hn. pose proof (known_exact z d rest (ops ++ [Read n]) Hz Hd) as H. rewrite cursor_app in H.
    cbn [cursor] in H. exists (cursor d 0 ops). eexists. split; [exact H|]. intros Hlt Hnil.
    replace (n <? 1) with false in Hnil by lia. apply (f_equal (@length Z)) in Hnil.
    rewrite firstn_length, skipn_length in Hnil. cbn [length] in Hnil. lia.
  Qed.

  Lemma known_cbr_exact z d rest pagesize ops : zl_stream L z d -> d <> [] -> 0 < pagesize ->
    exists outs r r', evaluates (fun f => run_state (read f) seek0 (reader_init K (z ++ rest) (Some (len d))) ops) (Ok (outs, r)) /\
      (position 0 ops outs = length d -> prefix (zs_tail K (r_zip r)) rest /\
       evaluates (fun f => compressed_bytes_read pagesize f r) (Ok (len z - len (zs_tail K (r_zip r)), r'))) /\
      (Forall (fun op => match op with Read n => n < 1 \/ len d <= n | Rewind => True end) ops -> zs_tail K (r_zip r) = []).
  Proof.
    intros Hz Hne Hp. pose proof (H_init L z d rest Hz) as HH.
    destruct (known_run L z d rest Hz (2 * length d + 3) (Nat.le_refl _) ops _ _ HH) as (outs & r & H1 & _ & H2 & _ & _ & _ & H3).
    exists outs, r.
    assert (Hev : evaluates (fun f => run_state (read f) seek0 (reader_init K (z ++ rest) (Some (len d))) ops) (Ok (outs, r))).
    { exists (2 * length d + 3)%nat. intros f Hf. eapply run_state_mono; [|exact H1]. intros s n v. now apply read_mono. }
    assert (Hnotail : Forall (fun op => match op with Read n => n < 1 \/ len d <= n | Rewind => True end) ops -> zs_tail K (r_zip r) = []).
    { intros Hall. apply H3; [|easy]. now destruct (zl_start K L _ _ Hz) as (_ & _ & ? & _). }
    destruct (Nat.eq_dec (position 0 ops outs) (length d)) as [E|E]; [|exists r; split; [easy|]; split; [congruence|easy]].
    rewrite E in H2.
    destruct (cbr_ok L z d rest Hz pagesize r (length z + 3) Hne Hp H2 (Nat.le_refl _)) as (Hpre & r' & Hr').
    exists r'. split; [easy|]. split; [|exact Hnotail]. intros _. split; [exact Hpre|]. exists (length z + 3)%nat. intros f Hf. exact (cbr_mono _ _ _ _ _ Hf Hr').
  Qed.
  Lemma known_cbr z d rest pagesize ops : zl_stream L z d -> d <> [] -> 0 < pagesize ->
    rest = [] \/ Forall (fun op => match op with Read n => n < 1 \/ len d <= n | Rewind => True end) ops ->
    exists outs r r', evaluates (fun f => run_state (read f) seek0 (reader_init K (z ++ rest) (Some (len d))) ops) (Ok (outs, r)) /\
      (position 0 ops outs = length d -> evaluates (fun f => compressed_bytes_read pagesize f r) (Ok (len z, r'))).
  Proof.
    intros Hz Hne Hp Hcase. destruct (known_cbr_exact z d rest pagesize ops Hz Hne Hp) as (outs & r & r' & H1 & H2 & H3).
    exists outs, r, r'. split; [exact H1|]. intros Hpos. destruct (H2 Hpos) as [(q & Hpre) H].
    assert (zs_tail K (r_zip r) = []) as Et.
    { destruct Hcase as [-> |Hall]; [|now apply H3]. symmetry in Hpre. now apply app_eq_nil in Hpre as [? _]. }
    rewrite Et, len_nil, Z.sub_0_r in H. exact H.
  Qed.

  (** The size-0 case never ends. *)
  Lemma cbr_empty z rest pagesize : zl_stream L z [] ->
    diverges (fun f => compressed_bytes_read pagesize f (reader_init K (z ++ rest) (Some 0))).
  Proof.
    intros Hz f. destruct (zl_start K L _ _ Hz) as (Hne & _ & _ & Hu).
    unfold compressed_bytes_read, get_s, reader_init. cbn [r_s bind r_br r_zip Z.eqb]. rewrite Hu.
    cbn [len length Z.of_nat Z.eqb andb]. unfold with_buf. cbn [r_m r_zip r_s r_cws r_cwe r_cbr r_phi r_buf r_buflen].
    set (r := mk_reader _ _ _ _ _ _ _ _ _ _).
    assert (Hw : forall g, while g (scrub_step pagesize f) r = Diverge).
    { induction g as [|g IH]; [easy|]. cbn [while]. unfold scrub_step at 1. unfold r at 1 2 3. cbn [r_zip r_cbr r_m].
      rewrite Hu, len_nil. change (0 =? 0) with true.
      replace (0 =? len (z ++ rest)) with false.
      2: { destruct z; [easy|]. cbn [app]. rewrite len_cons. pose proof (len_nonneg _ (z0 ++ rest)). lia. }
      cbn [negb andb]. destruct f as [|f']; [reflexivity|].
      assert (read (S f') r pagesize = Ok ([], r)) as ->.
      { unfold read, get_s, r. cbn [r_s bind]. rewrite read_s_S. cbv zeta. cbn [r_br].
        destruct (Z.ltb_spec pagesize 1); [reflexivity|]. replace (Z.min pagesize (0 - 0)) with 0 by lia. reflexivity. }
      cbn [bind]. exact IH. }
    rewrite Hw. reflexivity.
  Qed.

  Notation hdr t c := (loose_object_header t (len c)).
  Lemma object_contiguous t c z rest f t' r :
    zl_stream L z (hdr t c ++ c) -> ~ In BYTE_SPACE t -> ~ In NULL_BYTE t ->
    reader_new K f (z ++ rest) = Ok (t', len c, r) ->
    t' = t /\ forall ns, exists outs,
      evaluates (fun f => run_stream (read f) seek0 r (map Read ns)) (Ok outs) /\ contiguous c 0 (map Read ns) outs.
  Proof.
    intros Hz H1 H2 Hnew. set (f1 := Nat.max f (2 * length (hdr t c ++ c) + 8)).
    assert (Hnew1 : reader_new K f1 (z ++ rest) = Ok (t', len c, r)).
    { unfold reader_new in *. eapply parse_mono; [|exact Hnew]. lia. }
    destruct (new_contiguous L t c z rest Hz H1 H2 f1 t' r ltac:(lia) Hnew1) as (-> & B & _ & HP).
    split; [easy|]. intros ns.
    destruct (object_reads_contiguous L t c z rest Hz f1 ltac:(lia) ns B r 0 HP) as (outs & H3 & H4).
    exists outs. split; [|easy]. exists f1. intros f' Hf'. eapply run_stream_mono; [|exact H3].
    intros s n v. now apply read_mono.
  Qed.

  Lemma object_long t c z rest f t' r :
    zl_stream L z (hdr t c ++ c) -> ~ In BYTE_SPACE t -> ~ In NULL_BYTE t ->
    reader_new K f (z ++ rest) = Ok (t', len c, r) ->
    forall ns n, exists outs o,
      evaluates (fun f => run_stream (read f) seek0 r (map Read ns ++ [Read n])) (Ok (outs ++ [o])) /\
      contiguous c 0 (map Read ns ++ [Read n]) (outs ++ [o]) /\
      let p := position 0 (map Read ns) outs in
      let e := if n <? 1 then skipn p c else firstn (Z.to_nat n) (skipn p c) in
      (len z <= len e -> 8192 + len z <= len (hdr t c) + Z.of_nat p + len e -> o = e).
  Proof.
    intros Hz H1 H2 Hnew ns n. set (f1 := Nat.max f (2 * length (hdr t c ++ c) + 8)).
    assert (Hnew1 : reader_new K f1 (z ++ rest) = Ok (t', len c, r)).
    { unfold reader_new in *. eapply parse_mono; [|exact Hnew]. lia. }
    destruct (new_contiguous L t c z rest Hz H1 H2 f1 t' r ltac:(lia) Hnew1) as (-> & B & HB & HP).
    destruct (object_reads_then L t c z rest Hz f1 n ltac:(lia) ns B r 0 HP) as (outs & o & H3 & H4 & H5).
    exists outs, o. split; [|split; [easy|]].
    - exists f1. intros f' Hf'. eapply run_stream_mono; [|exact H3]. intros s m v. now apply read_mono.
    - cbv zeta in *. intros Hl1 Hl2. apply H5. unfold len in *. lia.
  Qed.

  Definition read_object (m : bytes) (f : nat) (ops : list rop) : res (bytes * Z * list bytes) :=
    let! (t, n, r) := reader_new K f m in
    let! outs := run_stream (read f) seek0 r ops in Ok (t, n, outs).
  Lemma object_exact t c z rest ops :
    zl_stream L z (hdr t c ++ c) -> ~ In BYTE_SPACE t -> ~ In NULL_BYTE t -> len (hdr t c) <= 8192 ->
    dense L z (hdr t c ++ c) \/ len z <= 8192 ->
    respects (dense L z (hdr t c ++ c)) (Z.to_nat (Z.min (len c) (8192 - len (hdr t c)))) (length z) c 0 ops ->
    evaluates (fun f => read_object (z ++ rest) f ops) (Ok (t, len c, cursor c 0 ops)).
  Proof.
    intros Hz H1 H2 Hl Hcase Hresp.
    assert (HB : Z.to_nat (Z.min (len c) (8192 - len (hdr t c))) = bufpos t c).
    { now apply bufpos_gen. }
    rewrite HB in Hresp.
    exists (2 * length (hdr t c ++ c) + 8)%nat. intros f Hf. unfold read_object, reader_new.
    destruct (parse_dense L t c z rest Hz H1 H2 _ f Hcase Hl (N_init L t c z rest Hz (Some 0)) Hf) as (r & R1 & R2).
    rewrite R1. cbn [bind]. change (fun r0 : reader K => seek r0 0 0) with (@rew0 K). rewrite (object_run L t c z rest Hz H1 H2 f Hcase Hl Hf ops r 0 (or_introl R2) Hresp). reflexivity.
  Qed.
  (** A reader whose header is parsed on first use. *)
  Lemma lazy_object_exact t c z rest ops :
    zl_stream L z (hdr t c ++ c) -> ~ In BYTE_SPACE t -> ~ In NULL_BYTE t -> len (hdr t c) <= 8192 ->
    dense L z (hdr t c ++ c) \/ len z <= 8192 ->
    respects (dense L z (hdr t c ++ c)) (Z.to_nat (Z.min (len c) (8192 - len (hdr t c)))) (length z) c 0 ops ->
    evaluates (fun f => run_stream (read f) seek0 (reader_init K (z ++ rest) None) ops) (Ok (cursor c 0 ops)).
  Proof.
    intros Hz H1 H2 Hl Hcase Hresp.
    assert (HB : Z.to_nat (Z.min (len c) (8192 - len (hdr t c))) = bufpos t c).
    { now apply bufpos_gen. }
    rewrite HB in Hresp.
    exists (2 * length (hdr t c ++ c) + 8)%nat. intros f Hf.
    exact (object_run L t c z rest Hz H1 H2 f Hcase Hl Hf ops _ 0 (or_intror (conj (fresh_init L t c z rest Hz) eq_refl)) Hresp).
  Qed.

  (** gitdb/fun.py:403-412 *)
  Lemma header_info_ok t c z rest : zl_stream L z (hdr t c ++ c) -> ~ In BYTE_SPACE t -> ~ In NULL_BYTE t ->
    len (hdr t c) <= 8192 -> loose_object_header_info K (z ++ rest) = Ok (t, len c).
  Proof.
    intros Hz H1 H2 Hl. destruct (zl_start K L _ _ Hz) as (Hne & Hat & _ & _).
    destruct (zl_step K L _ _ _ (z ++ rest) 8192 Hat Hne ltac:(lia) ltac:(right; now exists rest)) as (zr' & dr' & out & st' & Hd & used & over & Hi & Hzr & Hdr & Ho & _ & Hunf & Hfin).
    unfold loose_object_header_info. rewrite Hd. cbn [bind].
    assert (length (hdr t c) <= length out)%nat as Hlo.
    { destruct zr' as [|a zr'].
      - destruct (Hfin eq_refl) as (-> & _). rewrite app_nil_r in Hdr. rewrite <- Hdr, app_length. lia.
      - destruct (Hunf ltac:(easy)) as (_ & _ & Hov). destruct over as [|o over].
        + exfalso. rewrite app_nil_r in Hi. rewrite Hzr, <- app_assoc in Hi. apply (f_equal len) in Hi.
          rewrite !len_app, len_cons in Hi. pose proof (len_nonneg _ zr'). pose proof (len_nonneg _ rest). unfold bytes in *. lia.
        + destruct (Hov ltac:(easy)) as [E _]. unfold len in E, Hl at 1. lia. }
    now apply (parse_ok t c H1 H2 out dr').
  Qed.
End Final.
