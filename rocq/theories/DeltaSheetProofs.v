(** Proofs about DeltaApplyReader on chains of deltas with any sizes in their headers. *)
From Coq Require Import ZifyBool ZifyNat.
From Verif Require Import Py PyFacts FunModel FunSpec FunProofs DeltaModel DeltaSpec DeltaProofs
  DeltaReaderModel StreamSpec DeltaReaderProofs DeltaSheetSpec.
Ltac Zify.zify_post_hook ::= Z.div_mod_to_equations.

Section Sheets.
  Context {R : Type} (read : R -> Z -> res (bytes * R)) (content : R -> bytes) (steady : R -> Prop).
  Hypothesis HR : once_reader read content steady.

  Lemma fits_dec m base l : fits m base l \/ ~ fits m base l.
  Proof.
    induction l as [|ops l IH]; cbn [fits]; [now left|]. destruct IH as [IH|IH]; [|right; tauto].
    destruct (Z_le_gt_dec (len (ops_bytes (fst (sheets m base l)) ops)) m); [now left|right; lia].
  Qed.
  Lemma len_over new old : len new <= len old -> len (over new old) = len old.
  Proof. intros H. unfold over. rewrite len_app, len_skipn. unfold len in *. lia. Qed.
  Lemma len_blank m : 0 <= m -> len (blank m) = m.
  Proof. intros H. unfold blank. rewrite len_repeat. lia. Qed.
  Lemma sheets_len m base : 0 <= m -> len base <= m -> forall l, fits m base l ->
    len (fst (sheets m base l)) = m /\ len (snd (sheets m base l)) = m.
  Proof.
    intros Hm Hb. induction l as [|ops l IH]; cbn [sheets fits].
    - intros _. cbn [fst snd]. rewrite len_over by (rewrite len_blank; lia). now rewrite len_blank.
    - intros (H1 & H2). destruct (IH H1) as (I1 & I2). destruct (sheets m base l) as [a b]. cbn [fst snd] in *.
      rewrite len_over by lia. lia.
  Qed.

  Lemma put_over b m d : mb_ok b m -> mb_pos b = 0 -> len d <= m -> mb_data (mb_put b d) = over d (mb_data b).
  Proof.
    intros (H1 & _ & _) Hp Hl. unfold mb_put, over. cbn [mb_data]. rewrite Hp. cbn [Z.to_nat firstn app]. f_equal. f_equal. unfold len in *. lia.
  Qed.

  Definition delta_stream (p : R * Z) (d : bytes) : Prop := content (fst p) = d /\ snd p = len d /\ delta_fit content steady (fst p).

  (** A buffer with given contents, rewound *)
  Definition sheet (b : membuf) (m : Z) (x : bytes) : Prop := mb_ok b m /\ mb_data b = x.

  Lemma step_sheets i e s t dlen ops fuel b tb m a o : info_raw content steady i e s t dlen -> ops_enc ops e -> Forall (op_inside s) ops ->
    (Z.to_nat dlen < fuel)%nat -> sheet b m a -> sheet tb m o -> mb_pos tb = 0 ->
    (len (ops_bytes a ops) <= m -> exists b' t', brute_step read fuel i b tb = Ok (b', t') /\ sheet b' m (over (ops_bytes a ops) o) /\ mb_pos b' = 0 /\ sheet t' m a /\ mb_pos t' = 0) /\
    (0 < m < len (ops_bytes a ops) -> brute_step read fuel i b tb = Raise ValueError).
  Proof.
    intros Hi He Hin Hf (Hb & Hbd) (Ht & Htd) Htp. rewrite (brute_step_seq read content steady HR i e s t dlen ops) by easy. rewrite Hbd.
    split; intros Hl.
    - rewrite (mb_write_seq2 m) by (easy || (fold (ops_bytes a ops); lia)). cbn [bind]. fold (ops_bytes a ops).
      eexists _, _. split; [reflexivity|]. pose proof (mb_put_ok tb m (ops_bytes a ops) Ht ltac:(lia)) as (P1 & P2 & P3).
      pose proof (put_over tb m (ops_bytes a ops) Ht Htp Hl) as P4. rewrite Htd in P4. destruct Hb as (B1 & B2 & B3). destruct Ht as (T1 & T2 & T3).
      pose proof (len_nonneg _ (mb_data b)).
      split; [split; [split; [exact P1|split; [exact P2|cbn [mb_rewind mb_pos]; lia]]|exact P4]|]. split; [easy|].
      split; [split; [split; [exact B1|split; [exact B2|cbn [mb_rewind mb_pos]; lia]]|exact Hbd]|easy].
    - rewrite (mb_write_overflow m); [easy|lia|easy|]. fold (ops_bytes a ops). lia.
  Qed.

  Lemma loop_sheets base : forall rs ds, Forall2 delta_stream rs ds -> forall ts opss, Forall2 (fun d (p : Z * list dop) => delta_of d (fst p) (snd p)) ds (combine ts opss) -> length ts = length ds -> length opss = length ds ->
    exists infos, peek_all read rs = Ok infos /\ length infos = length ds /\ max_target infos = widest 0 ts /\ Forall (fun t => 0 <= t) ts /\
      forall m fuel, (forall d, In d ds -> (Z.to_nat (len d) < fuel)%nat) -> 0 <= m -> len base <= m ->
      forall b t fts, sheet b m (over base (blank m)) -> sheet t m (blank m) -> mb_pos t = 0 ->
        (fits m base opss -> exists b' t', brute_loop read fuel (rev infos) b t fts = Ok (b', t', hd fts ts) /\
           sheet b' m (fst (sheets m base opss)) /\ sheet t' m (snd (sheets m base opss)) /\ mb_pos t' = 0 /\ (ds <> [] -> mb_pos b' = 0)) /\
        (0 < m -> ~ fits m base opss -> brute_loop read fuel (rev infos) b t fts = Raise ValueError).
  Proof.
    induction 1 as [|[r size] d rs ds (Hr & Hsz & Hfit) _ IH]; intros ts opss Hd Hts Hops.
    - destruct ts; [|easy]. destruct opss; [|easy]. exists []. split; [easy|]. split; [easy|]. split; [easy|]. split; [constructor|].
      intros m fuel _ Hm Hbm b t fts Hb Ht Hp. cbn [rev brute_loop hd sheets fits fst snd]. split; [|tauto].
      intros _. exists b, t. now split.
    - destruct ts as [|t0 ts]; [easy|]. destruct opss as [|ops opss]; [easy|]. cbn [combine] in Hd. cbn [fst snd length] in *. revert Hr Hsz. inversion Hd as [|? ? ? ? H1 H2]; subst. clear Hd. intros Hr Hsz.
      cbn [fst snd] in H1. destruct H1 as (v1 & v2 & e & s & Hde & Hv1 & Hv2 & Hlen & He & Hin).
      destruct (peek_raw read content steady HR r v1 v2 e s t0 (eq_trans Hr Hde) Hfit Hv1 Hv2 Hlen) as (i & Hi & Hraw). subst size.
      destruct (IH ts opss H2) as (infos & Hp & Hli & Hmax & Hpos & Hrun); [lia|lia|]. cbn [peek_all]. rewrite Hde, Hi, Hp. cbn [bind].
      assert (di_tgt i = t0) as Hit by apply Hraw. pose proof (varint_nonneg _ _ Hv2).
      exists (i :: infos). split; [easy|]. split; [cbn [length]; lia|]. rewrite max_target_cons. split; [cbn [widest fold_right]; unfold widest in *; lia|].
      split; [constructor; easy|]. intros m fuel Hf Hm Hbm b t fts Hb Ht Htp. cbn [rev]. rewrite brute_loop_app.
      destruct (Hrun m fuel ltac:(intros x Hx; apply Hf; now right) Hm Hbm b t fts Hb Ht Htp) as (R1 & R2). cbn [fits sheets].
      assert (S0 : fits m base opss -> exists b1 t1, brute_loop read fuel (rev infos) b t fts = Ok (b1, t1, hd fts ts) /\
         (len (ops_bytes (fst (sheets m base opss)) ops) <= m -> exists b' t', brute_step read fuel i b1 t1 = Ok (b', t') /\
            sheet b' m (over (ops_bytes (fst (sheets m base opss)) ops) (snd (sheets m base opss))) /\ mb_pos b' = 0 /\ sheet t' m (fst (sheets m base opss)) /\ mb_pos t' = 0) /\
         (0 < m < len (ops_bytes (fst (sheets m base opss)) ops) -> brute_step read fuel i b1 t1 = Raise ValueError)).
      { intros Hfi. destruct (R1 Hfi) as (b1 & t1 & E & Sb & St & Pt & _). exists b1, t1. split; [exact E|].
        apply (step_sheets i e s t0 (len (v1 ++ v2 ++ e)) ops fuel b1 t1 m); try easy. rewrite <- Hde. apply Hf. now left. }
      split.
      + intros (F1 & F2). destruct (S0 F1) as (b1 & t1 & -> & S1 & _). destruct (S1 F2) as (b' & t' & Es & Q1 & Q2 & Q3 & Q4).
        cbn [bind brute_loop]. rewrite Es. cbn [bind hd]. exists b', t'. rewrite Hit. destruct (sheets m base opss) as [a o]. cbn [fst snd] in *.
        split; [easy|]. split; [exact Q1|]. split; [exact Q3|]. now split.
      + intros Hm0 Hn. destruct (fits_dec m base opss) as [Fi|Fi].
        * destruct (S0 Fi) as (b1 & t1 & -> & _ & S2). cbn [bind brute_loop]. rewrite S2; [easy|]. split; [easy|].
          destruct (Z_le_gt_dec (len (ops_bytes (fst (sheets m base opss)) ops)) m); [tauto|lia].
        * rewrite (R2 Hm0 Fi). easy.
  Qed.

  Lemma fold_len_in (x : bytes) l : In x l -> (length x <= fold_right (fun d a => (length d + a)%nat) 0%nat l)%nat.
  Proof. induction l as [|y l IH]; [easy|]. cbn [fold_right]. intros [->|H]; [lia|]. specialize (IH H). lia. Qed.
  Lemma widest_max n ts : Forall (fun t => 0 <= t) ts -> 0 <= n -> widest n ts = Z.max n (widest 0 ts).
  Proof. intros H Hn. unfold widest. induction H as [|t ts Ht _ IH]; cbn [fold_right]; lia. Qed.

  Lemma chain_sheets base ds ts opss rs br : Forall2 delta_stream rs ds -> content br = base -> base_fit content steady br ->
    Forall2 (fun d (p : Z * list dop) => delta_of d (fst p) (snd p)) ds (combine ts opss) -> length ts = length ds -> length opss = length ds -> (2 <= length ds)%nat ->
    let m := widest (len base) ts in
    (fits m base opss ->
     exists st, evaluates (fun f => dar_init read f rs br (len base)) (Ok st) /\ dr_size st = hd 0 ts /\
       forall rops, run_stream dar_read' dar_rewind st rops = Ok (cursor (firstn (Z.to_nat (hd 0 ts)) (fst (sheets m base opss))) 0 rops)) /\
    (0 < m -> ~ fits m base opss -> evaluates (fun f => dar_init read f rs br (len base)) (Raise ValueError)).
  Proof.
    intros Hrs Hbr Hbf Hd Hts Hops Hlen m. destruct (loop_sheets base rs ds Hrs ts opss Hd Hts Hops) as (infos & Hp & Hli & Hmax & Hpos & Hrun).
    pose proof (len_nonneg _ base). assert (Hlr : length rs = length ds) by now apply (Forall2_length _ _ _ _ _ Hrs).
    assert (Hm : Z.max (len base) (max_target infos) = m) by (subst m; rewrite (widest_max (len base)) by easy; lia).
    set (f0 := S (Z.to_nat m + fold_right (fun d a => (length d + a)%nat) 0%nat ds)).
    assert (E0 : forall f, (f0 <= f)%nat ->
      (fits m base opss -> exists t, set_cache_brute read f rs br (len base) = Ok (t, hd 0 ts) /\ sheet t m (fst (sheets m base opss)) /\ mb_pos t = 0) /\
      (0 < m -> ~ fits m base opss -> set_cache_brute read f rs br (len base) = Raise ValueError)).
    { intros f Hf. unfold set_cache_brute. rewrite Hp. cbn [bind]. cbv zeta. replace (1 <? len rs) with true by (unfold len; lia). rewrite Hm.
        destruct (load_base read content steady HR br base m f Hbr Hbf) as (b & b' & r' & n & Hb & Hc & _ & Hok & Hdata); [lia|lia|].
        destruct (allocate_ok m) as (tb & Htb & Htok & Htp & Htd); [lia|].
        rewrite Hb. cbn [bind]. rewrite Hc. cbn [bind]. replace b with tb by congruence.
        destruct (Hrun m f) with (b := b') (t := tb) (fts := 0) as (R1 & R2); try lia.
        - intros x Hx. pose proof (fold_len_in x ds Hx). unfold len. lia.
        - split; [exact Hok|]. rewrite Hdata. unfold over, blank. f_equal. rewrite skipn_repeat. f_equal. unfold len. lia.
        - now split.
        - split.
          + intros Hfi. destruct (R1 Hfi) as (b2 & t2 & -> & S1 & _ & _ & S2). cbn [bind]. exists b2. split; [easy|]. split; [easy|].
            apply S2. intros ->. cbn [length] in Hlen. lia.
          + intros H0 Hn. now rewrite (R2 H0 Hn). }
    split.
    - intros Fi. destruct (E0 f0 (le_n _)) as (E1 & _). destruct (E1 Fi) as (t & Et & (Ht1 & Ht2) & Htp). exists (mk_dar t (hd 0 ts) 0). split; [|split; [easy|]].
      + exists f0. intros f Hf. unfold dar_init, py_assert. replace (negb (len rs =? 0)) with true by (unfold len; lia).
        rewrite (set_cache_mono read f0 f) by (easy || now rewrite Et). now rewrite Et.
      + intros rops. apply dar_run_ok. destruct (sheets_len m base ltac:(lia) ltac:(lia) opss Fi) as (L1 & _).
        destruct ts as [|t0 ts]; [cbn [length] in Hts; lia|]. cbn [hd]. pose proof (Forall_inv Hpos) as Ht0. cbv beta in Ht0.
        assert (t0 <= m) by (subst m; unfold widest; cbn [fold_right]; lia).
        split; [cbn [dr_size]; rewrite len_firstn; lia|]. split; [easy|]. split; [cbn [dr_target]; lia|]. split; [lia|].
        exists (skipn (Z.to_nat t0) (fst (sheets m base opss))). cbn [dr_target]. rewrite Ht2. now rewrite firstn_skipn.
    - intros Hm0 Hn. exists f0. intros f Hf. unfold dar_init, py_assert. replace (negb (len rs =? 0)) with true by (unfold len; lia).
      destruct (E0 f Hf) as (_ & E2). now rewrite (E2 Hm0 Hn).
  Qed.

  Lemma chain_shown base br (chain : list (R * Z * list dop)) : content br = base -> base_fit content steady br ->
    Forall (fun c => delta_of (content (fst (fst c))) (snd (fst c)) (snd c) /\ delta_fit content steady (fst (fst c))) chain -> (2 <= length chain)%nat ->
    let rs := map (fun c => (fst (fst c), len (content (fst (fst c))))) chain in
    let ts := map (fun c => snd (fst c)) chain in
    let opss := map snd chain in
    let m := widest (len base) ts in
    (fits m base opss ->
     exists st, evaluates (fun f => dar_init read f rs br (len base)) (Ok st) /\ dr_size st = hd 0 ts /\
       forall rops, run_stream dar_read' dar_rewind st rops = Ok (cursor (firstn (Z.to_nat (hd 0 ts)) (fst (sheets m base opss))) 0 rops)) /\
    (0 < m -> ~ fits m base opss -> evaluates (fun f => dar_init read f rs br (len base)) (Raise ValueError)).
  Proof.
    intros Hbr Hbf Hc Hlen rs ts opss. apply (chain_sheets base (map (fun c => content (fst (fst c))) chain)); try easy; unfold rs, ts, opss.
    - clear Hlen. induction Hc as [|c chain [_ Hc] _ IH]; cbn [map]; constructor; [|exact IH]. split; [easy|]. now split.
    - clear Hlen. induction Hc as [|c chain [Hc _] _ IH]; cbn [map combine]; constructor; [exact Hc|exact IH].
    - now rewrite !map_length.
    - now rewrite !map_length.
    - now rewrite map_length.
  Qed.
End Sheets.
