(** Proofs for OldZlibModel.v: the two branches differ in the counter of compressed bytes
    only. *)
From Coq Require Import ZifyBool ZifyNat.
From Verif Require Import Py PyFacts FunModel FunSpec ZlibModel StreamSpec ReaderModel ReaderProofs PackModel PackSpec PackProofs OldZlibModel.
Ltac Zify.zify_post_hook ::= Z.div_mod_to_equations.

Section Old.
  Context {K : zlib}.
  Implicit Types r : reader K.
  (** The same reader with another count; how much of the input has been used up. *)
  Definition with_cbr r (c : Z) : reader K :=
    mk_reader (r_m r) (r_zip r) (r_buf r) (r_buflen r) (r_s r) (r_br r) (r_cws r) (r_cwe r) c (r_phi r).
  Definition fed r : Z := r_cwe r - len (zs_tail K (r_zip r)).
  Definition adjust c0 (x : res (bytes * reader K)) : res (bytes * reader K) :=
    match x with Ok (o, r) => Ok (o, with_cbr r (c0 + fed r)) | Raise e => Raise e | Diverge => Diverge end.

  Lemma inflate_old r c0 size : inflate_some_old (with_cbr r (c0 + fed r)) size = adjust c0 (inflate_some r size).
  Proof.
    unfold inflate_some_old, inflate_some, with_cbr, fed. cbn [r_m r_zip r_buf r_buflen r_s r_br r_cws r_cwe r_cbr r_phi].
    assert (fst (window (r_cws r) (r_cwe r) (zs_tail K (r_zip r)) size) = r_cwe r - len (zs_tail K (r_zip r))) as Hw.
    { unfold window. destruct (Z.eqb_spec (len (zs_tail K (r_zip r))) 0) as [E|E]; cbn [negb].
      - rewrite E. destruct (_ <? 8); cbn [fst]; lia.
      - destruct (_ <? 8); reflexivity. }
    destruct (window _ _ _ size) as [ws we]. cbn [fst] in Hw. subst ws.
    destruct (size <? 0); [reflexivity|].
    destruct (zs_decompress _ _ _ _) as [[o zip]| |]; [|reflexivity..]. cbn [bind adjust].
    unfold with_cbr, fed. cbn [r_m r_zip r_buf r_buflen r_s r_br r_cws r_cwe r_cbr r_phi].
    do 3 f_equal. lia.
  Qed.
  Lemma read_both f : (forall s r c0 size, read_s_old f s (with_cbr r (c0 + fed r)) size = adjust c0 (read_s f s r size)) /\
    (forall s r c0 dat size, read_rest_old f s (with_cbr r (c0 + fed r)) dat size = adjust c0 (read_rest f s r dat size)).
  Proof.
    induction f as [|f [IH1 IH2]]; [split; reflexivity|]. split.
    - intros s r c0 size. rewrite read_s_S. cbn [read_s_old]. cbv zeta.
      change (r_br (with_cbr r (c0 + fed r))) with (r_br r). change (r_buf (with_cbr r (c0 + fed r))) with (r_buf r).
      change (r_buflen (with_cbr r (c0 + fed r))) with (r_buflen r).
      destruct (_ =? 0); [reflexivity|]. destruct (r_buf r) as [b|]; [|apply IH2].
      destruct (_ <=? r_buflen r).
      + destruct (bio_read _ _). reflexivity.
      + apply (IH2 s (with_buf r None 0 (r_br r + r_buflen r))).
    - intros s r c0 dat size. rewrite read_rest_S. cbn [read_rest_old]. rewrite inflate_old.
      destruct (inflate_some r size) as [[o r1]| |]; [|reflexivity..]. cbn [adjust bind].
      change (r_br (with_cbr r1 (c0 + fed r1))) with (r_br r1).
      destruct (_ && _); [|reflexivity]. rewrite IH1.
      destruct (read_s f s r1 _) as [[m r2]| |]; reflexivity.
  Qed.
  Definition adjust3 {A} c0 (x : res (A * reader K)) : res (A * reader K) :=
    match x with Ok (o, r) => Ok (o, with_cbr r (c0 + fed r)) | Raise e => Raise e | Diverge => Diverge end.
  Lemma header_old f r c0 : parse_header_info_old f (with_cbr r (c0 + fed r)) = adjust3 c0 (parse_header_info f r).
  Proof.
    unfold parse_header_info_old, parse_header_info.
    set (r1 := mk_reader (r_m r) (r_zip r) (r_buf r) (r_buflen r) (Some 8192) (r_br r) (r_cws r) (r_cwe r) (r_cbr r) (r_phi r)).
    change (mk_reader (r_m (with_cbr r (c0 + fed r))) _ _ _ _ _ _ _ _ _) with (with_cbr r1 (c0 + fed r1)).
    rewrite (proj1 (read_both f)). destruct (read_s f 8192 r1 8192) as [[h r2]| |]; [|reflexivity..]. cbn [adjust bind].
    destruct (parse_loose_header h) as [[t s]| |]; reflexivity.
  Qed.
  Lemma get_s_same f r c0 : get_s_old f (with_cbr r (c0 + fed r)) = adjust3 c0 (get_s f r).
  Proof.
    unfold get_s_old, get_s. change (r_s (with_cbr r (c0 + fed r))) with (r_s r).
    destruct (r_s r); [reflexivity|]. rewrite header_old. destruct (parse_header_info f r) as [[[t s] r1]| |]; reflexivity.
  Qed.
  Lemma read_same f r c0 n : read_old f (with_cbr r (c0 + fed r)) n = adjust c0 (read f r n).
  Proof.
    unfold read_old, read. rewrite get_s_same. destruct (get_s f r) as [[s r1]| |]; [|reflexivity..].
    cbn [adjust3 bind]. apply read_both.
  Qed.

  Notation seek0 := (fun r : reader K => seek r 0 0).
  (** Any count to start with; the outputs, and errors, are the same. *)
  Lemma with_cbr_any r c : exists c0, with_cbr r c = with_cbr r (c0 + fed r).
  Proof. exists (c - fed r). f_equal. lia. Qed.
  Lemma stream_same f ops : forall r c, run_stream (read_old f) seek0 (with_cbr r c) ops = run_stream (read f) seek0 r ops.
  Proof.
    induction ops as [|[n|] ops IH]; intros r c; cbn [run_stream]; [reflexivity| |].
    - destruct (with_cbr_any r c) as [c0 ->]. rewrite read_same.
      destruct (read f r n) as [[o r1]| |]; [|reflexivity..]. cbn [adjust bind]. now rewrite IH.
    - change (seek (with_cbr r c) 0 0) with (Ok (with_cbr (rewind r) 0)). change (seek r 0 0) with (Ok (rewind r)).
      cbn [bind]. now rewrite IH.
  Qed.
  Lemma new_same f m : match reader_new_old f m, reader_new K f m with
    | Ok (t, s, r), Ok (t', s', r') => t = t' /\ s = s' /\ exists c, r = with_cbr r' c
    | Raise e, Raise e' => e = e'
    | Diverge, Diverge => True
    | _, _ => False
    end.
  Proof.
    unfold reader_new_old, reader_new. destruct (with_cbr_any (reader_init K m (Some 0)) 0) as [c0 E].
    change (reader_init K m (Some 0)) with (with_cbr (reader_init K m (Some 0)) 0) at 1. rewrite E, header_old.
    destruct (parse_header_info f _) as [[[t s] r]| |]; cbn [adjust3]; eauto.
  Qed.

  Context (Hnew : zs_tail K (zs_new K) = []).
  Lemma state_same f ops : forall r, run_state (read_old f) seek0 (with_cbr r (fed r)) ops =
    match run_state (read f) seek0 r ops with Ok (l, r') => Ok (l, with_cbr r' (fed r')) | Raise e => Raise e | Diverge => Diverge end.
  Proof.
    induction ops as [|[n|] ops IH]; intros r; cbn [run_state]; [reflexivity| |].
    - rewrite <- (Z.add_0_l (fed r)), read_same.
      destruct (read f r n) as [[o r1]| |]; [|reflexivity..]. cbn [adjust bind]. rewrite Z.add_0_l, IH.
      destruct (run_state _ _ r1 ops) as [[l r2]| |]; reflexivity.
    - change (seek r 0 0) with (Ok (rewind r)).
      replace (seek (with_cbr r (fed r)) 0 0) with (Ok (with_cbr (rewind r) (fed (rewind r)))).
      + cbn [bind]. rewrite IH. destruct (run_state _ _ (rewind r) ops) as [[l r2]| |]; reflexivity.
      + unfold fed. cbn [rewind r_cwe r_zip]. rewrite Hnew. reflexivity.
  Qed.
End Old.

Section OldCount.
  Context {K : zlib} (L : zlib_laws K) (z d rest : bytes) (Hz : zl_stream L z d).
  Notation reader := (reader K).
  Notation tail r := (zs_tail K (r_zip r)).
  Notation unused r := (zs_unused K (r_zip r)).
  Notation SC := (SC L z d rest).

  Lemma scrub_read_old pagesize inner (r r' : reader) : d <> [] -> 0 < pagesize -> r_buf r = None -> r_s r = Some (len d) -> r_br r = 0 ->
    (forall size, 0 < size -> size = Z.min pagesize (len d) -> inflate_some r size = Ok ([], r')) ->
    read_old (S (S inner)) (with_cbr r (fed r)) pagesize = Ok ([], with_cbr r' (fed r')).
  Proof.
    intros Hd Hp Hb Hs Hbr Hi. rewrite <- (Z.add_0_l (fed r)), read_same.
    rewrite (scrub_read L z d Hz inner r pagesize [] r' Hd Hp Hb Hs Hbr Hi eq_refl). cbn [adjust]. now rewrite Z.add_0_l.
  Qed.
  Lemma scrub_old pagesize inner : d <> [] -> 0 < pagesize -> (2 <= inner)%nat -> forall k fuel r, SC r k -> (k + 1 <= fuel)%nat ->
    exists r', while fuel (scrub_step_old pagesize inner) (with_cbr r (fed r)) = Ok (with_cbr r' (fed r')) /\
      r_s r' = Some (len d) /\ fed r' = len z + len (unused r') /\ prefix (unused r') rest /\ (rest <> [] -> unused r' <> []).
  Proof.
    intros Hd Hp Hi. destruct inner as [|[|inner]]; try lia.
    assert (Hexit : forall fuel r, r_s r = Some (len d) -> unused r <> [] -> fed r = len z + len (unused r) -> prefix (unused r) rest -> (1 <= fuel)%nat ->
      exists r', while fuel (scrub_step_old pagesize (S (S inner))) (with_cbr r (fed r)) = Ok (with_cbr r' (fed r')) /\
      r_s r' = Some (len d) /\ fed r' = len z + len (unused r') /\ prefix (unused r') rest /\ (rest <> [] -> unused r' <> [])).
    { intros fuel r Hs Hu Hfe Hpr Hf. destruct fuel as [|fuel]; [lia|]. cbn [while]. unfold scrub_step_old.
      exists r. replace (len (zs_unused K (r_zip (with_cbr r (fed r)))) =? 0) with false; [easy|].
      cbn [with_cbr r_zip]. destruct (unused r) as [|x u]; [easy|]. rewrite len_cons. pose proof (len_nonneg _ u). lia. }
    assert (0 < len d) as Hld by (destruct d; [easy|]; rewrite len_cons; pose proof (len_nonneg _ b); lia).
    set (size := Z.min pagesize (len d)). assert (0 < size) as Hsz by (unfold size; lia).
    induction k as [|k IH]; intros fuel r (Hm & Hb & Hs & Hbr & Ht & Hcase) Hf.
    - exfalso. destruct Hcase as [(? & ? & _ & Hk)|(_ & _ & _ & _ & Hk)]; lia.
    - destruct fuel as [|fuel]; [lia|]. cbn [while]. unfold scrub_step_old at 1.
      cbn [with_cbr r_zip r_cbr r_m]. fold (with_cbr r (fed r)).
      destruct Hcase as [(pre & zr & HU & Hk)|(HF & Hu & Hcbr & Hcwe & Hk)].
      + pose proof HU as (_ & Hz' & Hne & _ & Hcwe & Hun & Hcbr & _).
        rewrite Hun, len_nil, Hm. unfold fed at 1. rewrite Hcwe.
        replace (len (z ++ rest)) with (len pre + len zr + len rest) by (rewrite Hz', !len_app; lia).
        assert (0 < len zr) as Hlz by (destruct zr; [easy|rewrite len_cons; pose proof (len_nonneg _ zr); lia]).
        pose proof (len_nonneg _ rest) as Hlr. replace (0 =? 0) with true by lia.
        replace (len pre =? len pre + len zr + len rest) with false by lia. cbn [negb andb].
        destruct (inflate_step L z d rest Hz _ _ _ _ _ HU Hsz) as (out & r' & used & over & zr' & dr' & H1 & H2 & H3 & H4 & H5 & H6 & H7 & H8 & _).
        symmetry in H4. apply app_eq_nil in H4 as [-> ->]. specialize (H8 eq_refl).
        rewrite (scrub_read_old pagesize inner r r'); try easy; [|intros s Hs0 ->; exact H1]. cbn [bind].
        destruct H2 as (M & S2 & S3 & S4 & S5 & S6). rewrite len_nil in S6.
        destruct zr' as [|a zr'].
        * destruct (H7 eq_refl) as (_ & HF & (F1 & F2 & _ & _ & F5 & _ & F6) & Ht'). rewrite Ht in Ht'.
          rewrite Ht', len_nil, Z.sub_0_r in F1. destruct (unused r') eqn:Eu.
          -- destruct (F2 eq_refl) as [_ F3]. apply IH; [|lia].
             split; [congruence|]. split; [congruence|]. split; [congruence|]. split; [lia|]. split; [easy|].
             right. repeat (split; [easy|]). rewrite H3, app_nil_r in Hk. destruct used; [easy|cbn in Hk; lia].
          -- apply Hexit; [congruence|congruence| |rewrite Eu; exact F6|lia]. unfold fed. rewrite Ht', Eu, len_nil. lia.
        * destruct (H6 ltac:(easy)) as (HU' & Hto & Ho). apply IH; [|lia].
          split; [congruence|]. split; [congruence|]. split; [congruence|]. split; [lia|]. split.
          { destruct over; [easy|]. specialize (Ho ltac:(easy)). rewrite len_nil in Ho. lia. }
          left. exists (pre ++ used), (a :: zr'). split; [easy|]. rewrite H3, app_length in Hk. destruct used; [easy|cbn [length] in *; lia].
      + rewrite Hu, len_nil, Hm, len_app. unfold fed at 1. rewrite Ht, len_nil, Hcwe, Z.sub_0_r.
        replace (0 =? 0) with true by lia. cbn [andb].
        destruct (Z.eqb_spec (len z) (len z + len rest)) as [E|E]; cbn [negb].
        * exists r. split; [easy|]. split; [easy|]. unfold fed. rewrite Ht, Hu, len_nil, Hcwe. split; [lia|].
          split; [now exists rest|]. intros Hr. destruct rest; [easy|]. rewrite len_cons in E. pose proof (len_nonneg _ b). lia.
        * destruct (inflate_done L z rest _ _ HF Hsz) as (r' & H1 & H2 & H3 & Hc & H4 & H5).
          rewrite (scrub_read_old pagesize inner r r'); try easy; [|intros s Hs0 ->; exact H1]. cbn [bind].
          destruct (H5 Ht) as (Ht' & _). rewrite Hu in H4. cbn [app] in H4. rewrite <- H4 in Hc.
          rewrite Ht, len_nil, Hcwe, Z.sub_0_r in Hc.
          destruct (window_ok (r_cws r) (r_cwe r) (tail r) size Hsz) as (we & Ew & Hwe).
          rewrite Ew in H4. cbn [fst snd] in H4. rewrite Ht, len_nil, Hcwe, Z.sub_0_r in *. rewrite Hm in H4.
          destruct (slice_window z rest we Hwe) as (kk & Esl & Hkk & _). rewrite Esl in H4.
          apply Hexit; [| | | |lia].
          { destruct H2 as (_ & _ & _ & -> & _). easy. }
          { rewrite H4. destruct rest; [rewrite len_nil in E; lia|]. destruct kk; [lia|]. easy. }
          { unfold fed. rewrite Ht', len_nil, Hc. lia. }
          { rewrite H4. exists (skipn kk rest). now rewrite firstn_skipn. }
  Qed.

  (** The result is the length of the stream and of what follows it in the last window, or
      the length of the stream if that is in unconsumed_tail as well. *)
  Lemma cbr_old pagesize r fuel : d <> [] -> 0 < pagesize -> H L z d rest true r (length d) -> (length z + 3 <= fuel)%nat ->
    exists u r', compressed_bytes_read_old pagesize fuel (with_cbr r (fed r)) = Ok (len z + len u, r') /\
      prefix u rest /\ (rest <> [] -> tail r = [] -> u <> []) /\ (tail r <> [] -> u = []).
  Proof.
    intros Hd Hp (HG & _ & Hbuf & Hs & Hbr & Hphi) Hf. rewrite skipn_all in HG.
    unfold compressed_bytes_read_old, get_s_old. change (r_s (with_cbr r (fed r))) with (r_s r). rewrite Hs. cbn [bind].
    change (r_br (with_cbr r (fed r))) with (r_br r). change (r_zip (with_cbr r (fed r))) with (r_zip r).
    replace (r_br r =? len d) with true by (unfold len; lia). cbn [andb].
    change (with_buf (with_cbr r (fed r)) (r_buf (with_cbr r (fed r))) (r_buflen (with_cbr r (fed r))) 0) with
      (with_cbr (with_buf r (r_buf r) (r_buflen r) 0) (fed (with_buf r (r_buf r) (r_buflen r) 0))).
    assert (Hscrub : tail r = [] -> SC (with_buf r (r_buf r) (r_buflen r) 0) (length z + 1) ->
      exists u r', (let! r0 := while fuel (scrub_step_old pagesize fuel) (with_cbr (with_buf r (r_buf r) (r_buflen r) 0) (fed (with_buf r (r_buf r) (r_buflen r) 0))) in
            let! (s, r1) := match r_s r0 with
                            | Some s => Ok (s, r0)
                            | None => let! (_, s, r1) := parse_header_info_old fuel r0 in Ok (s, r1)
                            end in Ok (r_cbr r1, with_buf r1 (r_buf r1) (r_buflen r1) s)) = Ok (len z + len u, r') /\
      prefix u rest /\ (rest <> [] -> tail r = [] -> u <> []) /\ (tail r <> [] -> u = [])).
    { intros Ht0 HSC.
      destruct (scrub_old pagesize fuel Hd Hp ltac:(lia) _ fuel _ HSC ltac:(lia)) as (r' & -> & Hs' & Hfe & Hpr & Hne).
      cbn [bind]. change (r_s (with_cbr r' (fed r'))) with (r_s r'). rewrite Hs'. cbn [bind]. change (r_cbr (with_cbr r' (fed r'))) with (fed r'). rewrite Hfe. eexists (unused r'), _.
      split; [reflexivity|]. split; [exact Hpr|]. split; [auto|congruence]. }
    destruct HG as [(pre & zr & HU)|(HF & HF27 & _)].
    - pose proof HU as (Hm & Hz' & Hne & _ & _ & Hu & _ & Ht' & _).
      assert (tail r = []) as Ht0 by (destruct (tail r); [easy|exfalso; now apply Ht']).
      rewrite Hu. cbn [len length Z.of_nat Z.eqb]. apply Hscrub; [easy|].
      split; [easy|]. split; [easy|]. split; [easy|]. split; [easy|]. split; [easy|].
      left. exists pre, zr. split; [exact HU|]. rewrite Hz', app_length. lia.
    - destruct (HF27 eq_refl) as (F1 & F2 & F3 & F4 & F5 & F6 & F7).
      destruct (unused r) eqn:Eu.
      + destruct (F2 eq_refl) as [Ht0 Hcwe]. cbn [len length Z.of_nat Z.eqb]. apply Hscrub; [easy|]. pose proof HF as (Hm & _).
        split; [easy|]. split; [easy|]. split; [easy|]. split; [easy|]. split; [easy|]. right.
        split; [exact HF|]. split; [easy|]. split; [cbn [with_buf r_cbr]; rewrite F1, Ht0, len_nil; lia|]. split; [easy|lia].
      + rewrite len_cons. pose proof (len_nonneg _ b). replace (len b + 1 =? 0) with false by lia. change (r_cbr (with_cbr r (fed r))) with (fed r).
        unfold fed at 1. rewrite F5. destruct F6 as [E|E]; rewrite E.
        * exists (z0 :: b). eexists. split; [rewrite len_nil, Z.sub_0_r; reflexivity|]. easy.
        * exists []. eexists. split; [rewrite len_nil; do 2 f_equal; lia|]. split; [now exists rest|]. easy.
  Qed.
End OldCount.

Section OldTop.
  Context {K : zlib}.
  Implicit Types r : reader K.
  Lemma as_with_cbr r : r = with_cbr r ((r_cbr r - fed r) + fed r).
  Proof. destruct r. unfold with_cbr. cbn. f_equal. lia. Qed.
  Lemma read_old_mono f f' r n v : (f <= f')%nat -> read_old f r n = Ok v -> read_old f' r n = Ok v.
  Proof.
    intros Hf. rewrite (as_with_cbr r), !read_same. destruct (read f r n) as [x| |] eqn:E; [|discriminate..].
    now rewrite (read_mono _ _ _ _ _ Hf E).
  Qed.
  Lemma get_s_old_mono f f' r v : (f <= f')%nat -> get_s_old f r = Ok v -> get_s_old f' r = Ok v.
  Proof.
    intros Hf. rewrite (as_with_cbr r), !get_s_same. destruct (get_s f r) as [x| |] eqn:E; [|discriminate..].
    now rewrite (get_s_mono _ _ _ _ Hf E).
  Qed.
  Lemma cbr_old_mono pagesize f f' r v : (f <= f')%nat ->
    compressed_bytes_read_old pagesize f r = Ok v -> compressed_bytes_read_old pagesize f' r = Ok v.
  Proof.
    unfold compressed_bytes_read_old. intros Hf H. apply bind_ok_inv in H as ([s r1] & H1 & H2).
    rewrite (get_s_old_mono _ _ _ _ Hf H1). cbn [bind].
    destruct (_ && _); [|exact H2]. apply bind_ok_inv in H2 as (r2 & H2 & H3).
    erewrite while_mono2; [|clear H2|exact Hf|exact H2].
    - cbn [bind]. apply bind_ok_inv in H3 as ([s3 r3] & H3 & H4). rewrite (get_s_old_mono _ _ _ _ Hf H3). exact H4.
    - intros s0 v0. unfold scrub_step_old. destruct (_ && _); [|easy]. intros H.
      apply bind_ok_inv in H as ([o r4] & H & H5). rewrite (read_old_mono _ _ _ _ _ Hf H). exact H5.
  Qed.
  Notation seek0 := (fun r : reader K => seek r 0 0).
  Lemma known_cbr_old (L : zlib_laws K) z d rest pagesize ops : zl_stream L z d -> d <> [] -> 0 < pagesize ->
    exists outs r, evaluates (fun f => run_state (read_old f) seek0 (reader_init K (z ++ rest) (Some (len d))) ops) (Ok (outs, r)) /\
      (position 0 ops outs = length d -> exists u r',
       evaluates (fun f => compressed_bytes_read_old pagesize f r) (Ok (len z + len u, r')) /\ prefix u rest /\
       (rest <> [] -> zs_tail K (r_zip r) = [] -> u <> []) /\ (zs_tail K (r_zip r) <> [] -> u = [])) /\
      (Forall (fun op => match op with Read n => n < 1 \/ len d <= n | Rewind => True end) ops -> zs_tail K (r_zip r) = []).
  Proof.
    intros Hz Hne Hp. pose proof (H_init L z d rest Hz) as HH.
    destruct (zl_start K L _ _ Hz) as (_ & _ & Hnew & _).
    destruct (known_run L z d rest Hz (2 * length d + 3) (Nat.le_refl _) ops _ _ HH) as (outs & r & H1 & _ & H2 & _ & _ & _ & H3).
    exists outs, (with_cbr r (fed r)). split; [|split].
    - exists (2 * length d + 3)%nat. intros f Hf.
      replace (reader_init K (z ++ rest) (Some (len d))) with
        (with_cbr (reader_init K (z ++ rest) (Some (len d))) (fed (reader_init K (z ++ rest) (Some (len d))))) at 1
        by (unfold fed; cbn [reader_init r_cwe r_zip]; rewrite Hnew; reflexivity).
      rewrite (state_same Hnew). erewrite run_state_mono; [| |exact H1]; [reflexivity|]. intros s n v. now apply read_mono.
    - intros E. rewrite E in H2.
      destruct (cbr_old L z d rest Hz pagesize r (length z + 3) Hne Hp H2 (Nat.le_refl _)) as (u & r' & Hr & Hu).
      exists u, r'. split; [|exact Hu]. exists (length z + 3)%nat. intros f Hf. exact (cbr_old_mono _ _ _ _ _ Hf Hr).
    - intros Hall. cbn [with_cbr r_zip]. apply H3; [exact Hnew|exact Hall].
  Qed.
  Lemma read_then_cbr_old r pagesize ops f0 v :
    (let! (outs, r) := run_state (read_old f0) seek0 r ops in
     let! (n, _) := compressed_bytes_read_old pagesize f0 r in Ok (outs, n)) = Ok v ->
    evaluates (fun f => let! (outs, r) := run_state (read_old f) seek0 r ops in
     let! (n, _) := compressed_bytes_read_old pagesize f r in Ok (outs, n)) (Ok v).
  Proof.
    intros H. exists f0. intros f Hf. apply bind_ok_inv in H as ([outs r1] & H1 & H2).
    erewrite run_state_mono; [| |exact H1]; [|intros s n w; now apply read_old_mono]. cbn [bind].
    apply bind_ok_inv in H2 as ([n r2] & H2 & H3). now rewrite (cbr_old_mono _ _ _ _ _ Hf H2).
  Qed.
End OldTop.

(** ** Walking a pack *)
Section OldWalk.
  Context {K : zlib} (L : zlib_laws K) (sha1 : bytes -> bytes) (Hsha : forall d, len (sha1 d) = 20) (pagesize : Z) (Hps : 0 < pagesize).
  Lemma iter_step_old_offset fuel data off o next : iter_step_old (K := K) pagesize fuel data off = Ok (o, next) -> po_offset o = off.
  Proof.
    unfold iter_step_old. intros H. apply bind_ok_inv in H as ([n o'] & H1 & H). apply bind_ok_inv in H as ([[w r] u] & _ & H).
    unfold py_assert in H. destruct (_ =? _); [|discriminate]. apply bind_ok_inv in H as ([n' r'] & _ & H). apply bind_ok_inv in H as (r'' & _ & H). injection H as <- _. cbn [po_offset].
    unfold pack_object_at in H1. apply bind_ok_inv in H1 as (x & _ & H1). apply bind_ok_inv in H1 as ([[t us] k] & _ & H1). apply bind_ok_inv in H1 as ([kd dl] & _ & H1). injection H1 as _ <-. reflexivity.
  Qed.
  Lemma iter_step_old_next e hdr z pre post fuel : entry_bytes L e hdr z -> pack_entry_readable L pagesize e -> post <> [] ->
    (2 * length (pn_data e) + length z + 6 <= fuel)%nat ->
    exists o next, iter_step_old (K := K) pagesize fuel (pre ++ hdr ++ z ++ post) (len pre) = Ok (o, next) /\ len pre + len hdr + len z < next.
  Proof.
    intros He (Hw & Hne & Hc) Hpost Hf. destruct (entry_fields L _ _ _ He) as (Hz & Ez & Hl & _). rewrite Ez in Hw. unfold iter_step_old.
    rewrite (pack_object_at_bytes L _ _ _ _ _ He). cbn [bind po_stream po_size po_offset po_type_id po_delta].
    set (d := pn_data e) in *.
    destruct (read_whole L z d post (len d) fuel Hz Hw ltac:(right; lia) ltac:(lia)) as (r' & R1 & R2 & R3).
    destruct (zl_start K L _ _ Hz) as (_ & _ & Hnew & _).
    assert (R1' : read_old fuel (reader_init K (z ++ post) (Some (len d))) (len d) = Ok (d, with_cbr r' (fed r'))).
    { replace (reader_init K (z ++ post) (Some (len d))) with (with_cbr (reader_init K (z ++ post) (Some (len d))) (0 + fed (reader_init K (z ++ post) (Some (len d)))))
        by (unfold fed; cbn [reader_init r_cwe r_zip]; rewrite Hnew; reflexivity).
      rewrite read_same, R1. cbn [adjust]. now rewrite Z.add_0_l. }
    unfold stream_copy. destruct fuel as [|fuel]; [lia|]. cbn [stream_copy_loop].
    rewrite Z.sub_0_r, Z.min_r by exact Hc. rewrite R1'. cbn [bind]. unfold null_write at 1. cbn [bind].
    rewrite Z.add_0_l, Z.ltb_irrefl, Z.eqb_refl. cbn [orb bind].
    assert (Hbr : r_br (with_cbr r' (fed r')) = len d) by apply R2. unfold py_assert. rewrite Hbr, Z.eqb_refl.
    destruct (cbr_old L z d post Hz pagesize r' (S fuel) Hne Hps R2 ltac:(lia)) as (u & r2 & -> & _ & Hu & _). cbn [bind].
    change (seek r2 0 0) with (Ok (rewind r2)). cbn [bind]. eexists _, _. split; [reflexivity|].
    specialize (Hu Hpost R3). destruct u as [|x u]; [easy|]. rewrite len_cons. pose proof (len_nonneg _ u). lia.
  Qed.
  Lemma iter_old e e2 es pack : pack_file L sha1 ((12, e) :: e2 :: es) pack -> pack_entry_readable L pagesize e ->
    forall os, evaluates (fun f => stream_iter_old (K := K) pagesize f pack 0) (Ok os) -> ~ Forall2 yields ((12, e) :: e2 :: es) os.
  Proof.
    intros (body & fin & Hes & _ & ->) Hd os (f0 & H) HF. inversion Hes as [|off e' hdr z es' b fin' Hb Hrest]; subst.
    set (h := pack_head (len ((12, e) :: e2 :: es))) in *. assert (Hh : len h = 12) by reflexivity. destruct (entry_fields L _ _ _ Hb) as (Hz & Ez & Hl & _). pose proof (len_nonneg _ z). pose proof (len_nonneg _ b).
    specialize (H (S (S (f0 + (2 * length (pn_data e) + length z + 6)))) ltac:(lia)).
    set (f := (f0 + (2 * length (pn_data e) + length z + 6))%nat) in *. assert (Hf : (2 * length (pn_data e) + length z + 6 <= S (S f))%nat) by (unfold f; lia). clearbody f.
    unfold stream_iter_old, footer_size, first_object_offset in H. cbn [Z.eqb] in H. set (tr := sha1 (h ++ hdr ++ z ++ b)) in *. assert (Htr : len tr = 20) by apply Hsha.
    replace ((h ++ hdr ++ z ++ b) ++ tr) with (h ++ hdr ++ z ++ (b ++ tr)) in H by now rewrite <- !app_assoc.
    assert (Hsz : len (h ++ hdr ++ z ++ b ++ tr) - 20 = 12 + len hdr + len z + len b) by (rewrite !len_app, Hh, Htr; lia). rewrite Hsz in H.
    destruct (iter_step_old_next e hdr z h (b ++ tr) (S (S f)) Hb Hd) as (o & n & E & Hn); [|exact Hf|].
    { intros E. apply app_eq_nil in E as [_ E]. rewrite E in Htr. discriminate. }
    remember (S (S f)) as g eqn:Eg in H at 2. remember (S f) as g' eqn:Eg'. cbn [iter_loop_old] in H. replace (12 <? _) with true in H by lia.
    rewrite Hh in E, Hn. rewrite Eg in H. rewrite E in H. cbn [bind] in H. apply bind_ok_inv in H as (l & G2 & H). injection H as <-.
    assert (HF2 : Forall2 yields (e2 :: es) l) by (now inversion HF). subst g'. cbn [iter_loop_old] in G2.
    destruct (n <? _); [|injection G2 as <-; inversion HF2]. apply bind_ok_inv in G2 as ([o2 n2] & G2 & G3). apply bind_ok_inv in G3 as (l2 & _ & G3). injection G3 as <-.
    apply iter_step_old_offset in G2. clear - HF2 Hrest G2 Hn. destruct e2 as [a e2].
    assert (Ho : po_offset o2 = a) by (inversion HF2 as [|? ? ? ? Hy]; now destruct Hy). assert (a = 12 + len hdr + len z) by (now inversion Hrest). lia.
  Qed.
End OldWalk.
