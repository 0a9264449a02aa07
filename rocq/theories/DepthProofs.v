(** How deep the calls of read nest. *)
From Coq Require Import ZifyBool ZifyNat.
From Verif Require Import Py PyFacts FunModel FunSpec ZlibModel ZlibProofs ReaderModel StreamSpec ReaderProofs StopSpec StopProofs DepthModel DepthSpec.
Ltac Zify.zify_post_hook ::= Z.div_mod_to_equations.

Lemma nested_read {K} : forall d s (r : reader K) size, read_s (2 * d) s r size <> Diverge -> read_nested d s r size = read_s (2 * d) s r size.
Proof.
  induction d as [|d IH]; intros s r size; [now intros H|]. replace (2 * S d)%nat with (S (S (2 * d))) by lia. intros H.
  rewrite read_s_S in H |- *. cbn [read_nested]. cbv zeta in *. destruct (_ =? 0); [easy|].
  destruct (r_buf r) as [b|].
  1: destruct (_ <=? _); [easy|].
  all: rewrite read_rest_S in H |- *; destruct (inflate_some _ _) as [[out r1]| |]; cbn [bind] in *; [|easy|easy].
  all: destruct (_ && _ && _); [|easy]; rewrite IH; [easy|]; intros E; now rewrite E in H.
Qed.
(** Whenever the limit is not the reason, the limit changes nothing. *)
Definition settled {A} (r : nat -> res A) (d : nat) : Prop := exists v, v <> Diverge /\ forall f, (d <= f)%nat -> r f = v.
Lemma settled_nested {K} d s (r : reader K) size : settled (fun f => read_s f s r size) (2 * d) ->
  forall f, (2 * d <= f)%nat -> read_s f s r size = read_nested d s r size.
Proof. intros (v & H1 & H2) f Hf. rewrite nested_read by (rewrite H2 by lia; exact H1). now rewrite !H2 by lia. Qed.

Section Any.
  Context (K : zlib) (ok : zs K -> Prop) (HK : inflater K ok).
  Notation reader := (reader K).
  Lemma inflate_phi (r : reader) size out r' : inflate_some r size = Ok (out, r') -> r_phi r' = r_phi r.
  Proof.
    unfold inflate_some. destruct (window _ _ _ _). destruct (_ <? 0); [easy|]. intros H. apply bind_ok_inv in H as ([o zip] & _ & H). now injection H as _ <-.
  Qed.
  Lemma plain_calls s : forall k r size, fine K ok r -> r_buf r = None -> (Z.to_nat (s - r_br r) <= S k)%nat ->
    exists v, v <> Diverge /\ (forall f, (2 * S k <= f)%nat -> read_s f s r size = v) /\
      forall out r', v = Ok (out, r') -> fine K ok r' /\ r_buf r' = None /\ r_s r' = r_s r /\ r_phi r' = r_phi r /\ r_br r' = r_br r + len out.
  Proof.
    induction k as [|k IH]; intros r size Hr Hb Hk.
    all: destruct (asked K s r size =? 0) eqn:E0;
      [exists (Ok ([], r)); split; [easy|]; split;
        [intros [|f] Hf; [lia|]; cbn [read_s]; fold (asked K s r size); now rewrite E0
        |intros out r' [= <- <-]; split; [exact Hr|]; split; [exact Hb|]; split; [reflexivity|]; split; [reflexivity|]; change (len (@nil Z)) with 0; lia]|].
    all: destruct (inflate_ends K ok HK r (asked K s r size) Hr) as (I1 & I2); [lia|].
    all: assert (Step : forall f, read_s (S (S f)) s r size = let! (out, r1) := inflate_some r (asked K s r size) in
          if negb (len out =? 0) && (len out <? asked K s r size) && (r_br r1 <? s) then let! (more, r2) := read_s f s r1 (asked K s r size - len out) in Ok (out ++ more, r2) else Ok (out, r1))
      by (intros f; cbn [read_s read_rest]; fold (asked K s r size); rewrite E0, Hb; cbn [app]; destruct (inflate_some r (asked K s r size)) as [[? ?]| |]; cbn [bind]; [|easy|easy];
          change (len (@nil Z)) with 0; now rewrite Z.sub_0_r).
    all: destruct (inflate_some r (asked K s r size)) as [[out r1]|e|] eqn:Ei; cbn [bind] in Step; [|exists (Raise e); split; [easy|]; split; [intros [|[|f]] Hf; [lia|lia|apply Step]|easy]|easy].
    all: destruct (I2 out r1 eq_refl) as (F1 & F2 & F3 & F4 & F5 & F6); pose proof (inflate_phi _ _ _ _ Ei) as F7.
    all: destruct (negb (len out =? 0) && (len out <? asked K s r size) && (r_br r1 <? s)) eqn:Ec;
      [|exists (Ok (out, r1)); split; [easy|]; split; [intros [|[|f]] Hf; [lia|lia|apply Step]|]; intros o' r' [= <- <-]; split; [exact F1|]; split; [congruence|]; split; [exact F6|]; split; [exact F7|]; lia].
    - exfalso. pose proof (len_nonneg _ out). unfold bytes in *. lia.
    - pose proof (len_nonneg _ out). destruct (IH r1 (asked K s r size - len out)) as (v & V1 & V2 & V3); [exact F1|congruence|unfold bytes in *; lia|].
      exists (let! (more, r2) := v in Ok (out ++ more, r2)). split; [destruct v as [[? ?]| |]; easy|]. split.
      + intros [|[|f]] Hf; [lia|lia|]. rewrite Step, V2 by lia. easy.
      + intros o' r' Ho. destruct v as [[more r2]| |]; cbn [bind] in Ho; [|easy|easy]. assert (o' = out ++ more /\ r' = r2) as [-> ->] by (split; congruence). destruct (V3 more r2 eq_refl) as (G1 & G3 & G4 & G5 & G6).
        rewrite len_app. split; [exact G1|]; split; [exact G3|]; split; [congruence|]; split; [congruence|]; unfold bytes in *; lia.
  Qed.
  Lemma any_calls d s : (1 <= d)%nat -> s <= Z.of_nat d -> forall ops r, fine K ok r -> r_buf r = None -> r_s r = Some s -> r_phi r = false -> 0 <= r_br r ->
    forall f, (2 * d <= f)%nat -> run_stream (read f) (fun r => seek r 0 0) r ops = run_stream (limited_read d) (fun r => seek r 0 0) r ops.
  Proof.
    intros Hd Hs. induction ops as [|[n|] ops IH]; intros r H1 H2 H3 H4 H5 f Hf; cbn [run_stream]; [easy| |].
    - destruct d as [|d]; [lia|]. destruct (plain_calls s d r n H1 H2) as (v & V1 & V2 & V3); [lia|].
      unfold read at 1, get_s, limited_read at 1. rewrite H3. cbn [bind].
      rewrite <- (settled_nested (S d) s r n (ex_intro _ v (conj V1 V2)) f Hf). rewrite (V2 f Hf).
      destruct v as [[out r']| |]; cbn [bind]; [|easy|easy]. destruct (V3 out r' eq_refl) as (W1 & W2 & W3 & W4 & W5).
      rewrite (IH r' W1 W2) by (try congruence; try lia; pose proof (len_nonneg _ out); unfold bytes in *; lia). easy.
    - unfold seek at 1 3. cbn [Z.eqb negb orb bind]. rewrite (IH (rewind r)); try easy.
      + destruct H1 as (A & B & C). split; [apply HK|now split].
      + cbn. now rewrite H4.
  Qed.
End Any.

Section Valid.
  Context {K : zlib} (L : zlib_laws K) (z d rest : bytes) (Hz : zl_stream L z d).
  Notation reader := (reader K).
  Notation tail r := (zs_tail K (r_zip r)).

  (** A call after which read calls itself has used 8 bytes of the stream, and as many as the
      window has. *)
  Lemma inflate_used r pre zr dr size : U L z d rest r pre zr dr -> 0 < size ->
    exists out r', inflate_some r size = Ok (out, r') /\ same r r' (len out) /\ len out <= size /\
      exists dr', dr = out ++ dr' /\ G L z d rest true r' dr' /\
      (len out < size -> (dr' = [] /\ F L z rest r') \/ exists used zr', zr = used ++ zr' /\ U L z d rest r' (pre ++ used) zr' dr' /\ 8 <= len used /\
        snd (window (r_cws r) (r_cwe r) (tail r) size) - fst (window (r_cws r) (r_cwe r) (tail r) size) <= len used).
  Proof.
    intros HU Hs. pose proof HU as (Hm & Hpre & _ & _ & Hcwe & _).
    destruct (inflate_step L z d rest Hz _ _ _ _ _ HU Hs) as (out & r' & used & over & zr' & dr' & H1 & H2 & H3 & H4 & H5 & H6 & H7 & _).
    exists out, r'. split; [exact H1|]. split; [exact H2|]. split; [exact H5|]. exists dr'. split; [exact H4|]. split.
    { destruct zr' as [|a zr'].
      - right. destruct (H7 eq_refl) as (-> & HF & HF27 & _). split; [exact HF|]. split; [intros _; exact HF27|reflexivity].
      - left. destruct (H6 ltac:(easy)) as (HU' & _). eauto. }
    intros Hlt. destruct zr' as [|a zr']; [left; now destruct (H7 eq_refl) as (? & ? & _)|right].
    destruct (H6 ltac:(easy)) as (HU' & Ht & Ho). assert (over = []) as -> by (destruct over as [|o over]; [easy|]; specialize (Ho ltac:(easy)); lia).
    exists used, (a :: zr'). split; [exact H3|]. split; [exact HU'|].
    destruct (window_ok (r_cws r) (r_cwe r) (tail r) size Hs) as (we & Hw & Hwe). rewrite Hw. cbn [fst snd].
    unfold inflate_some in H1. rewrite Hw in H1. replace (size <? 0) with false in H1 by lia.
    apply bind_ok_inv in H1 as ([o zip] & H0 & H1). assert (r_cwe r' = r_cwe r - len (tail r) + len (slice (r_m r) (r_cwe r - len (tail r)) we)) as Ec by (injection H1 as _ <-; reflexivity).
    destruct HU' as (_ & _ & _ & _ & Ecw & _). rewrite Ht, len_nil, Z.sub_0_r, Ec, len_app, Hcwe in Ecw. rewrite Hcwe in *.
    destruct (slice_window pre (zr ++ rest) we Hwe) as (k & Esl & Hk & Hkwe).
    replace (slice (r_m r) (len pre) we) with (firstn k (zr ++ rest)) in Ecw by (rewrite Hm, Hpre, <- app_assoc; congruence).
    rewrite len_firstn in Ecw. rewrite H3 in Ecw. rewrite !len_app, len_cons in Ecw. pose proof (len_nonneg _ zr'). pose proof (len_nonneg _ rest). pose proof (len_nonneg _ used).
    unfold bytes in *. lia.
  Qed.
  Lemma nested_calls s : forall n r pre zr dr size, U L z d rest r pre zr dr -> r_buf r = None -> s = r_br r + len dr -> len zr <= 8 * (Z.of_nat n + 1) ->
    0 < size -> r_br r + size <= s -> exists v, read_rest (S (2 * n)) s r [] size = Ok v.
  Proof.
    induction n as [|n IH]; intros r pre zr dr size HU Hb Hs Hl Hsz Hle; rewrite read_rest_S;
      destruct (inflate_used _ _ _ _ _ HU Hsz) as (out & r' & H1 & (_ & S2 & _ & _ & _ & S6) & H3 & dr' & H4 & _ & H5);
      rewrite H1; cbn [bind app]; rewrite len_nil, Z.sub_0_r.
    all: destruct (negb (len out =? 0) && (len out <? size) && (r_br r' <? s)) eqn:E; [|eauto].
    all: assert (Hd : dr' <> []) by (intros ->; rewrite app_nil_r in H4; subst dr; lia).
    all: destruct (H5 ltac:(lia)) as [[? _]|(used & zr' & E1 & HU' & E2 & _)]; [easy|].
    - exfalso. destruct HU' as (_ & _ & Hne & _). rewrite E1, len_app in Hl. destruct zr' as [|a zr']; [easy|]. rewrite len_cons in Hl. pose proof (len_nonneg _ zr'). unfold bytes in *. lia.
    - replace (2 * S n)%nat with (S (S (2 * n))) by lia. rewrite read_s_S. cbv zeta. replace (size - len out <? 1) with false by lia.
      replace (Z.min (size - len out) (s - r_br r')) with (size - len out) by lia. replace (size - len out =? 0) with false by lia. rewrite S2, Hb.
      destruct (IH r' (pre ++ used) zr' dr' (size - len out)) as ([more r2] & I); try easy; try (rewrite ?E1, ?H4, ?len_app in *; unfold bytes in *; lia); [congruence|].
      rewrite I. cbn [bind]. eauto.
  Qed.
  (** The stream in any state of reading; at most 8 * n of its bytes are still to be read. *)
  Definition alive (r : reader) : Prop := (exists pre zr dr, U L z d rest r pre zr dr) \/ F L z rest r.
  Definition left_over (n : nat) (r : reader) : Prop := (exists pre zr dr, U L z d rest r pre zr dr /\ len zr <= 8 * Z.of_nat n) \/ F L z rest r.
  Lemma left_alive n r : left_over n r -> alive r.
  Proof. intros [(pre & zr & dr & HU & _)|HF]; [left; eauto|now right]. Qed.
  Lemma alive_left n r : len z <= 8 * Z.of_nat n -> alive r -> left_over n r.
  Proof.
    intros Hn [(pre & zr & dr & HU)|HF]; [left|now right]. exists pre, zr, dr. split; [exact HU|]. destruct HU as (_ & E & _).
    apply (f_equal len) in E. rewrite len_app in E. pose proof (len_nonneg _ pre). unfold bytes in *. lia.
  Qed.
  Lemma alive_same r r' : alive r -> r_m r' = r_m r -> r_zip r' = r_zip r -> r_cws r' = r_cws r -> r_cwe r' = r_cwe r -> r_cbr r' = r_cbr r -> alive r'.
  Proof. unfold alive, U, F. intros H -> -> -> -> ->. exact H. Qed.
  Lemma inflate_alive n r size : left_over n r -> 0 < size -> exists out r', inflate_some r size = Ok (out, r') /\ same r r' (len out) /\ alive r' /\
    (n = O -> out = []) /\ (len out < size -> left_over (n - 1) r').
  Proof.
    intros [(pre & zr & dr & HU & Hl)|HF] Hs.
    - destruct (inflate_used _ _ _ _ _ HU Hs) as (out & r' & H1 & H2 & H3 & dr' & H4 & H5 & H6). exists out, r'. split; [exact H1|]. split; [exact H2|]. split; [|split].
      + destruct H5 as [(p & q & H5)|(H5 & _)]; [left; eauto|now right].
      + intros ->. exfalso. destruct HU as (_ & _ & Hne & _). destruct zr as [|a zr]; [easy|]. rewrite len_cons in Hl. pose proof (len_nonneg _ zr). lia.
      + intros Hlt. destruct (H6 Hlt) as [[_ HF]|(used & zr' & E1 & HU' & E2 & _)]; [now right|left]. exists (pre ++ used), zr', dr'. split; [exact HU'|]. rewrite E1, len_app in Hl. pose proof (len_nonneg _ zr'). unfold bytes in *. lia.
    - destruct (inflate_done L z rest r size HF Hs) as (r' & H1 & H2 & H3 & _). exists [], r'. split; [exact H1|]. split; [exact H2|]. split; [now right|]. split; [easy|]. now right.
  Qed.
  Lemma inflate_neg (r : reader) size : size < 0 -> inflate_some r size = Raise ValueError.
  Proof. intros Hs. unfold inflate_some. destruct (window _ _ _ _). now replace (size <? 0) with true by lia. Qed.
  Lemma none_settled s : forall n r size, r_buf r = None -> left_over n r ->
    exists v, v <> Diverge /\ (forall f, (2 * (n + 1) <= f)%nat -> read_s f s r size = v) /\ forall out r', v = Ok (out, r') -> alive r'.
  Proof.
    induction n as [|n IH]; intros r size Hb Hl.
    all: destruct (asked K s r size =? 0) eqn:E0;
      [exists (Ok ([], r)); split; [easy|]; split;
        [intros [|f] Hf; [lia|]; cbn [read_s]; fold (asked K s r size); now rewrite E0|intros out r' [= <- <-]; now apply left_alive in Hl]|].
    all: assert (Step : forall f, read_s (S (S f)) s r size = let! (out, r1) := inflate_some r (asked K s r size) in
          if negb (len out =? 0) && (len out <? asked K s r size) && (r_br r1 <? s) then let! (more, r2) := read_s f s r1 (asked K s r size - len out) in Ok (out ++ more, r2) else Ok (out, r1))
      by (intros f; cbn [read_s read_rest]; fold (asked K s r size); rewrite E0, Hb; cbn [app]; destruct (inflate_some r (asked K s r size)) as [[? ?]| |]; cbn [bind]; [|easy|easy];
          change (len (@nil Z)) with 0; now rewrite Z.sub_0_r).
    all: destruct (Z.lt_trichotomy (asked K s r size) 0) as [E1|[E1|E1]]; [|lia|];
      [rewrite inflate_neg in Step by exact E1; cbn [bind] in Step; exists (Raise ValueError); split; [easy|]; split; [intros [|[|f]] Hf; [lia|lia|apply Step]|easy]|].
    all: destruct (inflate_alive _ r (asked K s r size) Hl E1) as (out & r1 & F1 & F2 & F3 & F4 & F5); rewrite F1 in Step; cbn [bind] in Step.
    all: destruct (negb (len out =? 0) && (len out <? asked K s r size) && (r_br r1 <? s)) eqn:Ec;
      [|exists (Ok (out, r1)); split; [easy|]; split; [intros [|[|f]] Hf; [lia|lia|apply Step]|]; intros o' r' [= <- <-]; exact F3].
    - rewrite (F4 eq_refl) in Ec. easy.
    - specialize (F5 ltac:(lia)). replace (S n - 1)%nat with n in F5 by lia. destruct F2 as (_ & B & _). rewrite Hb in B.
      destruct (IH r1 (asked K s r size - len out) B F5) as (v & V1 & V2 & V3).
      exists (let! (more, r2) := v in Ok (out ++ more, r2)). split; [destruct v as [[? ?]| |]; easy|]. split.
      + intros [|[|f]] Hf; [lia|lia|]. rewrite Step, V2 by lia. easy.
      + intros o' r' Ho. destruct v as [[more r2]| |]; cbn [bind] in Ho; [|easy|easy]. injection Ho as <- <-. exact (V3 more r2 eq_refl).
  Qed.
  Lemma all_settled s n r size : (1 <= n)%nat -> left_over n r ->
    exists v, v <> Diverge /\ (forall f, (2 * (n + 1) <= f)%nat -> read_s f s r size = v) /\ forall out r', v = Ok (out, r') -> alive r'.
  Proof.
    intros Hn Hl. destruct (r_buf r) as [b|] eqn:Eb; [|now apply none_settled].
    destruct (asked K s r size =? 0) eqn:E0.
    { exists (Ok ([], r)). split; [easy|]. split; [intros [|f] Hf; [lia|]; cbn [read_s]; fold (asked K s r size); now rewrite E0|]. intros out r' [= <- <-]. now apply left_alive in Hl. }
    destruct (asked K s r size <=? r_buflen r) eqn:E1.
    { destruct (bio_read b (asked K s r size)) as [dat b'] eqn:Ebio. eexists (Ok (dat, _)). split; [easy|]. split.
      - intros [|f] Hf; [lia|]. cbn [read_s]. fold (asked K s r size). rewrite E0, Eb, E1, Ebio. reflexivity.
      - intros out r' [= _ <-]. now apply (alive_same r); [apply left_alive in Hl|..]. }
    set (r0 := with_buf r None 0 (r_br r + r_buflen r)). set (sz := asked K s r size - r_buflen r). assert (Hl0 : left_over n r0) by exact Hl.
    assert (Step : forall f, read_s (S (S f)) s r size = let! (out, r1) := inflate_some r0 sz in
      if negb (len (b ++ out) =? 0) && (len (b ++ out) - len b <? sz) && (r_br r1 <? s) then let! (more, r2) := read_s f s r1 (sz - len (b ++ out)) in Ok ((b ++ out) ++ more, r2) else Ok (b ++ out, r1)).
    { intros f. cbn [read_s read_rest]. fold (asked K s r size). rewrite E0, Eb, E1. reflexivity. }
    destruct (inflate_alive n r0 sz Hl0 ltac:(unfold sz; lia)) as (out & r1 & F1 & (_ & F2 & _) & F3 & _ & F5). rewrite F1 in Step. cbn [bind] in Step.
    destruct (negb _ && _ && _) eqn:Ec; [|exists (Ok (b ++ out, r1)); split; [easy|]; split; [intros [|[|f]] Hf; [lia|lia|apply Step]|]; intros ? ? [= _ <-]; exact F3].
    rewrite len_app in Ec. destruct (none_settled s _ r1 (sz - len (b ++ out)) F2 (F5 ltac:(lia))) as (v & V1 & V2 & V3).
    exists (let! (more, r2) := v in Ok ((b ++ out) ++ more, r2)). split; [destruct v as [[? ?]| |]; easy|]. split.
    - intros [|[|f]] Hf; [lia|lia|]. rewrite Step, V2 by lia. reflexivity.
    - intros o' r' Ho. destruct v as [[more r2]| |]; cbn [bind] in Ho; [|easy|easy]. injection Ho as _ <-. exact (V3 more r2 eq_refl).
  Qed.
  (** Two calls more than the stream has pieces of 8 bytes are enough, whatever the calls. *)
  Lemma alive_read n r size : len z <= 8 * Z.of_nat n -> alive r -> exists v, v <> Diverge /\ limited_read (n + 2) r size = v /\ (forall f, (2 * (n + 2) <= f)%nat -> read f r size = v) /\
    forall out r', v = Ok (out, r') -> alive r'.
  Proof.
    intros Hn Ha. assert (1 <= n)%nat as H1.
    { destruct (zl_start K L _ _ Hz) as (Hne & _); destruct z as [|a z']; [easy|]; rewrite len_cons in Hn; pose proof (len_nonneg _ z'); lia. }
    assert (Body : forall s r, alive r -> exists v, v <> Diverge /\ read_nested (n + 2) s r size = v /\ (forall f, (2 * (n + 2) <= f)%nat -> read_s f s r size = v) /\ forall out r', v = Ok (out, r') -> alive r').
    { intros s r1 H. destruct (all_settled s n r1 size H1 (alive_left n r1 Hn H)) as (v & V1 & V2 & V3). exists v. split; [exact V1|]. split; [|split; [intros f Hf; apply V2; lia|exact V3]].
      rewrite nested_read; rewrite V2 by lia; easy. }
    unfold limited_read, read, get_s. replace (n + 2)%nat with (S (n + 1)) in * by lia. destruct (r_s r) as [s|]; [exact (Body s r Ha)|].
    unfold parse_nested, parse_header_info. set (r0 := mk_reader _ _ _ _ _ _ _ _ _ _). assert (Ha0 : alive r0) by (now apply (alive_same r)).
    destruct (all_settled 8192 n r0 8192 H1 (alive_left n r0 Hn Ha0)) as (v & V1 & V2 & V3).
    assert (Ev : read_nested (n + 1) 8192 r0 8192 = v) by (rewrite nested_read; rewrite V2 by lia; easy). rewrite Ev.
    destruct v as [[hdr r1]|e|]; [|exists (Raise e); cbn [bind]; split; [easy|]; split; [easy|]; split; [intros f Hf; now rewrite V2 by lia|easy]|easy].
    cbn [bind]. destruct (parse_loose_header hdr) as [[t s]|e|] eqn:Ep; cbn [bind].
    - set (r2 := mk_reader _ _ _ _ _ _ _ _ _ _). destruct (Body s r2) as (v & W1 & W2 & W3 & W4); [now apply (alive_same r1); [exact (V3 hdr r1 eq_refl)|..]|].
      exists v. split; [exact W1|]. split; [exact W2|]. split; [|exact W4]. intros f Hf. rewrite V2 by lia. cbn [bind]. rewrite Ep. cbn [bind]. apply W3. lia.
    - exists (Raise e). split; [easy|]. split; [easy|]. split; [|easy]. intros f Hf. rewrite V2 by lia. cbn [bind]. now rewrite Ep.
    - now pose proof (find_loose_ends hdr).
  Qed.
  Lemma alive_new m size : m = z ++ rest -> alive (reader_init K m size).
  Proof.
    intros ->. destruct (zl_start K L _ _ Hz) as (Z1 & Z2 & Z3 & Z4). left. exists [], z, d. unfold U, reader_init. cbn. rewrite Z3, Z4. cbn. repeat split; try easy. apply reach_new.
  Qed.
  Lemma alive_calls n : len z <= 8 * Z.of_nat n -> forall ops r, alive r ->
    forall f, (2 * (n + 2) <= f)%nat -> run_stream (read f) (fun r => seek r 0 0) r ops = run_stream (limited_read (n + 2)) (fun r => seek r 0 0) r ops.
  Proof.
    intros Hn. induction ops as [|[k|] ops IH]; intros r Ha f Hf; cbn [run_stream]; [easy| |].
    - destruct (alive_read n r k Hn Ha) as (v & V1 & V2 & V3 & V4). rewrite V2, V3 by exact Hf. destruct v as [[out r']| |]; cbn [bind]; [|easy|easy]. now rewrite (IH r' (V4 out r' eq_refl) f Hf).
    - unfold seek at 1 3. cbn [Z.eqb negb orb bind]. rewrite (IH (rewind r)); [easy| |exact Hf].
      assert (r_m r = z ++ rest) as Hm by (destruct Ha as [(? & ? & ? & HU)|HF]; [apply HU|apply HF]).
      apply (alive_same (reader_init K (r_m r) None)); [now apply alive_new|reflexivity..].
  Qed.
  (** The first call of read takes a window as large as the contents. *)
  Lemma fresh_read n : len z <= len d + 8 * Z.of_nat n -> exists v, read_s (2 * S n) (len d) (reader_init K (z ++ rest) (Some (len d))) 0 = Ok v.
  Proof.
    intros Hn. replace (2 * S n)%nat with (S (S (2 * n))) by lia. rewrite read_s_S. cbv zeta. cbn [Z.ltb Z.compare reader_init r_br r_buf]. rewrite Z.sub_0_r.
    destruct (len d =? 0) eqn:E0; [eauto|]. pose proof (len_nonneg _ d).
    pose proof (H_init L z d rest Hz) as (HG & _). cbn [skipn] in HG.
    destruct (zl_start K L _ _ Hz) as (Z1 & Z2 & Z3 & Z4).
    assert (HU : U L z d rest (reader_init K (z ++ rest) (Some (len d))) [] z d).
    { unfold U, reader_init. cbn. rewrite Z3, Z4. cbn. repeat split; try easy. apply reach_new. }
    rewrite read_rest_S. destruct (inflate_used _ _ _ _ (len d) HU ltac:(lia)) as (out & r' & H1 & (_ & S2 & _ & _ & _ & S6) & H3 & dr' & H4 & _ & H5).
    cbn in S2, S6. unfold reader_init in *. rewrite H1; cbn [bind app]; rewrite len_nil, Z.sub_0_r.
    destruct (negb (len out =? 0) && (len out <? len d) && (r_br r' <? len d)) eqn:E; [|eauto].
    assert (Hd : dr' <> []) by (intros ->; rewrite app_nil_r in H4; subst d; lia).
    destruct (H5 ltac:(lia)) as [[? _]|(used & zr' & E1 & HU' & E2 & E3)]; [easy|]. cbn [r_cws r_cwe r_zip] in E3. rewrite Z3 in E3.
    unfold window in E3. cbn [len length Z.of_nat Z.eqb negb Z.add] in E3. rewrite Z.sub_0_r in E3.
    assert (len d <= len used) by (destruct (len d <? 8) eqn:E8; cbn [fst snd] in E3; unfold len in *; lia).
    pose proof (f_equal len E1) as Ez. rewrite len_app in Ez. pose proof (f_equal len H4) as Ed. rewrite len_app in Ed.
    destruct n as [|n].
    { exfalso. destruct HU' as (_ & _ & Hne & _). destruct zr' as [|a zr']; [easy|]. rewrite len_cons in Ez. pose proof (len_nonneg _ zr'). unfold bytes in *. lia. }
    replace (2 * S n)%nat with (S (S (2 * n))) by lia. rewrite read_s_S. cbv zeta. replace (len d - len out <? 1) with false by lia.
    replace (Z.min (len d - len out) (len d - r_br r')) with (len d - len out) by lia. replace (len d - len out =? 0) with false by lia. rewrite S2.
    destruct (nested_calls (len d) n r' ([] ++ used) zr' dr' (len d - len out)) as ([more r2] & I); try easy; try (unfold bytes in *; lia).
    rewrite I. cbn [bind]. eauto.
  Qed.
End Valid.

Lemma size_enough K ok (m : bytes) size ops depth : inflater K ok -> is_bytes m -> (1 <= depth)%nat -> size <= Z.of_nat depth -> enough depth (reader_init K m (Some size)) ops.
Proof. intros HK Hm Hd Hs. exists (2 * depth)%nat. apply (any_calls K ok HK depth size Hd Hs); try easy. now apply fine_init. Qed.
Lemma stream_enough K (L : zlib_laws K) z c rest size ops depth : zl_stream L z c -> len z <= 8 * (Z.of_nat depth - 2) -> enough depth (reader_init K (z ++ rest) size) ops.
Proof.
  intros Hz Hd. pose proof (len_nonneg _ z). exists (2 * depth)%nat. replace depth with (depth - 2 + 2)%nat by lia.
  apply (alive_calls L z c rest Hz (depth - 2)); [lia|]. now apply alive_new.
Qed.
Lemma whole_enough K (L : zlib_laws K) z c rest depth : zl_stream L z c -> len z <= len c + 8 * (Z.of_nat depth - 1) -> (1 <= depth)%nat -> enough depth (reader_init K (z ++ rest) (Some (len c))) [Read (-1)].
Proof.
  intros Hz Hd H1. exists (2 * depth)%nat. destruct depth as [|n]; [lia|]. intros f Hf.
  destruct (fresh_read L z c rest Hz n ltac:(lia)) as (v & V).
  cbn [run_stream]. unfold read at 1, get_s, limited_read at 1. cbn [reader_init r_s bind].
  assert (E : forall g, read_s (S g) (len c) (reader_init K (z ++ rest) (Some (len c))) (-1) = read_s (S g) (len c) (reader_init K (z ++ rest) (Some (len c))) 0) by reflexivity.
  assert (V' : read_s (2 * S n) (len c) (reader_init K (z ++ rest) (Some (len c))) (-1) = Ok v) by (replace (2 * S n)%nat with (S (S (2 * n))) in * by lia; now rewrite E).
  rewrite nested_read by (rewrite V'; easy). rewrite V'. rewrite (read_s_mono _ _ _ _ _ _ Hf V'). now destruct v.
Qed.
