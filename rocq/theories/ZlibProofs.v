(** The stored-block implementation satisfies the laws of ZlibModel.v. *)
From Coq Require Import ZifyBool ZifyNat.
From Verif Require Import Py PyFacts ZlibModel.
Ltac Zify.zify_post_hook ::= Z.div_mod_to_equations.

(** Running the decoder over a complete rest of a stream. *)
Fixpoint s_run (ph : sphase) (ab : Z * Z) (zr : bytes) : option bytes :=
  match zr with
  | [] => match ph with SDone => Some [] | _ => None end
  | c :: zr' =>
      match s_feed ph ab c with
      | Ok (ph', ab', o) => option_map (app o) (s_run ph' ab' zr')
      | _ => None
      end
  end.

Lemma s_feed_out ph ab c ph' ab' o : s_feed ph ab c = Ok (ph', ab', o) ->
  match ph with SCopy _ _ => o = [c] | SDone => False | _ => o = [] end.
Proof.
  unfold s_feed. destruct ph as [[|? ?]|[|? [|? [|? [|? [|? ?]]]]]|? ?|[|? [|? [|? [|? ?]]]]|];
    intros H; try discriminate; repeat match type of H with context [if ?b then _ else _] => destruct b end;
    try discriminate; now injection H.
Qed.
Lemma s_run_cons_inv ph ab c zr dr : s_run ph ab (c :: zr) = Some dr ->
  exists ph' ab' o dr', s_feed ph ab c = Ok (ph', ab', o) /\ s_run ph' ab' zr = Some dr' /\ dr = o ++ dr'.
Proof.
  cbn [s_run]. destruct (s_feed ph ab c) as [[[ph' ab'] o]| |] eqn:E; try discriminate.
  destruct (s_run ph' ab' zr) as [dr'|] eqn:E2; try discriminate. cbn. intros H. injection H as <-.
  now exists ph', ab', o, dr'.
Qed.
Lemma s_run_done zr ab dr : s_run SDone ab zr = Some dr -> zr = [] /\ dr = [].
Proof. destruct zr; cbn; intros H; [|discriminate]. now injection H. Qed.
Lemma s_run_nil ph ab dr : s_run ph ab [] = Some dr -> ph = SDone /\ dr = [].
Proof. cbn. destruct ph; try discriminate. intros H. now injection H. Qed.
Lemma prefix_cons (c a : Z) inp zr : prefix (c :: inp) (a :: zr) \/ prefix (a :: zr) (c :: inp) ->
  c = a /\ (prefix inp zr \/ prefix zr inp).
Proof. intros [[r H]|[r H]]; cbn in H; injection H as -> ->; (split; [easy|]); [left|right]; now exists r. Qed.

(** Bytes fed one after the other. *)
Fixpoint s_feeds (ph : sphase) (ab : Z * Z) (l : bytes) : res (sphase * (Z * Z) * bytes) :=
  match l with
  | [] => Ok (ph, ab, [])
  | c :: l' =>
      let! (ph, ab, o) := s_feed ph ab c in
      let! (ph, ab, o') := s_feeds ph ab l' in
      Ok (ph, ab, o ++ o')
  end.

(** The same with the output in order. *)
Fixpoint s_go (ph : sphase) (ab : Z * Z) (inp : bytes) (n : Z) (out : bytes) : res (sphase * (Z * Z) * bytes * bytes) :=
  match inp with
  | [] => Ok (ph, ab, out, [])
  | c :: inp' =>
      match ph with
      | SDone => Ok (ph, ab, out, inp)
      | SCopy _ _ =>
          if n <=? 0 then Ok (ph, ab, out, inp)
          else let! (ph, ab, o) := s_feed ph ab c in s_go ph ab inp' (n - len o) (out ++ o)
      | _ => let! (ph, ab, o) := s_feed ph ab c in s_go ph ab inp' (n - len o) (out ++ o)
      end
  end.
Lemma s_fast_go inp : forall ph ab n rout, s_fast ph ab inp n rout = s_go ph ab inp n (rev rout).
Proof.
  assert (Hr : forall l : bytes, rev' l = rev l) by (intros l; unfold rev'; now rewrite rev_append_rev, app_nil_r).
  induction inp as [|c inp IH]; intros ph ab n rout; cbn [s_fast s_go]; [now rewrite Hr|].
  assert (Hs : (let! (ph, ab, o) := s_feed ph ab c in s_fast ph ab inp (n - len o) (rev_append o rout)) =
               (let! (ph, ab, o) := s_feed ph ab c in s_go ph ab inp (n - len o) (rev rout ++ o))).
  { destruct (s_feed ph ab c) as [[[ph' ab'] o]| |]; cbn [bind]; [|easy..]. rewrite IH, rev_append_rev, rev_app_distr, rev_involutive. easy. }
  destruct ph; rewrite ?Hs, ?Hr; easy.
Qed.

Lemma s_go_ok : forall inp ph ab n out0 zr dr,
  s_run ph ab zr = Some dr -> 0 <= n -> prefix inp zr \/ prefix zr inp ->
  exists used over zr' o dr' ph' ab',
    s_go ph ab inp n out0 = Ok (ph', ab', out0 ++ o, over) /\
    inp = used ++ over /\ zr = used ++ zr' /\ dr = o ++ dr' /\ len o <= n /\
    s_run ph' ab' zr' = Some dr' /\ s_feeds ph ab used = Ok (ph', ab', o) /\
    (over <> [] -> ph' <> SDone -> len o = n /\ dr' <> []).
Proof.
  induction inp as [|c inp IH]; intros ph ab n out0 zr dr Hrun Hn Hp.
  - exists [], [], zr, [], dr, ph, ab. cbn. rewrite app_nil_r. now repeat split.
  - assert (forall o0 ph' ab' zr0 dr0, s_feed ph ab c = Ok (ph', ab', o0) -> zr = c :: zr0 ->
              s_run ph' ab' zr0 = Some dr0 -> dr = o0 ++ dr0 -> len o0 <= n -> (prefix inp zr0 \/ prefix zr0 inp) ->
              exists used over zr' o dr' ph'' ab'',
    s_go ph' ab' inp (n - len o0) (out0 ++ o0) = Ok (ph'', ab'', out0 ++ o, over) /\
    c :: inp = used ++ over /\ zr = used ++ zr' /\ dr = o ++ dr' /\ len o <= n /\
    s_run ph'' ab'' zr' = Some dr' /\ s_feeds ph ab used = Ok (ph'', ab'', o) /\
    (over <> [] -> ph'' <> SDone -> len o = n /\ dr' <> [])) as Hgo.
    { intros o0 ph' ab' zr0 dr0 Hf -> Hr -> Hl Hp'.
      destruct (IH ph' ab' (n - len o0) (out0 ++ o0) zr0 dr0 Hr ltac:(lia) Hp')
        as (used & over & zr' & o & dr' & ph'' & ab'' & H1 & -> & -> & -> & H5 & H6 & H8 & H7).
      exists (c :: used), over, zr', (o0 ++ o), dr', ph'', ab''.
      rewrite H1. rewrite <- !app_assoc. rewrite !len_app. cbn [app s_feeds]. rewrite Hf. cbn [bind]. rewrite H8. cbn [bind].
      split; [easy|]. split; [easy|]. split; [easy|]. split; [easy|]. split; [lia|]. split; [easy|]. split; [easy|].
      intros Ho Hd. destruct (H7 Ho Hd). split; [lia|easy]. }
    assert (ph = SDone \/ (exists f k, ph = SCopy f k /\ n <= 0) \/
            match ph with SCopy _ _ => 0 < n | SDone => False | _ => True end /\
            s_go ph ab (c :: inp) n out0 =
            let! (ph', ab', o) := s_feed ph ab c in s_go ph' ab' inp (n - len o) (out0 ++ o)) as Hcase.
    { cbn [s_go]. destruct ph; auto. destruct (Z.leb_spec n 0); [right; left; eauto|auto]. }
    destruct Hcase as [->|[(f & k & -> & Hn0)|[Hph Hg]]].
    + apply s_run_done in Hrun as [-> ->]. exists [], (c :: inp), [], [], [], SDone, ab.
      cbn. rewrite app_nil_r. repeat split; easy.
    + exists [], (c :: inp), zr, [], dr, (SCopy f k), ab. cbn [s_go]. replace (n <=? 0) with true by lia.
      rewrite app_nil_r. repeat split; try easy; try (rewrite len_nil; lia).
      destruct zr as [|a zr]; [discriminate|].
      apply s_run_cons_inv in Hrun as (ph' & ab' & o & dr' & Hf & _ & ->).
      apply s_feed_out in Hf as ->. easy.
    + rewrite Hg. destruct zr as [|a zr].
      * apply s_run_nil in Hrun as [-> ->]. easy.
      * apply prefix_cons in Hp as [<- Hp].
        destruct (s_run_cons_inv _ _ _ _ _ Hrun) as (ph' & ab' & o & dr' & Hf & Hr & ->).
        rewrite Hf. cbn [bind]. apply (Hgo o ph' ab' zr dr'); try easy.
        apply s_feed_out in Hf. destruct ph; try contradiction; subst o; rewrite ?len_cons, ?len_nil; lia.
Qed.

Lemma s_feeds_app : forall l ph ab zr ph' ab' o, s_feeds ph ab l = Ok (ph', ab', o) ->
  s_run ph ab (l ++ zr) = option_map (app o) (s_run ph' ab' zr).
Proof.
  induction l as [|c l IH]; intros ph ab zr ph' ab' o H; cbn [s_feeds] in H.
  - injection H as <- <- <-. cbn [app]. now destruct (s_run ph ab zr).
  - cbn [app s_run]. destruct (s_feed ph ab c) as [[[p1 a1] o1]| |]; cbn [bind] in H; try discriminate.
    destruct (s_feeds p1 a1 l) as [[[p2 a2] o2]| |] eqn:E; cbn [bind] in H; try discriminate.
    injection H as <- <- <-. rewrite (IH _ _ zr _ _ _ E). destruct (s_run p2 a2 zr); cbn; [|easy]. now rewrite app_assoc.
Qed.
Lemma s_feeds_trans : forall l1 l2 ph ab p1 a1 o1 p2 a2 o2,
  s_feeds ph ab l1 = Ok (p1, a1, o1) -> s_feeds p1 a1 l2 = Ok (p2, a2, o2) ->
  s_feeds ph ab (l1 ++ l2) = Ok (p2, a2, o1 ++ o2).
Proof.
  induction l1 as [|c l IH]; intros l2 ph ab p1 a1 o1 p2 a2 o2 H1 H2; cbn [s_feeds] in H1.
  - injection H1 as <- <- <-. easy.
  - cbn [app s_feeds]. destruct (s_feed ph ab c) as [[[p3 a3] o3]| |]; cbn [bind] in *; try discriminate.
    destruct (s_feeds p3 a3 l) as [[[p4 a4] o4]| |] eqn:E; cbn [bind] in H1; try discriminate.
    injection H1 as <- <- <-. rewrite (IH _ _ _ _ _ _ _ _ _ E H2). cbn [bind]. now rewrite app_assoc.
Qed.

(** ** Encoded blocks decode *)
Lemma s_feeds_copy final : forall d ab, d <> [] ->
  s_feeds (SCopy final (len d)) ab d = Ok (if final then STrail [] else SBlock [], fold_left adler_step d ab, d).
Proof.
  induction d as [|c d IH]; intros ab Hd; [easy|]. cbn [s_feeds s_feed bind fold_left].
  rewrite len_cons. replace (len d + 1 - 1) with (len d) by lia. unfold after_block.
  destruct d as [|c' d].
  - cbn. now destruct final.
  - pose proof (len_nonneg _ d). rewrite len_cons. replace (0 <? len d + 1) with true by lia.
    rewrite <- (len_cons _ c'). rewrite IH by easy. easy.
Qed.
Lemma s_feeds_block final d ab : len d <= 65535 ->
  s_feeds (SBlock []) ab (s_block final d) = Ok (if final then STrail [] else SBlock [], fold_left adler_step d ab, d).
Proof.
  intros Hl. unfold s_block. pose proof (len_nonneg _ d).
  assert (s_feeds (SBlock []) ab [if final then 1 else 0; len d mod 256; len d / 256; (65535 - len d) mod 256; (65535 - len d) / 256]
          = Ok (after_block final (len d), ab, [])) as H1.
  { cbn [s_feeds s_feed bind app]. 
    replace (_ && _) with true by (destruct final; lia).
    replace (len d mod 256 + 256 * (len d / 256)) with (len d) by lia.
    replace ((if final then 1 else 0) =? 1) with final by now destruct final. reflexivity. }
  destruct d as [|c d].
  - rewrite app_nil_r. rewrite H1. now destruct final.
  - rewrite (s_feeds_trans _ _ _ _ _ _ _ (if final then STrail [] else SBlock []) (fold_left adler_step (c :: d) ab) (c :: d) H1); [easy|].
    unfold after_block. rewrite len_cons in *. replace (0 <? len d + 1) with true by (pose proof (len_nonneg _ d); lia).
    rewrite <- (len_cons _ c). apply s_feeds_copy. discriminate.
Qed.
Lemma s_feeds_blocks : forall fuel d ab, (length d < fuel)%nat ->
  s_feeds (SBlock []) ab (s_blocks fuel d) = Ok (STrail [], fold_left adler_step d ab, d).
Proof.
  induction fuel as [|f IH]; intros d ab Hf; [lia|]. cbn [s_blocks].
  destruct (Z.leb_spec (len d) 65535).
  - now apply (s_feeds_block true).
  - rewrite <- (firstn_skipn (Z.to_nat 65535) d) at 3 4.
    rewrite fold_left_app.
    eapply s_feeds_trans; [apply (s_feeds_block false); rewrite len_firstn; lia|]. cbv iota.
    apply IH. rewrite skipn_length. unfold len in *. lia.
Qed.
Lemma adler_bytes_feed ab : exists a b c e, adler_bytes ab = [a; b; c; e].
Proof. unfold adler_bytes. cbn [be_enc app]. eauto. Qed.
Lemma s_compress_run d : s_run (SHead []) (1, 0) (s_compress d) = Some d.
Proof.
  unfold s_compress.
  assert (s_feeds (SHead []) (1, 0) [120; 1] = Ok (SBlock [], (1, 0), [])) as H1 by reflexivity.
  rewrite (s_feeds_app _ _ _ _ _ _ _ H1). 
  rewrite (s_feeds_app _ _ _ _ _ _ _ (s_feeds_blocks (S (length d)) d (1, 0) (Nat.lt_succ_diag_r _))).
  unfold adler. destruct (adler_bytes_feed (fold_left adler_step d (1, 0))) as (a & b & c & e & E). rewrite E.
  cbn [s_run s_feed app]. rewrite E, beq_refl. cbn. now rewrite app_nil_r.
Qed.

(** ** The laws *)
Definition stored_stream (z d : bytes) : Prop := s_run (SHead []) (1, 0) z = Some d /\ is_bytes z /\ is_bytes d.
Definition stored_at (st : sstate) (zr dr : bytes) : Prop := s_run (s_ph st) (s_ab st) zr = Some dr.

Lemma stored_step st zr dr inp n : stored_at st zr dr -> zr <> [] -> 0 < n ->
  prefix inp zr \/ prefix zr inp ->
  exists zr' dr' out st', zstep stored stored_at st zr dr inp n zr' dr' out st' /\
    exists used, zr = used ++ zr' /\ s_feeds (s_ph st) (s_ab st) used = Ok (s_ph st', s_ab st', out).
Proof.
  unfold stored_at. intros Hr Hz Hn Hp.
  destruct (s_go_ok inp _ _ n [] _ _ Hr ltac:(lia) Hp)
    as (used & over & zr' & o & dr' & ph' & ab' & H1 & H2 & H3 & H4 & H5 & H6 & H8 & H7).
  assert (ph' = SDone -> zr' = [] /\ dr' = []) as Hd by (intros ->; eapply s_run_done; eauto).
  assert (zr' = [] -> ph' = SDone) as Hd' by (intros ->; eapply s_run_nil; eauto).
  exists zr', dr', o.
  exists (match ph' with
          | SDone => mk_s ph' ab' (match s_tail st with [] => [] | _ => over end) (s_unused st ++ over)
          | _ => mk_s ph' ab' over (s_unused st) end).
  split; [split|].
  - cbn [zs_decompress stored]. unfold s_decompress. rewrite s_fast_go. cbn [rev]. rewrite H1. cbn [bind app]. now destruct ph'.
  - exists used, over. split; [easy|]. split; [easy|]. split; [easy|]. split; [easy|].
    split; [now destruct ph'|]. cbn [zs_tail zs_unused stored]. split.
    + intros Hne. destruct ph'; cbn [s_tail s_unused];
        try (split; [easy|]; split; [easy|]; intros Ho; now apply H7).
      exfalso. now apply Hne, Hd.
    + intros ->. rewrite Hd' by easy. destruct Hd as [_ ->]; [now apply Hd'|]. easy.
  - exists used. split; [easy|]. rewrite H8. now destruct ph'.
Qed.

Lemma s_run_bytes : forall zr ph ab d, s_run ph ab zr = Some d -> is_bytes zr -> is_bytes d.
Proof.
  induction zr as [|c zr IH]; intros ph ab d H Hb.
  - apply s_run_nil in H as [_ ->]. constructor.
  - apply s_run_cons_inv in H as (ph' & ab' & o & d' & Hf & Hr & ->). inversion Hb; subst.
    apply is_bytes_app. split; [|eapply IH; eauto].
    apply s_feed_out in Hf. destruct ph; subst; try constructor; auto. easy.
Qed.
Lemma s_block_bytes final d : is_bytes d -> len d <= 65535 -> is_bytes (s_block final d).
Proof.
  intros Hd Hl. unfold s_block. pose proof (len_nonneg _ d). apply is_bytes_app. split; [|easy].
  repeat (apply Forall_cons; [unfold is_byte; destruct final; lia|]). apply Forall_nil.
Qed.
Lemma s_blocks_bytes : forall fuel d, is_bytes d -> is_bytes (s_blocks fuel d).
Proof.
  induction fuel as [|f IH]; intros d Hd; cbn [s_blocks]; [constructor|].
  destruct (Z.leb_spec (len d) 65535); [now apply s_block_bytes|].
  apply is_bytes_app. split; [|now apply IH, is_bytes_skipn].
  apply s_block_bytes; [now apply is_bytes_firstn|rewrite len_firstn; lia].
Qed.
Lemma s_compress_stream d : is_bytes d -> stored_stream (s_compress d) d.
Proof.
  intros Hd. split; [apply s_compress_run|]. split; [|easy]. unfold s_compress.
  rewrite !is_bytes_app. repeat split.
  - repeat (apply Forall_cons; [unfold is_byte; lia|]). apply Forall_nil.
  - now apply s_blocks_bytes.
  - unfold adler_bytes. apply is_bytes_app. split; apply be_enc_bytes.
Qed.
Lemma stored_zc_all : forall chunks c, zc_all stored c chunks = s_compress (c ++ concat chunks).
Proof.
  induction chunks as [|d l IH]; intros c; cbn [zc_all concat].
  - now rewrite app_nil_r.
  - cbn [zc_compress stored]. rewrite IH. cbn [app]. now rewrite <- app_assoc.
Qed.

Definition stored_laws : zlib_laws stored.
Proof.
  refine (mk_zlib_laws stored stored_stream stored_at _ _ _ _ _).
  - intros z d (H & _ & _). split; [intros ->; discriminate|]. split; [exact H|]. now split.
  - intros st zr dr inp n H1 H2 H3 H4. destruct (stored_step st zr dr inp n H1 H2 H3 H4) as (zr' & dr' & out & st' & H & _).
    eauto.
  - intros st inp n H Hn. unfold stored_at in H. apply s_run_nil in H as [Hp _].
    cbn [zs_decompress stored]. unfold s_decompress. rewrite s_fast_go. cbn [rev].
    assert (s_go (s_ph st) (s_ab st) inp n [] = Ok (SDone, s_ab st, [], inp)) as ->.
    { rewrite Hp. now destruct inp. }
    cbn [bind]. eexists. split; [reflexivity|]. split; [reflexivity|]. now split.
  - intros z d (_ & H1 & H2). now split.
  - intros level chunks Hc. rewrite stored_zc_all. cbn [zc_new stored app].
    apply s_compress_stream. induction Hc; cbn [concat]; [constructor|]. now apply is_bytes_app.
Defined.

(** ** Density: no empty block before the last one *)
Definition okhere (ph : sphase) : Prop :=
  match ph with
  | SBlock [f; l0; l1; n0] => 0 < l0 + 256 * l1 \/ f = 1
  | SBlock l => len l <= 4
  | SCopy _ n => 0 < n
  | _ => True
  end.
(** All states on the way are fine. *)
Fixpoint s_fine (ph : sphase) (ab : Z * Z) (zr : bytes) : Prop :=
  match zr with
  | [] => True
  | c :: zr' => okhere ph /\ match s_feed ph ab c with Ok (ph', ab', _) => s_fine ph' ab' zr' | _ => True end
  end.
Lemma s_fine_feeds : forall l ph ab zr ph' ab' o, s_feeds ph ab l = Ok (ph', ab', o) ->
  s_fine ph ab (l ++ zr) -> s_fine ph' ab' zr.
Proof.
  induction l as [|c l IH]; intros ph ab zr ph' ab' o H Hf; cbn [s_feeds] in H.
  - now injection H as <- <- <-.
  - cbn [app s_fine] in Hf. destruct Hf as [_ Hf].
    destruct (s_feed ph ab c) as [[[p1 a1] o1]| |]; cbn [bind] in H; try discriminate.
    destruct (s_feeds p1 a1 l) as [[[p2 a2] o2]| |] eqn:E; cbn [bind] in H; try discriminate.
    injection H as <- <- <-. eapply IH; eauto.
Qed.
Lemma s_fine_app : forall l ph ab zr ph' ab' o, s_feeds ph ab l = Ok (ph', ab', o) ->
  s_fine ph ab l -> s_fine ph' ab' zr -> s_fine ph ab (l ++ zr).
Proof.
  induction l as [|c l IH]; intros ph ab zr ph' ab' o H H1 H2; cbn [s_feeds] in H.
  - now injection H as <- <- <-.
  - cbn [app s_fine] in *. destruct H1 as [H0 H1]. split; [easy|].
    destruct (s_feed ph ab c) as [[[p1 a1] o1]| |]; cbn [bind] in H; try discriminate.
    destruct (s_feeds p1 a1 l) as [[[p2 a2] o2]| |] eqn:E; cbn [bind] in H; try discriminate.
    injection H as <- <- <-. eapply IH; eauto.
Qed.
Lemma s_trail_no_out : forall zr l ab dr, s_run (STrail l) ab zr = Some dr -> dr = [].
Proof.
  induction zr as [|c zr IH]; intros l ab dr H.
  - now apply s_run_nil in H.
  - apply s_run_cons_inv in H as (ph' & ab' & o & d' & Hf & Hr & ->).
    pose proof (s_feed_out _ _ _ _ _ _ Hf) as ->. cbn [app].
    unfold s_feed in Hf. destruct l as [|? [|? [|? [|? ?]]]];
      try (injection Hf as <- <-; now apply IH in Hr).
    destruct (beq _ _); [|discriminate]. injection Hf as <- <-. now apply s_run_done in Hr.
Qed.
(** At most this many bytes go by before the next output. *)
Definition lead (ph : sphase) : Z :=
  match ph with
  | SHead [] => 7 | SHead _ => 6 | SBlock l => 5 - len l | _ => 0
  end.
Lemma s_go_out_keep : forall inp ph ab n out0 r, out0 <> [] -> s_go ph ab inp n out0 = Ok r ->
  let '(_, _, out, _) := r in out <> [].
Proof.
  induction inp as [|c inp IH]; intros ph ab n out0 [[[ph' ab'] out] over] Ho H.
  - cbn in H. now injection H as <- <- <- <-.
  - assert (forall o, out0 ++ o <> []) as Hne by (intros o; destruct out0; easy).
    assert ((out = out0) \/ exists p a o n', s_go p a inp n' (out0 ++ o) = Ok (ph', ab', out, over)) as [->|Hx].
    { cbn [s_go] in H. destruct ph; try (injection H as <- <- <- <-; now left);
        try (destruct (n <=? 0); [injection H as <- <- <- <-; now left|]);
        destruct (s_feed _ ab c) as [[[p1 a1] o1]| |]; cbn [bind] in H; try discriminate; right; eauto. }
    + easy.
    + destruct Hx as (p & a & o & n' & Hx). apply (IH _ _ _ _ _ (Hne o) Hx).
Qed.
Lemma s_go_dense : forall inp ph ab n zr dr r, s_run ph ab zr = Some dr -> dr <> [] -> s_fine ph ab zr ->
  prefix inp zr \/ prefix zr inp -> lead ph < len inp -> 0 < n -> s_go ph ab inp n [] = Ok r ->
  let '(_, _, out, _) := r in out <> [].
Proof.
  induction inp as [|c inp IH]; intros ph ab n zr dr r Hr Hd Hf Hp Hl Hn Hgo.
  - exfalso. rewrite len_nil in Hl. destruct zr as [|a zr]; [now apply s_run_nil in Hr|].
    destruct Hf as [Hf _]. unfold lead, okhere in *.
    destruct ph as [[|? ?]|[|? [|? [|? [|? [|? ?]]]]]|? ?|?|]; try lia; cbn in Hl, Hf; lia.
  - destruct zr as [|a zr]; [now apply s_run_nil in Hr|]. apply prefix_cons in Hp as [<- Hp].
    cbn [s_fine] in Hf. destruct Hf as [Hok Hf].
    destruct (s_run_cons_inv _ _ _ _ _ Hr) as (ph' & ab' & o & dr' & Hfd & Hr' & ->). rewrite Hfd in Hf.
    pose proof (s_feed_out _ _ _ _ _ _ Hfd) as Ho.
    assert (ph <> SDone) as Hnd by (intros ->; easy).
    assert (s_go ph ab (c :: inp) n [] = s_go ph' ab' inp (n - len o) o) as Hg.
    { cbn [s_go]. rewrite Hfd. cbn [bind app]. destruct ph; try easy. now replace (n <=? 0) with false by lia. }
    rewrite Hg in Hgo. clear Hg. rewrite len_cons in Hl.
    destruct ph as [l|l|fin k|l|]; [| | |exfalso; apply s_trail_no_out in Hr; congruence|easy]; subst o.
    + (* header *)
      rewrite len_nil, Z.sub_0_r in Hgo. cbn [app] in *.
      unfold s_feed in Hfd. destruct l as [|x l]; destruct (c =? _); try discriminate; injection Hfd as <- <-;
        eapply IH; try eassumption; clear IH Hgo Hr Hr'; cbn [lead okhere app] in *; rewrite ?len_app, ?len_cons, ?len_nil in *; lia.
    + (* block header *)
      rewrite len_nil, Z.sub_0_r in Hgo. cbn [app] in *.
      assert (okhere ph' \/ zr = []) as Hok' by (destruct zr; [now right|left; now destruct Hf]).
      destruct zr as [|a2 zr]; [apply s_run_nil in Hr' as [_ ->]; easy|]. destruct Hok' as [Hok'|]; [|easy].
      unfold s_feed in Hfd.
      destruct l as [|x0 [|x1 [|x2 [|x3 [|x4 l]]]]];
        try (injection Hfd as <- <-; eapply IH; try eassumption; clear IH Hgo Hr Hr'; cbn [lead okhere app] in *; rewrite ?len_app, ?len_cons, ?len_nil in *; lia).
      * destruct (_ && _); [|discriminate].
        assert (ph' = after_block (x0 =? 1) (x1 + 256 * x2) /\ ab' = ab) as [-> ->] by (split; congruence). clear Hfd.
        cbn [okhere] in Hok. unfold after_block in *.
        destruct (Z.ltb_spec 0 (x1 + 256 * x2)) as [Hlt|Hlt].
        -- apply (IH _ _ _ _ _ _ Hr' Hd Hf Hp) in Hgo; [exact Hgo| |exact Hn].
           clear - Hl. cbn [lead] in *. rewrite ?len_cons, ?len_nil in *. lia.
        -- destruct Hok as [Hok|Hok]; [lia|]. replace (x0 =? 1) with true in Hr' by lia.
           apply s_trail_no_out in Hr'. contradiction.
      * exfalso. cbn [okhere] in Hok. rewrite !len_cons in Hok. pose proof (len_nonneg _ l). lia.
    + eapply s_go_out_keep; [|exact Hgo]. easy.
Qed.

Lemma s_fine_copy final : forall d ab, s_fine (SCopy final (len d)) ab d.
Proof.
  induction d as [|c d IH]; intros ab; cbn [s_fine s_feed]; [easy|]. rewrite len_cons.
  pose proof (len_nonneg _ d). split; [cbn; lia|]. replace (len d + 1 - 1) with (len d) by lia.
  unfold after_block. destruct (Z.ltb_spec 0 (len d)); [apply IH|].
  assert (d = []) as -> by (apply len_0_nil; lia). destruct final; easy.
Qed.
Lemma s_fine_block final d ab : len d <= 65535 -> (d <> [] \/ final = true) -> s_fine (SBlock []) ab (s_block final d).
Proof.
  intros Hl Hne. unfold s_block. pose proof (len_nonneg _ d).
  assert (0 < len d \/ final = true) as Hne'.
  { destruct Hne as [Hne|]; [left|now right]. destruct d; [easy|]. rewrite len_cons. pose proof (len_nonneg _ d). lia. }
  cbn [app s_fine s_feed okhere]. rewrite !len_cons, len_nil.
  do 4 (split; [lia|]). split; [destruct Hne' as [?| ->]; [left; lia|now right]|].
  replace (_ && _) with true by (destruct final; lia).
  replace (len d mod 256 + 256 * (len d / 256)) with (len d) by lia.
  replace ((if final then 1 else 0) =? 1) with final by now destruct final.
  unfold after_block. destruct (Z.ltb_spec 0 (len d)); [apply s_fine_copy|].
  assert (d = []) as -> by (apply len_0_nil; lia). easy.
Qed.
Lemma s_fine_blocks : forall fuel d ab zr, (length d < fuel)%nat ->
  s_fine (STrail []) (fold_left adler_step d ab) zr -> s_fine (SBlock []) ab (s_blocks fuel d ++ zr).
Proof.
  induction fuel as [|f IH]; intros d ab zr Hf Hz; [lia|]. cbn [s_blocks].
  destruct (Z.leb_spec (len d) 65535).
  - eapply s_fine_app; [now apply (s_feeds_block true)| |exact Hz]. apply s_fine_block; auto.
  - rewrite <- app_assoc. eapply s_fine_app.
    + apply (s_feeds_block false). rewrite len_firstn. lia.
    + apply s_fine_block; [rewrite len_firstn; lia|]. left. intros E. apply (f_equal len) in E.
      rewrite len_firstn, len_nil in E. lia.
    + cbv iota. apply IH; [rewrite skipn_length; unfold len in *; lia|].
      rewrite <- fold_left_app, firstn_skipn. exact Hz.
Qed.
Lemma s_fine_trail : forall zr l ab, s_fine (STrail l) ab zr.
Proof.
  induction zr as [|c zr IH]; intros l ab; cbn [s_fine]; [easy|]. split; [easy|].
  unfold s_feed. destruct l as [|? [|? [|? [|? ?]]]]; try apply IH.
  destruct (beq _ _); [|easy]. destruct zr; cbn; easy.
Qed.
Lemma s_compress_fine d : s_fine (SHead []) (1, 0) (s_compress d).
Proof.
  unfold s_compress. cbn [app s_fine s_feed Z.eqb Pos.eqb]. do 2 (split; [easy|]).
  apply s_fine_blocks; [lia|]. apply s_fine_trail.
Qed.

Lemma stored_reach_fine z d : s_fine (SHead []) (1, 0) z -> s_run (SHead []) (1, 0) z = Some d ->
  forall st zr dr, reach stored_laws z d st zr dr ->
  s_fine (s_ph st) (s_ab st) zr /\ s_run (s_ph st) (s_ab st) zr = Some dr.
Proof.
  intros Hf Hr st zr dr H. induction H as [|st zr dr inp n zr' dr' out st' H IH Hz Hn Hp Hs]; [now split|].
  destruct IH as [IH1 IH2].
  destruct (stored_step st zr dr inp n IH2 Hz Hn Hp) as (zr2 & dr2 & out2 & st2 & Hs2 & used2 & E2 & Hf2).
  destruct Hs as (Hd & used & over & Hi & Hz' & Hdr & _ & Hat & Hne & _).
  destruct Hs2 as (Hd2 & used' & over2 & Hi2 & Hz2 & Hdr2 & _ & Hat2 & Hne2 & _).
  assert ((out2, st2) = (out, st')) as E by congruence. injection E as -> ->.
  cbn [zl_at stored_laws] in Hat. split; [|exact Hat].
  assert (zr' = zr2) as ->.
  { destruct zr' as [|a zr'].
    - apply s_run_nil in Hat as [Eph _]. unfold stored_at in Hat2. rewrite Eph in Hat2.
      now apply s_run_done in Hat2 as [-> _].
    - destruct zr2 as [|b zr2].
      + apply s_run_nil in Hat2 as [Eph _]. unfold stored_at in Hat. rewrite Eph in Hat.
        now apply s_run_done in Hat as [? _].
      + destruct (Hne ltac:(easy)) as (T & _). destruct (Hne2 ltac:(easy)) as (T2 & _).
        assert (over = over2) as -> by congruence.
        assert (used = used') as -> by (rewrite Hi in Hi2; now apply app_inv_tail in Hi2).
        rewrite Hz' in Hz2. now apply app_inv_head in Hz2. }
  rewrite E2 in IH1. eapply s_fine_feeds; [exact Hf2|exact IH1].
Qed.
Lemma s_compress_dense d : is_bytes d -> dense stored_laws (s_compress d) d.
Proof.
  intros Hd st zr dr inp n out st' Hreach Hz Hdr Hp Hl Hn Hdec.
  destruct (stored_reach_fine _ _ (s_compress_fine d) (s_compress_run d) _ _ _ Hreach) as [Hf Hr].
  cbn [zs_decompress stored] in Hdec. unfold s_decompress in Hdec. rewrite s_fast_go in Hdec. cbn [rev] in Hdec.
  destruct (s_go (s_ph st) (s_ab st) inp n []) as [[[[ph ab] o] over]| |] eqn:E; cbn [bind] in Hdec; try discriminate.
  assert (o = out) as <- by (destruct ph; congruence).
  apply (s_go_dense _ _ _ _ _ _ _ Hr Hdr Hf Hp) in E; [exact E| |exact Hn].
  destruct zr as [|a zr]; [easy|]. destruct Hf as [Hok _]. unfold lead.
  destruct (s_ph st) as [[|? ?]|l|? ?|?|]; try lia. pose proof (len_nonneg _ l). lia.
Qed.
