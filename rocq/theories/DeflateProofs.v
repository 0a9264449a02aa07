From Coq Require Import ZifyBool ZifyNat.
From Verif Require Import Py PyFacts ZlibModel ZlibProofs DeflateModel.
Ltac Zify.zify_post_hook ::= Z.div_mod_to_equations.

Lemma split_at (l : bytes) n : 0 <= n -> slice_to l n ++ slice_from l n = l.
Proof. intros H. rewrite slice_to_spec, slice_from_spec by easy. apply firstn_skipn. Qed.
Lemma len_to (l : bytes) n : 0 <= n <= len l -> len (slice_to l n) = n.
Proof. intros H. rewrite slice_to_spec by lia. unfold len in *. rewrite firstn_length. lia. Qed.
Lemma len_from (l : bytes) n : 0 <= n <= len l -> len (slice_from l n) = len l - n.
Proof. intros H. rewrite slice_from_spec by lia. unfold len in *. rewrite skipn_length. lia. Qed.
Lemma rev'_rev (l : bytes) : rev' l = rev l.
Proof. unfold rev'. now rewrite rev_append_rev, app_nil_r. Qed.

(** ** Automata *)
Section Automaton.
  Variables (S : Type) (feed : S -> Z -> res (S * bytes)) (done direct : S -> bool).
  Hypothesis last_silent : forall st c st' o, feed st c = Ok (st', o) -> done st' = true -> o = [].
  Hypothesis direct_out : forall st c st' o, feed st c = Ok (st', o) -> direct st = true -> o <> [].
  Notation run := (a_run S feed done).
  Notation go := (a_go S feed done direct).
  Lemma run_step st c z d : run st (c :: z) = Some d -> done st = false /\ exists st' o d', feed st c = Ok (st', o) /\ run st' z = Some d' /\ d = o ++ d'.
  Proof.
    cbn [a_run]. intros H. destruct (done st); [discriminate|]. split; [easy|]. destruct (feed st c) as [[st' o]|x|]; try discriminate. destruct (run st' z) as [d'|] eqn:E; [|discriminate].
    injection H as <-. now exists st', o, d'.
  Qed.
  Inductive afed : S -> bytes -> S -> bytes -> Prop :=
  | fed_nil st : afed st [] st []
  | fed_cons st c z st1 o1 st2 o2 : done st = false -> feed st c = Ok (st1, o1) -> afed st1 z st2 o2 -> afed st (c :: z) st2 (o1 ++ o2).
  Lemma fed_app st z1 st1 o1 : afed st z1 st1 o1 -> forall z2 st2 o2, afed st1 z2 st2 o2 -> afed st (z1 ++ z2) st2 (o1 ++ o2).
  Proof. induction 1 as [|st c z st1 o1 st2 o2 Hd Hf H IH]; intros z2 st3 o3 H3; [easy|]. rewrite <- app_assoc. cbn [app]. econstructor; [easy|exact Hf|]. now apply IH. Qed.
  Lemma fed_run st z st' o : afed st z st' o -> done st' = true -> run st z = Some o.
  Proof.
    induction 1 as [st|st c z st1 o1 st2 o2 Hd Hf H IH]; intros He; cbn [a_run]; [now rewrite He|]. rewrite Hd, Hf. now rewrite IH.
  Qed.
  Lemma fed_det st z st1 o1 : afed st z st1 o1 -> forall st2 o2, afed st z st2 o2 -> st1 = st2 /\ o1 = o2.
  Proof.
    induction 1 as [st|st c z st1 o1 st2 o2 Hd Hf H IH]; intros st3 o3 H3; inversion H3 as [|? ? ? st4 o4 ? o5 Hd4 Hf4 H4]; subst; [easy|]. rewrite Hf in Hf4. injection Hf4 as <- <-.
    now destruct (IH _ _ H4) as [-> ->].
  Qed.
  Lemma fed_run_rest st z st' o zr d : afed st z st' o -> run st (z ++ zr) = Some d -> exists d', run st' zr = Some d' /\ d = o ++ d'.
  Proof.
    intros H. revert d. induction H as [st|st c z st1 o1 st2 o2 Hd Hf H IH]; intros d Hr; [now exists d|]. cbn [app] in Hr.
    apply run_step in Hr as (_ & st' & o' & d' & Hf' & Hr & ->). rewrite Hf in Hf'. injection Hf' as <- <-. destruct (IH _ Hr) as (d2 & H2 & ->). exists d2. split; [easy|]. now rewrite app_assoc.
  Qed.
  Lemma go_step inp : forall st pend zr o room, run st zr = Some o -> (done st = true -> pend = []) -> 0 <= room -> prefix inp zr \/ prefix zr inp ->
    exists st' p out over used zr' o' o1, go st pend inp room = Ok (st', p, out, over) /\ afed st used st' o1 /\ pend ++ o1 = out ++ p /\ (p <> [] -> len out = room) /\ inp = used ++ over /\ zr = used ++ zr' /\ pend ++ o = out ++ p ++ o' /\
      run st' zr' = Some o' /\ (done st' = true -> p = []) /\ len out <= room /\ (zr' <> [] -> over <> [] -> len out = room /\ p ++ o' <> []).
  Proof.
    assert (Hfull : forall st pend zr o inp room, run st zr = Some o -> (done st = true -> pend = []) -> 0 <= room -> (room <? len pend) = true ->
      exists st' p out over used zr' o' o1, Ok (st, slice_from pend room, slice_to pend room, inp) = Ok (st', p, out, over) /\ afed st used st' o1 /\ pend ++ o1 = out ++ p /\ (p <> [] -> len out = room) /\
        inp = used ++ over /\ zr = used ++ zr' /\ pend ++ o = out ++ p ++ o' /\ run st' zr' = Some o' /\ (done st' = true -> p = []) /\ len out <= room /\ (zr' <> [] -> over <> [] -> len out = room /\ p ++ o' <> [])).
    { clear inp. intros st pend zr o inp room Hrun Hd Hr El. do 4 eexists. exists [], zr, o, []. split; [reflexivity|]. split; [constructor|]. rewrite app_nil_r, app_assoc, split_at by easy. rewrite len_to by lia.
      do 5 (split; [easy|]). split; [easy|]. split; [intros H; rewrite (Hd H) in El; cbn in El; lia|]. split; [lia|]. intros _ _. split; [lia|].
      intros H. apply (f_equal len) in H. rewrite len_app, len_from in H by lia. pose proof (len_nonneg Z o). cbn in H. lia. }
    induction inp as [|c inp IH]; intros st pend zr o room Hrun Hd Hr Hp; cbn [a_go]; (destruct (room <? len pend) eqn:El; [now apply Hfull|]).
    - do 4 eexists. exists [], zr, o, []. split; [reflexivity|]. split; [constructor|]. do 6 (split; [easy|]). split; [easy|]. split; [lia|easy].
    - destruct (done st) eqn:Ed.
      { assert (zr = []) as -> by (destruct zr as [|x zr]; [easy|]; apply run_step in Hrun as [H _]; congruence).
        cbn [orb]. do 4 eexists. exists [], [], o, []. split; [reflexivity|]. split; [constructor|]. do 7 (split; [easy|]). split; [lia|easy]. }
      destruct zr as [|x zr]; [cbn in Hrun; rewrite Ed in Hrun; discriminate|].
      destruct (run_step _ _ _ _ Hrun) as (_ & st1 & o1 & d1 & Ef & Hrun1 & ->).
      cbn [orb]. destruct (direct st && (room <=? len pend)) eqn:Edir.
      { do 4 eexists. exists [], (x :: zr), (o1 ++ d1), []. split; [reflexivity|]. split; [constructor|]. do 7 (split; [easy|]). split; [lia|]. intros _ _. split; [lia|].
        apply andb_prop in Edir as [Edir _]. pose proof (direct_out _ _ _ _ Ef Edir). destruct o1; easy. }
      assert (x = c /\ (prefix inp zr \/ prefix zr inp)) as [-> Hp'].
      { destruct Hp as [(y & Hy)|(y & Hy)]; injection Hy as -> ->; split; try easy; [left|right]; now exists y. }
      rewrite Ef. cbn [bind].
      destruct (IH st1 o1 zr d1 (room - len pend) Hrun1 (last_silent _ _ _ _ Ef) ltac:(lia) Hp') as (st' & p & out & over & used & zr' & o' & o2 & -> & Hf & E2 & Hfl & -> & -> & Eo & R' & D' & L' & X').
      cbn [bind]. exists st', p, (pend ++ out), over, (c :: used), zr', o', (o1 ++ o2). rewrite len_app. split; [easy|]. split; [now econstructor; [|exact Ef|]|]. split; [now rewrite E2, !app_assoc|].
      split; [intros H; pose proof (Hfl H); lia|]. split; [easy|]. split; [easy|]. split; [now rewrite Eo, !app_assoc|]. split; [easy|]. split; [easy|].
      split; [lia|]. intros H1 H2. destruct (X' H1 H2). split; [lia|easy].
  Qed.
  Definition a_at (st : astate S) (zr dr : bytes) : Prop :=
    exists o, run (a_core st) zr = Some o /\ dr = a_pend st ++ o /\ (done (a_core st) = true -> a_pend st = []).
  Lemma at_end st zr dr : a_at st zr dr -> (zr = [] <-> done (a_core st) = true) /\ (zr = [] -> dr = []).
  Proof.
    intros (o & Hr & -> & Hd). destruct zr as [|c zr].
    - cbn in Hr. destruct (done (a_core st)); [|discriminate]. injection Hr as <-. split; [easy|]. intros _. now rewrite Hd.
    - apply run_step in Hr as [Hr _]. rewrite Hr. easy.
  Qed.
End Automaton.

(** ** The decoder puts nothing out with the last byte *)
Lemma next_clen_phase ch nlen ndist rlens ph : next_clen ch nlen ndist rlens = Ok ph -> ph <> PDone.
Proof. unfold next_clen. destruct (_ <? _); [now intros [= <-]|]. destruct (_ && _); [now intros [= <-]|discriminate]. Qed.
Lemma next_block_phase fin : next_block fin <> PDone.
Proof. now destruct fin. Qed.
Lemma arrive_phase g fin hist v fin' ph o : arrive g fin hist v = Ok (fin', ph, o) -> ph <> PDone.
Proof.
  destruct g; cbn [arrive].
  - destruct (v / 2) as [|[[]|[]|]|]; try discriminate; now intros [= <- <- <-].
  - destruct (_ || _); [discriminate|]. now intros [= <- <- <-].
  - destruct (_ <? _); [now intros [= <- <- <-]|]. destruct (usable _ _); [|discriminate]. intros H. apply bind_ok_inv in H as (p & H1 & H). injection H as <- <- <-. now apply next_clen_phase in H1.
  - intros H. apply bind_ok_inv in H as (p & H1 & H). injection H as <- <- <-. now apply next_clen_phase in H1.
  - now intros [= <- <- <-].
  - intros H. apply bind_ok_inv in H as (p & H1 & H). now injection H as <- <- <-.
Qed.
Lemma symbol_phase g fin hist s fin' ph o : symbol g fin hist s = Ok (fin', ph, o) -> ph <> PDone.
Proof.
  destruct g; cbn [symbol].
  - destruct (s <? 16). { intros H. apply bind_ok_inv in H as (p & H1 & H). injection H as <- <- <-. now apply next_clen_phase in H1. }
    destruct (_ && _); [discriminate|]. now intros [= <- <- <-].
  - destruct (s <? 256); [now intros [= <- <- <-]|]. destruct (s =? 256); [intros [= <- <- <-]; apply next_block_phase|]. destruct (285 <? s); [discriminate|]. destruct (at_ length_extra _); now intros [= <- <- <-].
  - destruct (29 <? s); [discriminate|]. destruct (at_ dist_extra _); [|now intros [= <- <- <-]..]. intros H. apply bind_ok_inv in H as (p & H1 & H). now injection H as <- <- <-.
Qed.
Lemma bit_step_phase ph fin hist b fin' ph' o : bit_step ph fin hist b = Ok (fin', ph', o) -> ph' <> PDone.
Proof.
  destruct ph as [| |g need weight acc|g [|c counts] symbols code first index| | | |]; cbn [bit_step]; try discriminate.
  - destruct (_ <=? _); [apply arrive_phase|now intros [= <- <- <-]].
  - destruct (_ <? _); [apply symbol_phase|now intros [= <- <- <-]].
Qed.
Lemma bits_step_phase bits : forall st st' o, bits_step st bits = Ok (st', o) -> c_ph st <> PDone -> c_ph st' <> PDone.
Proof.
  induction bits as [|b bits IH]; intros st st' o H Hne; cbn [bits_step] in H; [now injection H as <- <-|].
  destruct (bitwise (c_ph st)); [|now injection H as <- <-]. apply bind_ok_inv in H as ([[fin ph] o1] & H1 & H). apply bind_ok_inv in H as ([st2 o2] & H2 & H). injection H as <- <-.
  apply (IH _ _ _ H2). cbn. now apply bit_step_phase in H1.
Qed.
Lemma inflate_last st c st' o : inflate_feed st c = Ok (st', o) -> inflate_done st' = true -> o = [].
Proof.
  unfold inflate_feed, inflate_done. intros H Hd. assert (Hd' : c_ph st' = PDone) by now destruct (c_ph st'). clear Hd.
  assert (Hto : forall fin ph o', Ok (with_out st fin ph o', o') = Ok (st', o) -> ph <> PDone -> o = []). { intros fin ph o' E Hp. injection E as <- <-. cbn in Hd'. now elim Hp. }
  assert (Hbits : bits_step st (bits_of 8 c) = Ok (st', o) -> c_ph st <> PDone -> o = []). { intros E Hp. now elim (bits_step_phase _ _ _ _ E Hp). }
  destruct (c_ph st) as [|cmf|g n w a|g cs sy co f i|l|n|l|] eqn:E.
  - now apply Hto in H.
  - destruct (_ && _); [now apply Hto in H|discriminate].
  - now apply Hbits.
  - now apply Hbits.
  - destruct l as [|l0 [|l1 [|n0 [|]]]]; try now apply Hto in H. destruct (_ =? _); [|discriminate]. apply Hto in H; [easy|]. unfold after_bytes. destruct (0 <? _); [easy|apply next_block_phase].
  - apply Hto in H; [easy|]. unfold after_bytes. destruct (0 <? _); [easy|apply next_block_phase].
  - destruct l as [|x [|y [|z [|]]]]; try now apply Hto in H. destruct (beq _ _); [|discriminate]. now injection H as _ <-.
  - discriminate.
Qed.
Lemma inflate_direct_out st c st' o : inflate_feed st c = Ok (st', o) -> inflate_direct st = true -> o <> [].
Proof. unfold inflate_feed, inflate_direct. destruct (c_ph st); try discriminate. now intros [= <- <-]. Qed.

(** ** What the compressor writes *)
Notation i_run := (a_run core inflate_feed inflate_done).
Notation fed := (afed core inflate_feed inflate_done).
(** The state after the output out. *)
Definition stt (ph : phase) (fin : bool) (out : bytes) : core := mk_core ph fin (rev out) (adler out).
Lemma with_stt ph fin out fin' ph' o : with_out (stt ph fin out) fin' ph' o = stt ph' fin' (out ++ o).
Proof. unfold with_out, stt, adler. cbn. now rewrite rev_append_rev, rev_app_distr, fold_left_app. Qed.
Lemma with_stt_nil ph fin out fin' ph' : with_out (stt ph fin out) fin' ph' [] = stt ph' fin' out.
Proof. reflexivity. Qed.
Lemma fed_copy d : forall fin out, d <> [] -> fed (stt (PCopy (len d)) fin out) d (stt (next_block fin) fin (out ++ d)) d.
Proof.
  induction d as [|c d IH]; intros fin out Hne; [easy|]. change (c :: d) with ([c] ++ d) at 4. eapply fed_cons; [reflexivity| |].
  - unfold inflate_feed. cbn [c_ph stt]. rewrite with_stt. reflexivity.
  - rewrite len_cons. unfold after_bytes. destruct d as [|c' d]; [rewrite len_nil; constructor|]. cbn [c_fin stt]. replace (len (c' :: d) + 1 - 1) with (len (c' :: d)) by lia.
    replace (0 <? len (c' :: d)) with true by (rewrite len_cons; pose proof (len_nonneg Z d); lia). change (c :: c' :: d) with ([c] ++ c' :: d). rewrite app_assoc. now apply IH.
Qed.
Lemma fed_block fin f0 d out : len d <= 65535 -> fed (stt (collect GBlock 3) f0 out) (s_block fin d) (stt (next_block fin) fin (out ++ d)) d.
Proof.
  intros Hl. unfold s_block. pose proof (len_nonneg Z d).
  eapply (fed_cons _ _ _ _ _ _ (stt (PLen []) fin out) []); [reflexivity|now destruct fin|].
  do 3 (eapply (fed_cons _ _ _ _ _ _ _ []); [reflexivity|reflexivity|cbn [stt c_fin app]; rewrite with_stt_nil]).
  eapply (fed_cons _ _ _ _ _ _ (stt (after_bytes fin (len d)) fin out) []); [reflexivity| |].
  - unfold inflate_feed. cbn [c_ph stt c_fin]. replace (len d mod 256 + 256 * (len d / 256)) with (len d) by lia.
    replace ((65535 - len d) mod 256 + 256 * ((65535 - len d) / 256) =? 65535 - len d) with true by lia. now rewrite with_stt_nil.
  - unfold after_bytes. destruct d as [|c d]; [rewrite app_nil_r; constructor|]. replace (0 <? len (c :: d)) with true by (rewrite len_cons; pose proof (len_nonneg Z d); lia). now apply fed_copy.
Qed.
Lemma fed_blocks fuel : forall d out, (length d < fuel)%nat -> fed (stt (collect GBlock 3) false out) (s_blocks fuel d) (stt (PTrail []) true (out ++ d)) d.
Proof.
  induction fuel as [|fuel IH]; intros d out Hf; [lia|]. cbn [s_blocks]. destruct (len d <=? 65535) eqn:E; [apply (fed_block true); lia|].
  rewrite <- (firstn_skipn (Z.to_nat 65535) d) at 3 4. rewrite app_assoc. eapply fed_app; [apply (fed_block false)|].
  - unfold len. rewrite firstn_length. lia.
  - cbn [next_block]. apply IH. rewrite skipn_length. unfold len in E. lia.
Qed.
Lemma fed_trailer out : fed (stt (PTrail []) true out) (adler_bytes (adler out)) (stt PDone true out) [].
Proof.
  unfold adler_bytes. destruct (be_enc 2 (snd (adler out)) ++ be_enc 2 (fst (adler out))) as [|x [|y [|z [|w [|]]]]] eqn:E; try (apply (f_equal (@length Z)) in E; rewrite app_length, !be_enc_length in E; discriminate E).
  do 3 (eapply (fed_cons _ _ _ _ _ _ _ []); [reflexivity|reflexivity|cbn [stt c_fin app]; rewrite with_stt_nil]).
  eapply (fed_cons _ _ _ _ _ _ (stt PDone true out) []); [reflexivity| |constructor]. unfold inflate_feed. cbn [c_ph stt c_fin c_ab]. unfold adler_bytes. rewrite E.
  replace (beq [x; y; z; w] [x; y; z; w]) with true by (symmetry; now apply beq_eq). now rewrite with_stt_nil.
Qed.
Lemma fed_head z st o : fed (stt (collect GBlock 3) false []) z st o -> fed inflate_start ([120; 1] ++ z) st o.
Proof.
  intros H. change o with ([] ++ [] ++ o). eapply fed_cons; [reflexivity|reflexivity|]. eapply fed_cons; [reflexivity|vm_compute; reflexivity|exact H].
Qed.
Lemma stored_run d : i_run inflate_start (s_compress d) = Some d.
Proof.
  apply (fed_run _ _ _ _ _ (stt PDone true d)); [|reflexivity]. unfold s_compress. apply fed_head. rewrite <- (app_nil_r d) at 5. eapply fed_app; [|apply fed_trailer].
  apply (fed_blocks _ d []). lia.
Qed.

(** Bits. *)
Inductive sfed : core -> list Z -> core -> bytes -> Prop :=
| sf_nil st : sfed st [] st []
| sf_cons st b bits fin ph o st' o' : bitwise (c_ph st) = true -> bit_step (c_ph st) (c_fin st) (c_hist st) b = Ok (fin, ph, o) ->
    sfed (with_out st fin ph o) bits st' o' -> sfed st (b :: bits) st' (o ++ o').
Lemma sfed_app st a st1 o1 : sfed st a st1 o1 -> forall b st2 o2, sfed st1 b st2 o2 -> sfed st (a ++ b) st2 (o1 ++ o2).
Proof. induction 1 as [|st b bits fin ph o st' o' Hb Hs H IH]; intros c st2 o2 H2; [easy|]. rewrite <- app_assoc. cbn [app]. econstructor; [easy|exact Hs|]. now apply IH. Qed.
Lemma sfed_split a : forall b st st' o, sfed st (a ++ b) st' o -> exists st1 o1 o2, sfed st a st1 o1 /\ sfed st1 b st' o2 /\ o = o1 ++ o2.
Proof.
  induction a as [|x a IH]; intros b st st' o H; [exists st, [], o; now repeat constructor|]. cbn [app] in H. inversion H as [|? ? ? fin ph o1 ? o2 Hb Hs Hf]; subst.
  destruct (IH _ _ _ _ Hf) as (st1 & p1 & p2 & H1 & H2 & ->). exists st1, (o1 ++ p1), p2. split; [now econstructor; [|exact Hs|]|]. split; [easy|]. now rewrite app_assoc.
Qed.
Lemma sfed_step st bits st' o : sfed st bits st' o -> bits_step st bits = Ok (st', o).
Proof. induction 1 as [|st b bits fin ph o st' o' Hb Hs H IH]; [easy|]. cbn [bits_step]. rewrite Hb, Hs. cbn [bind]. now rewrite IH. Qed.
Lemma sfed_step_more st bits st' o more : sfed st bits st' o -> bitwise (c_ph st') = false -> bits_step st (bits ++ more) = Ok (st', o).
Proof.
  induction 1 as [st|st b bits fin ph o st' o' Hb Hs H IH]; intros Hw; cbn [app]; [destruct more; [easy|]; cbn [bits_step]; now rewrite Hw|].
  cbn [bits_step]. rewrite Hb, Hs. cbn [bind]. now rewrite IH.
Qed.
Definition is_bit (b : Z) : Prop := b = 0 \/ b = 1.
Lemma bits_number n : forall l, Forall is_bit l -> (length l <= n)%nat -> bits_of n (number l) = l ++ repeat 0 (n - length l).
Proof.
  induction n as [|n IH]; intros [|b l] Hl Hn; try reflexivity; [cbn in Hn; lia| |].
  - cbn [bits_of number]. change (0 mod 2) with 0. change (0 / 2) with (number []). rewrite IH by (easy || cbn; lia). cbn. now rewrite Nat.sub_0_r.
  - inversion Hl as [|? ? [Hb|Hb] Hl']; subst; cbn [bits_of number length] in *.
    + replace ((0 + 2 * number l) mod 2) with 0 by lia. replace ((0 + 2 * number l) / 2) with (number l) by lia. rewrite IH by (easy || lia). easy.
    + replace ((1 + 2 * number l) mod 2) with 1 by lia. replace ((1 + 2 * number l) / 2) with (number l) by lia. rewrite IH by (easy || lia). easy.
Qed.
Lemma sfed_bitwise st b bits st' o : sfed st (b :: bits) st' o -> bitwise (c_ph st) = true.
Proof. now inversion 1. Qed.
Lemma feed_bitwise st c : bitwise (c_ph st) = true -> inflate_done st = false /\ inflate_feed st c = bits_step st (bits_of 8 c).
Proof. unfold inflate_done, inflate_feed. destruct (c_ph st); try discriminate; easy. Qed.
Lemma fed_pack fuel : forall bits st st' o, (length bits <= fuel)%nat -> Forall is_bit bits -> sfed st bits st' o -> bitwise (c_ph st') = false -> fed st (pack_bits fuel bits) st' o.
Proof.
  induction fuel as [|fuel IH]; intros bits st st' o Hl Hb H Hw; (destruct bits as [|b bits]; [inversion H; subst; constructor|]); [cbn in Hl; lia|]. cbn [pack_bits].
  destruct (feed_bitwise st (number (firstn 8 (b :: bits))) (sfed_bitwise _ _ _ _ _ H)) as [Hd Hf].
  assert (Hb8 : Forall is_bit (firstn 8 (b :: bits))). { rewrite <- (firstn_skipn 8 (b :: bits)) in Hb. now apply Forall_app in Hb. }
  rewrite bits_number in Hf by (easy || (rewrite firstn_length; lia)).
  destruct (le_lt_dec (length (b :: bits)) 8) as [Hle|Hgt].
  - rewrite (firstn_all2 (b :: bits)) in Hf |- * by easy. rewrite (skipn_all2 (b :: bits)) by easy. rewrite <- (app_nil_r o). eapply fed_cons; [exact Hd| |].
    + rewrite Hf. apply (sfed_step_more _ _ _ _ _ H Hw).
    + destruct fuel; constructor.
  - rewrite <- (firstn_skipn 8 (b :: bits)) in H. apply sfed_split in H as (st1 & o1 & o2 & H1 & H2 & ->). eapply fed_cons; [exact Hd| |].
    + rewrite Hf. replace (8 - length (firstn 8 (b :: bits)))%nat with 0%nat by (rewrite firstn_length; lia). cbn [repeat]. rewrite app_nil_r. apply (sfed_step _ _ _ _ H1).
    + apply IH; [rewrite skipn_length; cbn [length] in *; lia| |easy|easy]. rewrite <- (firstn_skipn 8 (b :: bits)) in Hb. now apply Forall_app in Hb.
Qed.

(** Codes. *)
Fixpoint find_code (counts symbols : list Z) (code first index : Z) (bits : list Z) : option Z :=
  match bits, counts with
  | b :: bits, c :: counts =>
      let code := code + b in
      if code - first <? c then match bits with [] => Some (at_ symbols (index + (code - first))) | _ => None end
      else find_code counts symbols (2 * code) (2 * (first + c)) (index + c) bits
  | _, _ => None
  end.
Lemma sfed_walk g symbols bits : forall counts code first index fin out s fin' ph o,
  find_code counts symbols code first index bits = Some s -> symbol g fin (rev out) s = Ok (fin', ph, o) ->
  sfed (stt (PWalk g counts symbols code first index) fin out) bits (stt ph fin' (out ++ o)) o.
Proof.
  induction bits as [|b bits IH]; intros [|c counts] code first index fin out s fin' ph o Hf Hs; try discriminate. cbn [find_code] in Hf.
  destruct (code + b - first <? c) eqn:E.
  - destruct bits; [|discriminate]. injection Hf as <-. rewrite <- (app_nil_r o) at 2. eapply sf_cons; [reflexivity| |].
    + cbn [c_ph c_fin c_hist stt bit_step]. rewrite E. exact Hs.
    + rewrite with_stt. constructor.
  - change o with ([] ++ o) at 2. eapply sf_cons; [reflexivity| |].
    + cbn [c_ph c_fin c_hist stt bit_step]. rewrite E. reflexivity.
    + rewrite with_stt_nil. now apply (IH _ _ _ _ _ _ s).
Qed.
Notation lit_phase := (walk (WLit fixed_lit fixed_dist) fixed_lit).
Lemma fixed_codes : forallb (fun s => match find_code (h_count fixed_lit) (h_symbol fixed_lit) 0 0 0 (fixed_code s) with Some t => t =? s | None => false end) (upto 288) = true.
Proof. vm_compute. reflexivity. Qed.
Lemma fixed_find s : 0 <= s < 288 -> find_code (h_count fixed_lit) (h_symbol fixed_lit) 0 0 0 (fixed_code s) = Some s.
Proof.
  intros Hs. pose proof fixed_codes as H. rewrite forallb_forall in H. specialize (H s). destruct (find_code _ _ _ _ _ _) as [t|].
  - f_equal. enough (t =? s = true) by lia. apply H. unfold upto. apply in_map_iff. exists (Z.to_nat s). split; [lia|]. apply in_seq. lia.
  - enough (false = true) by discriminate. apply H. unfold upto. apply in_map_iff. exists (Z.to_nat s). split; [lia|]. apply in_seq. lia.
Qed.
Definition ok_run (n : Z) : Prop := 3 <= n <= 10 \/ n = 258.
Definition token_len (t : token) : Z := match t with Lit _ => 1 | Run n => n end.
Lemma copy_run n : forall b hist, copy_back n 0 (b :: hist) = repeat b n.
Proof. induction n as [|n IH]; intros b hist; [easy|]. cbn [copy_back nth repeat]. now rewrite IH. Qed.
Lemma sfed_lit b fin out : is_byte b -> sfed (stt lit_phase fin out) (fixed_code b) (stt lit_phase fin (out ++ [b])) [b].
Proof.
  intros Hb. unfold is_byte in Hb. apply (sfed_walk _ _ _ _ _ _ _ _ _ b); [apply fixed_find; lia|]. cbn [symbol]. now replace (b <? 256) with true by lia.
Qed.
Lemma sfed_run n b fin out : ok_run n -> sfed (stt lit_phase fin (out ++ [b])) (token_bits (Run n)) (stt lit_phase fin ((out ++ [b]) ++ repeat b (Z.to_nat n))) (repeat b (Z.to_nat n)).
Proof.
  intros Hn. cbn [token_bits]. change (repeat b (Z.to_nat n)) with ([] ++ repeat b (Z.to_nat n)) at 2.
  apply (sfed_app _ _ (stt (walk (WDist fixed_lit fixed_dist n) fixed_dist) fin (out ++ [b]))).
  - rewrite <- (app_nil_r (out ++ [b])) at 2. apply (sfed_walk _ _ _ _ _ _ _ _ _ (if n =? 258 then 285 else 254 + n)).
    + apply fixed_find. destruct Hn; destruct (n =? 258) eqn:E; lia.
    + assert (n = 258 \/ n = 3 \/ n = 4 \/ n = 5 \/ n = 6 \/ n = 7 \/ n = 8 \/ n = 9 \/ n = 10) as C by (destruct Hn; lia). repeat destruct C as [->|C]; try reflexivity. now rewrite C.
  - apply (sfed_walk _ _ _ _ _ _ _ _ _ 0); [vm_compute; reflexivity|]. cbn [symbol]. change (29 <? 0) with false. change (at_ dist_extra 0) with 0. change (at_ dist_base 0) with 1.
    unfold match_out. rewrite rev_app_distr. cbn [rev app]. rewrite len_cons. pose proof (len_nonneg Z (rev out)). replace (len (rev out) + 1 <? 1) with false by lia. cbn iota. rewrite copy_run. reflexivity.
Qed.
Lemma sfed_same b toks : forall fin out, is_byte b -> Forall (fun t => t = Lit b \/ exists n, t = Run n /\ ok_run n) toks ->
  let d := repeat b (Z.to_nat (fold_right (fun t a => token_len t + a) 0 toks)) in
  sfed (stt lit_phase fin (out ++ [b])) (flat_map token_bits toks) (stt lit_phase fin ((out ++ [b]) ++ d)) d.
Proof.
  induction toks as [|t toks IH]; intros fin out Hb Ht; cbn [fold_right flat_map]; [cbn; rewrite app_nil_r; constructor|]. inversion Ht as [|? ? H1 H2]; subst.
  assert (Hp : 0 <= fold_right (fun t a => token_len t + a) 0 toks).
  { clear -H2. induction H2 as [|t l Ht _ IH]; cbn [fold_right]; [lia|]. destruct Ht as [->|(n & -> & Hn)]; cbn [token_len]; [lia|]. destruct Hn; lia. }
  assert (Hpos : 0 < token_len t) by (destruct H1 as [->|(n & -> & [Hn|Hn])]; cbn; lia).
  rewrite Z2Nat.inj_add, repeat_app by lia. cbn zeta. rewrite app_assoc.
  assert (Hend : exists out', (out ++ [b]) ++ repeat b (Z.to_nat (token_len t)) = out' ++ [b]).
  { exists (out ++ repeat b (Z.to_nat (token_len t))). rewrite <- !app_assoc. f_equal. change [b] with (repeat b 1). now rewrite <- !repeat_app, Nat.add_comm. }
  destruct Hend as [out' Hend].
  apply (sfed_app _ _ (stt lit_phase fin ((out ++ [b]) ++ repeat b (Z.to_nat (token_len t))))); [|rewrite Hend; now apply IH].
  destruct H1 as [->|(n & -> & Hn)]; [now apply (sfed_lit b)|now apply sfed_run].
Qed.
Lemma fold_app_len a b : fold_right (fun t s => token_len t + s) 0 (a ++ b) = fold_right (fun t s => token_len t + s) 0 a + fold_right (fun t s => token_len t + s) 0 b.
Proof. induction a as [|t a IH]; [reflexivity|]. cbn [app fold_right]. lia. Qed.
Lemma fold_repeat_len t n : fold_right (fun t s => token_len t + s) 0 (repeat t n) = token_len t * Z.of_nat n.
Proof. induction n as [|n IH]; cbn [repeat fold_right]; lia. Qed.
Lemma sfed_tokens b n fin out : is_byte b -> 1 <= n ->
  sfed (stt lit_phase fin out) (flat_map token_bits (run_tokens b n)) (stt lit_phase fin (out ++ repeat b (Z.to_nat n))) (repeat b (Z.to_nat n)).
Proof.
  intros Hb Hn. unfold run_tokens. cbn zeta. set (m := n - 1). set (k := m mod 258). set (toks := _ ++ _).
  assert (Htot : fold_right (fun t a => token_len t + a) 0 toks = m).
  { unfold toks. rewrite !fold_app_len, !fold_repeat_len. cbn [token_len]. replace (fold_right _ 0 (if 3 <=? k mod 10 then _ else _)) with (k mod 10).
    - unfold k, m. lia.
    - destruct (3 <=? k mod 10); [cbn; lia|]. rewrite fold_repeat_len. cbn [token_len]. lia. }
  assert (Hok : Forall (fun t => t = Lit b \/ exists n, t = Run n /\ ok_run n) toks).
  { unfold toks. apply Forall_app. split; [|apply Forall_app; split].
    - apply Forall_forall. intros t Ht. apply repeat_spec in Ht as ->. right. exists 258. split; [easy|now right].
    - apply Forall_forall. intros t Ht. apply repeat_spec in Ht as ->. right. exists 10. split; [easy|left; lia].
    - destruct (3 <=? k mod 10) eqn:E.
      + constructor; [|constructor]. right. exists (k mod 10). split; [easy|left; lia].
      + apply Forall_forall. intros t Ht. apply repeat_spec in Ht as ->. now left. }
  cbn [flat_map token_bits]. replace (Z.to_nat n) with (1 + Z.to_nat m)%nat by lia. rewrite repeat_app, app_assoc. cbn [repeat].
  apply (sfed_app _ _ (stt lit_phase fin (out ++ [b]))); [now apply sfed_lit|]. rewrite <- Htot. now apply sfed_same.
Qed.
Definition spread (l : list (Z * Z)) : bytes := flat_map (fun p => repeat (fst p) (Z.to_nat (snd p))) l.
Lemma runs_spread d : is_bytes d -> spread (runs_of d) = d /\ Forall (fun p => is_byte (fst p) /\ 1 <= snd p) (runs_of d).
Proof.
  induction 1 as [|b d Hb Hd [IH1 IH2]]; [split; constructor|]. cbn [runs_of]. destruct (runs_of d) as [|[c n] l].
  - cbn in *. subst d. split; [easy|]. constructor; [|constructor]. cbn. split; [easy|lia].
  - inversion IH2 as [|? ? [Hc Hn] Hl]; subst. cbn [fst snd] in *. destruct (c =? b) eqn:E.
    + assert (c = b) as -> by lia. split; [|constructor; [cbn; split; [easy|lia]|easy]]. cbn [spread flat_map fst snd]. replace (Z.to_nat (n + 1)) with (S (Z.to_nat n)) by lia. reflexivity.
    + split; [reflexivity|]. constructor; [cbn; split; [easy|lia]|easy].
Qed.
Lemma sfed_runs l : forall fin out, Forall (fun p => is_byte (fst p) /\ 1 <= snd p) l ->
  sfed (stt lit_phase fin out) (flat_map token_bits (flat_map (fun p => run_tokens (fst p) (snd p)) l)) (stt lit_phase fin (out ++ spread l)) (spread l).
Proof.
  induction l as [|[b n] l IH]; intros fin out Hl; [cbn; rewrite app_nil_r; constructor|]. inversion Hl as [|? ? [Hb Hn] Hl']; subst. cbn [spread flat_map fst snd] in *. rewrite flat_map_app, app_assoc.
  apply (sfed_app _ _ (stt lit_phase fin (out ++ repeat b (Z.to_nat n)))); [now apply sfed_tokens|now apply IH].
Qed.
Lemma rev'_bits n v : Forall is_bit (rev' (bits_of n v)).
Proof.
  rewrite rev'_rev. apply Forall_rev. revert v. induction n as [|n IH]; intros v; cbn [bits_of]; constructor; [unfold is_bit; lia|apply IH].
Qed.
Lemma fixed_code_bits s : Forall is_bit (fixed_code s).
Proof. unfold fixed_code. cbn zeta. destruct (s <? 144); [apply rev'_bits|]. destruct (s <? 256); [apply rev'_bits|]. destruct (s <? 280); apply rev'_bits. Qed.
Lemma token_bits_bits t : Forall is_bit (token_bits t).
Proof. destruct t; cbn [token_bits]; [apply fixed_code_bits|]. apply Forall_app. split; [apply fixed_code_bits|]. repeat constructor. Qed.
Lemma fixed_bits_bits d : Forall is_bit (fixed_bits d).
Proof.
  unfold fixed_bits. apply Forall_app. split; [repeat (constructor; [unfold is_bit; lia|]); constructor|]. apply Forall_app. split; [|apply fixed_code_bits]. apply Forall_flat_map. apply Forall_forall. intros t _. apply token_bits_bits.
Qed.
Lemma fixed_run d : is_bytes d -> i_run inflate_start (fixed_compress d) = Some d.
Proof.
  intros Hd. destruct (runs_spread d Hd) as [Hs Hr]. apply (fed_run _ _ _ _ _ (stt PDone true d)); [|reflexivity]. unfold fixed_compress. cbn zeta. apply fed_head. replace d with (d ++ []) at 5 by apply app_nil_r.
  eapply fed_app; [|apply fed_trailer]. apply fed_pack; [easy| | |reflexivity].
  - apply fixed_bits_bits.
  - unfold fixed_bits. change d with ([] ++ d) at 3. apply (sfed_app _ _ (stt lit_phase true [])).
    + do 3 (eapply (sf_cons _ _ _ _ _ []); [reflexivity|reflexivity|cbn [with_out rev_append fold_left stt c_hist c_ab]]). constructor.
    + rewrite <- (app_nil_r d) at 3. apply (sfed_app _ _ (stt lit_phase true d)); [rewrite <- Hs at 2 3; now apply (sfed_runs _ true [])|].
      rewrite <- (app_nil_r d) at 2. apply (sfed_walk _ _ _ _ _ _ _ _ _ 256); [now apply fixed_find|reflexivity].
Qed.

(** ** The laws *)
Lemma deflate_all chunks : forall c, zc_all deflate c chunks = zc_flush deflate (fst c, snd c ++ concat chunks).
Proof.
  induction chunks as [|d l IH]; intros c; cbn [zc_all concat]; [rewrite app_nil_r; now destruct c|]. cbn [zc_compress deflate]. rewrite IH. cbn [fst snd app]. now rewrite app_assoc.
Qed.
Lemma adler_bytes_bytes ab : is_bytes (adler_bytes ab).
Proof. unfold adler_bytes. apply Forall_app. split; apply be_enc_bytes. Qed.
Lemma number_range l : Forall is_bit l -> 0 <= number l < 2 ^ Z.of_nat (length l).
Proof.
  induction 1 as [|b l Hb _ IH]; [cbn; lia|]. cbn [number length]. rewrite Nat2Z.inj_succ, Z.pow_succ_r by lia. destruct Hb; lia.
Qed.
Lemma pack_bytes fuel : forall bits, Forall is_bit bits -> is_bytes (pack_bits fuel bits).
Proof.
  induction fuel as [|fuel IH]; intros [|b bits] Hb; try constructor.
  - assert (H8 : Forall is_bit (firstn 8 (b :: bits))). { rewrite <- (firstn_skipn 8 (b :: bits)) in Hb. now apply Forall_app in Hb. }
    pose proof (number_range _ H8) as H. assert (Hl : Z.of_nat (length (firstn 8 (b :: bits))) <= 8) by (rewrite firstn_length; lia).
    apply (Z.pow_le_mono_r 2) in Hl; [|lia]. change (2 ^ 8) with 256 in Hl. unfold is_byte. lia.
  - apply IH. rewrite <- (firstn_skipn 8 (b :: bits)) in Hb. now apply Forall_app in Hb.
Qed.
Lemma fixed_compress_bytes d : is_bytes (fixed_compress d).
Proof.
  unfold fixed_compress. cbn zeta. apply Forall_app. split; [repeat constructor; unfold is_byte; lia|]. apply Forall_app. split; [apply pack_bytes, fixed_bits_bits|apply adler_bytes_bytes].
Qed.
Definition deflate_laws : zlib_laws deflate.
Proof.
  refine (mk_zlib_laws deflate (fun z d => is_bytes z /\ is_bytes d /\ i_run inflate_start z = Some d) (a_at core inflate_feed inflate_done) _ _ _ _ _).
  - intros z d (_ & _ & H). split; [intros ->; discriminate H|]. split; [|now split]. exists d. now split.
  - intros st zr dr inp n Ha Hz Hn Hp. destruct Ha as (o & Hrun & -> & Hd).
    destruct (go_step _ _ _ inflate_direct inflate_last inflate_direct_out inp (a_core st) (a_pend st) zr o n Hrun Hd (Z.lt_le_incl _ _ Hn) Hp)
      as (st' & p & out & over & used & zr' & o' & o1 & Eg & _ & _ & _ & H1 & H2 & H3 & H4 & H5 & H6 & H7).
    exists zr', (p ++ o'), out. eexists. split; [cbn; unfold a_decompress; rewrite Eg; cbn [bind]; reflexivity|]. exists used, over. do 4 (split; [easy|]).
    pose proof (at_end _ inflate_feed inflate_done (mk_a st' p [] []) zr' (p ++ o')) as He. cbn [a_core a_pend] in He. destruct He as [E1 E2]; [now exists o'|].
    split; [|split].
    + exists o'. destruct (inflate_done st') eqn:E; cbn [a_core a_pend]; (split; [exact H4|]; split; [reflexivity|]); [now intros _; apply H5|now rewrite E].
    + intros Hne. assert (inflate_done st' = false) as -> by (destruct (inflate_done st'); [now elim Hne; apply E1|easy]). cbn. split; [easy|]. split; [easy|]. now apply H7.
    + intros ->. rewrite (proj1 E1 eq_refl). cbn. split; [now apply E2|easy].
  - intros st inp n (o & Hrun & Ho & Hd) Hn. destruct (inflate_done (a_core st)) eqn:E; [|cbn in Hrun; rewrite E in Hrun; discriminate].
    eexists. cbn. unfold a_decompress. replace (a_go core inflate_feed inflate_done inflate_direct (a_core st) (a_pend st) inp n) with (Ok (a_core st, @nil Z, @nil Z, inp)).
    + cbn [bind]. rewrite E. split; [reflexivity|]. split; [|easy]. exists []. cbn [a_run a_core a_pend]. now rewrite E.
    + rewrite (Hd eq_refl). destruct inp; cbn [a_go]; (replace (n <? len []) with false by (cbn; lia)); [easy|]. now rewrite E.
  - intros z d (H1 & H2 & _). now split.
  - intros level chunks H. cbn [zc_new deflate]. rewrite deflate_all. cbn [fst snd app zc_flush deflate]. apply Forall_concat in H. destruct (level =? 0).
    + split; [now destruct (s_compress_stream _ H) as (_ & ? & _)|]. split; [easy|apply stored_run].
    + split; [apply fixed_compress_bytes|]. split; [easy|now apply fixed_run].
Defined.
