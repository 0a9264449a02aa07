From Coq Require Import ZifyBool ZifyNat.
From Verif Require Import Py PyFacts ZlibModel DeflateModel DeflateProofs.
Ltac Zify.zify_post_hook ::= Z.div_mod_to_equations.

(** ** Streams without long silent stretches *)
Lemma reach_fed z d : i_run inflate_start z = Some d -> forall st zr dr, reach deflate_laws z d st zr dr ->
  a_at core inflate_feed inflate_done st zr dr /\ exists pre o, z = pre ++ zr /\ fed inflate_start pre (a_core st) o.
Proof.
  intros Hz st zr dr H. induction H as [|st zr dr inp n zr' dr' out st' _ [Ha (pre & o & Ez & Hf)] Hne Hn Hp (Hs & used & over & E1 & E2 & E3 & _ & Ha' & T1 & T2)].
  - split; [exists d; now split|]. exists [], []. split; [easy|constructor].
  - split; [exact Ha'|]. destruct Ha as (w & Hrun & -> & Hd).
    destruct (go_step _ _ _ inflate_direct inflate_last inflate_direct_out inp (a_core st) (a_pend st) zr w n Hrun Hd (Z.lt_le_incl _ _ Hn) Hp)
      as (c & p & out2 & over2 & used2 & zr2 & o2 & o1 & Eg & Hf2 & _ & _ & E4 & E5 & _ & Hrun2 & _ & _ & _).
    cbn in Hs. unfold a_decompress in Hs. rewrite Eg in Hs. cbn [bind] in Hs. injection Hs as <- <-.
    pose proof (at_end _ _ _ _ _ _ Ha') as [A1 _].
    assert (Hcore : a_core (if inflate_done c then mk_a c p (match a_tail st with [] => [] | _ => over2 end) (a_unused st ++ over2) else mk_a c p over2 (a_unused st)) = c) by now destruct (inflate_done c).
    rewrite Hcore in A1 |- *. enough (zr' = zr2) as ->.
    { exists (pre ++ used2), (o ++ o1). split; [rewrite <- app_assoc; congruence|]. exact (fed_app _ _ _ _ _ _ _ Hf _ _ _ Hf2). }
    destruct (inflate_done c) eqn:Ed.
    + rewrite (proj2 A1 eq_refl). destruct zr2 as [|x zr2]; [easy|]. apply run_step in Hrun2 as [Hrun2 _]. congruence.
    + destruct (T1 ltac:(intros ->; destruct A1 as [A1 _]; now specialize (A1 eq_refl))) as (T & _). cbn in T. subst over2. assert (used = used2) as -> by (rewrite E1 in E4; now apply app_inv_tail in E4). rewrite E2 in E5. now apply app_inv_head in E5.
Qed.
(** While there is output to come, 8 bytes are not silent. *)
Definition lively (z : bytes) : Prop := forall pre zr st o1 o used rest st', z = pre ++ zr -> fed inflate_start pre st o1 -> i_run st zr = Some o ->
  zr = used ++ rest -> 8 <= len used -> fed st used st' [] -> o = [].
Lemma lively_dense z d : i_run inflate_start z = Some d -> lively z -> dense deflate_laws z d.
Proof.
  intros Hz Hl st zr dr inp n out st' Hr Hne Hdr Hp H8 Hn Hs ->. destruct (reach_fed z d Hz st zr dr Hr) as [(w & Hrun & -> & Hd) (pre & o & Ez & Hf)].
  destruct (go_step _ _ _ inflate_direct inflate_last inflate_direct_out inp (a_core st) (a_pend st) zr w n Hrun Hd (Z.lt_le_incl _ _ Hn) Hp)
    as (c & p & out2 & over2 & used2 & zr2 & o2 & o1 & Eg & Hf2 & E1 & Hfull & E4 & E5 & E6 & Hrun2 & _ & _ & X).
  cbn in Hs. unfold a_decompress in Hs. rewrite Eg in Hs. cbn [bind] in Hs. injection Hs as -> <-. change (len []) with 0 in *.
  destruct p as [|x p]; [|assert (x :: p <> []) as H by easy; specialize (Hfull H); lia]. cbn [app] in *. apply app_eq_nil in E1 as [E1 ->]. rewrite E1 in Hdr, E6. cbn [app] in Hdr, E6. subst o2.
  destruct zr2 as [|y zr2]; [cbn in Hrun2; destruct (inflate_done c); [injection Hrun2 as <-; easy|discriminate]|].
  destruct over2 as [|v over2]; [|destruct (X ltac:(easy) ltac:(easy)); lia]. rewrite app_nil_r in E4. subst used2. apply Hdr. exact (Hl pre zr _ o w inp (y :: zr2) c Ez Hf Hrun E5 H8 Hf2).
Qed.

(** ** One block with fixed codes *)
(** Within n bits there is output, or the block ends. *)
Fixpoint W (n : nat) (ph : phase) : Prop :=
  match n with
  | O => False
  | S n => bitwise ph = true /\ forall hist b fin ph' o, is_bit b -> bit_step ph true hist b = Ok (fin, ph', o) ->
      fin = true /\ ((o <> [] /\ ph' = lit_phase) \/ (o = [] /\ ph' = PTrail []) \/ (o = [] /\ W n ph'))
  end.
Lemma W_more n : forall ph, W n ph -> W (S n) ph.
Proof.
  induction n as [|n IH]; intros ph H; [easy|]. destruct H as [H1 H2]. split; [easy|]. intros hist b fin ph' o Hb Hs. destruct (H2 hist b fin ph' o Hb Hs) as [Hf [H|[H|[H3 H4]]]]; split; auto.
Qed.
Lemma W_mono n m ph : (n <= m)%nat -> W n ph -> W m ph.
Proof. induction 1 as [|m _ IH]; [easy|]. intros H. now apply W_more, IH. Qed.
Fixpoint all_end (n : nat) (counts : list Z) (code first : Z) : bool :=
  match n, counts with
  | _, [] => true
  | O, _ => false
  | S n, c :: counts => forallb (fun b => (code + b - first <? c) || all_end n counts (2 * (code + b)) (2 * (first + c))) [0; 1]
  end.
Definition then_W (m : nat) (fin : bool) (ph : phase) (o : bytes) : Prop := fin = true /\ ((o <> [] /\ ph = lit_phase) \/ (o = [] /\ ph = PTrail []) \/ (o = [] /\ W m ph)).
Lemma W_walk g symbols m n : forall counts code first index, all_end n counts code first = true ->
  (forall hist s fin ph o, symbol g true hist s = Ok (fin, ph, o) -> then_W m fin ph o) -> W (S (n + m)) (PWalk g counts symbols code first index).
Proof.
  induction n as [|n IH]; intros counts code first index He Hs.
  - destruct counts; [|discriminate]. split; [easy|]. discriminate.
  - split; [easy|]. intros hist b fin ph o Hb H. destruct counts as [|c counts]; [discriminate|]. cbn [bit_step] in H. cbn [all_end forallb] in He. destruct (code + b - first <? c) eqn:E.
    + destruct (Hs _ _ _ _ _ H) as [H1 [H2|[H2|[H2 H3]]]]; split; auto. do 2 right. split; [easy|]. apply (W_mono m); [lia|easy].
    + injection H as <- <- <-. split; [easy|]. do 2 right. split; [easy|]. apply IH; [|exact Hs].
      apply andb_true_iff in He as [H0 H1]. rewrite andb_true_r in H1. destruct Hb as [-> | ->]; [rewrite E in H0|rewrite E in H1]; easy.
Qed.
Lemma W_collect g m n : forall need weight acc, need <= Z.of_nat n -> 0 <= weight -> 0 <= acc ->
  (forall hist v fin ph o, 0 <= v -> arrive g true hist v = Ok (fin, ph, o) -> then_W m fin ph o) -> W (S (n + m)) (PCollect g need weight acc).
Proof.
  induction n as [|n IH]; intros need weight acc Hn Hw Hc Ha; (split; [easy|]); intros hist b fin ph o Hb H; cbn [bit_step] in H; assert (Hv : 0 <= acc + weight * b) by (destruct Hb; subst b; lia).
  - replace (need <=? 1) with true in H by lia. apply (Ha _ _ _ _ _ Hv) in H as [H1 [H2|[H2|[H2 H3]]]]; split; auto.
  - destruct (need <=? 1) eqn:E.
    + apply (Ha _ _ _ _ _ Hv) in H as [H1 [H2|[H2|[H2 H3]]]]; split; auto. do 2 right. split; [easy|]. apply (W_mono m); [lia|easy].
    + assert (Hw2 : 0 <= 2 * weight) by lia. injection H as <- <- <-. split; [easy|]. do 2 right. split; [easy|]. apply IH; [lia|exact Hw2|exact Hv|exact Ha].
Qed.

Lemma match_nonempty hist n d o : 0 < n -> match_out hist n d = Ok o -> o <> [].
Proof. unfold match_out. destruct (_ <? _); [discriminate|]. intros Hn [= <-]. destruct (Z.to_nat n) eqn:E; [lia|easy]. Qed.
Lemma W_dist_extra n base e : 0 < n -> e <= 13 -> W 14 (collect (GDist fixed_lit fixed_dist n base) e).
Proof.
  intros Hn He. apply (W_collect _ 0 13); [lia|lia|lia|]. intros hist v fin ph o _ H. cbn [arrive] in H. apply bind_ok_inv in H as (o' & H1 & H). injection H as <- <- <-.
  split; [easy|]. left. split; [now apply match_nonempty in H1|easy].
Qed.
Lemma extra_dist s : at_ dist_extra s <= 13.
Proof.
  unfold at_. destruct (nth_in_or_default (Z.to_nat s) dist_extra 0) as [H| ->]; [|lia].
  assert (Hall : forallb (fun e => e <=? 13) dist_extra = true) by reflexivity. rewrite forallb_forall in Hall. specialize (Hall _ H). lia.
Qed.
Lemma extra_len s : at_ length_extra s <= 5.
Proof.
  unfold at_. destruct (nth_in_or_default (Z.to_nat s) length_extra 0) as [H| ->]; [|lia].
  assert (Hall : forallb (fun e => e <=? 5) length_extra = true) by reflexivity. rewrite forallb_forall in Hall. specialize (Hall _ H). lia.
Qed.
Lemma base_len s : 257 <= s <= 285 -> 0 < at_ length_base (s - 257).
Proof.
  intros Hs. unfold at_. assert (Hall : forallb (fun e => 0 <? e) length_base = true) by reflexivity. rewrite forallb_forall in Hall.
  specialize (Hall (nth (Z.to_nat (s - 257)) length_base 0)). enough (0 <? nth (Z.to_nat (s - 257)) length_base 0 = true) by lia. apply Hall. apply nth_In. cbn [length length_base]. lia.
Qed.
Lemma W_dist n : 0 < n -> W 20 (walk (WDist fixed_lit fixed_dist n) fixed_dist).
Proof.
  intros Hn. apply (W_walk _ _ 14 5); [vm_compute; reflexivity|]. intros hist s fin ph o H. cbn [symbol] in H. destruct (29 <? s); [discriminate|].
  pose proof (extra_dist s) as He. destruct (at_ dist_extra s) as [|e|e].
  - apply bind_ok_inv in H as (o' & H1 & H). injection H as <- <- <-. split; [easy|]. left. split; [now apply match_nonempty in H1|easy].
  - injection H as <- <- <-. split; [easy|]. do 2 right. split; [easy|]. now apply W_dist_extra.
  - injection H as <- <- <-. split; [easy|]. do 2 right. split; [easy|]. now apply W_dist_extra.
Qed.
Lemma W_len_extra base e : 0 < base -> e <= 5 -> W 26 (collect (GLen fixed_lit fixed_dist base) e).
Proof.
  intros Hb He. apply (W_collect _ 20 5); [lia|lia|lia|]. intros hist v fin ph o Hv H. injection H as <- <- <-. split; [easy|]. do 2 right. split; [easy|]. apply W_dist. lia.
Qed.
Lemma W_lit : W 36 lit_phase.
Proof.
  apply (W_walk _ _ 26 9); [vm_compute; reflexivity|]. intros hist s fin ph o H. cbn [symbol] in H. destruct (s <? 256) eqn:E1; [injection H as <- <- <-; split; [easy|]; now left|].
  destruct (s =? 256) eqn:E2; [injection H as <- <- <-; split; [easy|]; now right; left|]. destruct (285 <? s) eqn:E3; [discriminate|].
  assert (Hb : 0 < at_ length_base (s - 257)) by (apply base_len; lia). pose proof (extra_len (s - 257)) as He.
  destruct (at_ length_extra (s - 257)) as [|e|e]; injection H as <- <- <-; (split; [easy|]; do 2 right; split; [easy|]).
  - apply (W_mono 20); [lia|now apply W_dist].
  - now apply W_len_extra.
  - now apply W_len_extra.
Qed.
Lemma bits_W bits : Forall is_bit bits -> forall st st' o n, (n <= 36)%nat -> c_fin st = true -> W n (c_ph st) -> bits_step st bits = Ok (st', o) ->
  c_fin st' = true /\ (c_ph st' = PTrail [] \/ (o <> [] /\ W 36 (c_ph st')) \/ (o = [] /\ exists m, W m (c_ph st') /\ (m + length bits <= n)%nat)).
Proof.
  induction 1 as [|b bits Hb _ IH]; intros st st' o n Hn Hf Hw H; cbn [bits_step] in H.
  - injection H as <- <-. split; [easy|]. do 2 right. split; [easy|]. exists n. split; [easy|]. cbn. lia.
  - destruct n as [|n]; [easy|]. destruct Hw as [Hbw Hw]. rewrite Hbw in H. apply bind_ok_inv in H as ([[fin ph] o1] & H1 & H). apply bind_ok_inv in H as ([st2 o2] & H2 & H). injection H as <- <-.
    rewrite Hf in H1. destruct (Hw _ _ _ _ _ Hb H1) as [-> [[Ho Hp]|[[Ho Hp]|[Ho Hp]]]].
    + assert (Hw36 : W 36 ph) by (rewrite Hp; exact W_lit). destruct (IH (with_out st true ph o1) _ _ 36%nat ltac:(lia) eq_refl Hw36 H2) as [G1 [G2|[[G2 G3]|[G2 (m & G3 & G4)]]]]; (split; [easy|]); auto.
      * right. left. split; [destruct o1; easy|easy].
      * right. left. split; [destruct o1; easy|]. apply (W_mono m); [lia|easy].
    + subst o1 ph. destruct bits as [|b' bits]; cbn in H2; injection H2 as <- <-; (split; [easy|]; now left).
    + subst o1. destruct (IH (with_out st true ph []) _ _ n ltac:(lia) eq_refl Hp H2) as [G1 [G2|[[G2 G3]|[G2 (m & G3 & G4)]]]]; (split; [easy|]); auto.
      do 2 right. split; [easy|]. exists m. split; [easy|]. cbn [length]. lia.
Qed.
Lemma bits_of_bits n : forall v, Forall is_bit (bits_of n v).
Proof. induction n as [|n IH]; intros v; cbn [bits_of]; constructor; [unfold is_bit; lia|apply IH]. Qed.
Lemma bits_of_length n : forall v, length (bits_of n v) = n.
Proof. induction n as [|n IH]; intros v; cbn [bits_of length]; [easy|]. now rewrite IH. Qed.
Definition ending (ph : phase) : Prop := match ph with PTrail _ | PDone => True | _ => False end.
Lemma ending_step st c st' o : ending (c_ph st) -> inflate_feed st c = Ok (st', o) -> ending (c_ph st') /\ o = [].
Proof.
  unfold inflate_feed. destruct (c_ph st) as [| | | | | |l|]; try easy. intros _ H.
  destruct l as [|x [|y [|z [|]]]]; try now injection H as <- <-. destruct (beq _ _); [|discriminate]. now injection H as <- <-.
Qed.
Lemma ending_fed st z st' o : fed st z st' o -> ending (c_ph st) -> ending (c_ph st') /\ o = [].
Proof. induction 1 as [|st c z st1 o1 st2 o2 Hd Hf H IH]; intros He; [easy|]. destruct (ending_step _ _ _ _ He Hf) as [H1 ->]. now apply IH. Qed.
Lemma ending_run z : forall st o, ending (c_ph st) -> i_run st z = Some o -> o = [].
Proof.
  induction z as [|c z IH]; intros st o He H; [cbn in H; destruct (inflate_done st); [now injection H as <-|discriminate]|].
  apply run_step in H as (_ & st' & o1 & d & Hf & Hr & ->). destruct (ending_step _ _ _ _ He Hf) as [H1 ->]. now apply (IH st').
Qed.
(** In the data. *)
Definition in_data (st : core) : Prop := ending (c_ph st) \/ (c_fin st = true /\ W 36 (c_ph st)).
Lemma W_bitwise n ph : W n ph -> bitwise ph = true.
Proof. destruct n; [easy|]. now intros [H _]. Qed.
Lemma fed_data st z st' o : fed st z st' o -> forall n, (n <= 36)%nat -> c_fin st = true -> W n (c_ph st) ->
  in_data st' /\ (o = [] -> ending (c_ph st') \/ exists m, W m (c_ph st') /\ (m + 8 * length z <= n)%nat).
Proof.
  induction 1 as [st|st c z st1 o1 st2 o2 Hd Hf H IH]; intros n Hn Hfin Hw.
  - split; [right; split; [easy|now apply (W_mono n)]|]. intros _. right. exists n. cbn. split; [easy|lia].
  - rewrite (proj2 (feed_bitwise st c (W_bitwise _ _ Hw))) in Hf. destruct (bits_W _ (bits_of_bits 8 c) _ _ _ n Hn Hfin Hw Hf) as [G1 [G2|[[G2 G3]|[G2 (m & G3 & G4)]]]].
    + assert (He : ending (c_ph st1)) by now rewrite G2. destruct (ending_fed _ _ _ _ H He) as [He2 ->]. split; [now left|]. intros _. now left.
    + destruct (IH 36%nat ltac:(lia) G1 G3) as [K1 K2]. split; [easy|]. intros E. now apply app_eq_nil in E as [-> _].
    + rewrite bits_of_length in G4. destruct (IH m ltac:(lia) G1 G3) as [K1 K2]. split; [easy|]. intros E. apply app_eq_nil in E as [_ ->]. destruct (K2 eq_refl) as [K|(m' & K & K')]; [now left|].
      right. exists m'. split; [easy|]. cbn [length]. lia.
Qed.
Lemma data_fed st z st' o : in_data st -> fed st z st' o -> in_data st'.
Proof. intros [H|[H1 H2]] Hf; [left; now destruct (ending_fed _ _ _ _ Hf H)|]. now destruct (fed_data _ _ _ _ Hf 36%nat ltac:(lia) H1 H2). Qed.
(** The header and the first byte. *)
Lemma bits_cons st b l fin ph : bitwise (c_ph st) = true -> bit_step (c_ph st) (c_fin st) (c_hist st) b = Ok (fin, ph, []) ->
  bits_step st (b :: l) = bits_step (with_out st fin ph []) l.
Proof. intros H1 H2. cbn [bits_step]. rewrite H1, H2. cbn [bind]. now destruct (bits_step _ l) as [[st2 o]| |]. Qed.
Lemma bits_8 c : bits_of 8 c = [c mod 2; c / 2 mod 2; c / 4 mod 2] ++ bits_of 5 (c / 8).
Proof. cbn [bits_of app]. rewrite !Z.div_div by lia. reflexivity. Qed.
Definition head_state (st : core) : Prop := c_ph st = collect GBlock 3.
Lemma block_bits st c : head_state st -> inflate_feed st c =
  bits_step (with_out st (c_fin st) (PCollect GBlock 1 4 (c mod 2 + 2 * (c / 2 mod 2))) []) (c / 4 mod 2 :: bits_of 5 (c / 8)).
Proof.
  intros H. unfold head_state in H. rewrite (proj2 (feed_bitwise st c ltac:(now rewrite H))), bits_8. cbn [app].
  rewrite (bits_cons _ _ _ (c_fin st) (PCollect GBlock 2 2 (c mod 2))); [|now rewrite H|rewrite H; cbn [collect bit_step]; replace (0 + 1 * (c mod 2)) with (c mod 2) by lia; reflexivity].
  now rewrite (bits_cons _ _ _ (c_fin st) (PCollect GBlock 1 4 (c mod 2 + 2 * (c / 2 mod 2)))).
Qed.
Lemma first_fixed st c st' o : c mod 8 = 3 -> head_state st -> inflate_feed st c = Ok (st', o) -> in_data st'.
Proof.
  intros Hc Hh H. rewrite (block_bits _ _ Hh) in H. replace (c mod 2 + 2 * (c / 2 mod 2)) with 3 in H by lia. replace (c / 4 mod 2) with 0 in H by lia.
  erewrite bits_cons in H; [|reflexivity|reflexivity].
  match type of H with bits_step ?s _ = _ => set (st2 := s) in H end.
  destruct (bits_W _ (bits_of_bits 5 (c / 8)) st2 _ _ 36%nat ltac:(lia) eq_refl W_lit H) as [G1 [G2|[[G2 G3]|[G2 (m & G3 & G4)]]]]; [left; now rewrite G2|right; now split|right; split; [easy|]; apply (W_mono m); [lia|easy]].
Qed.
(** A stored block: k bytes before the data. *)
Definition in_stored (k : Z) (st : core) : Prop :=
  ending (c_ph st) \/ (c_fin st = true /\ match c_ph st with PLen l => len l + k = 4 /\ 0 < k | PCopy n => 0 < n | _ => False end).
Lemma first_stored st c st' o : c mod 8 = 1 -> head_state st -> inflate_feed st c = Ok (st', o) -> in_stored 4 st'.
Proof.
  intros Hc Hh H. rewrite (block_bits _ _ Hh) in H. replace (c mod 2 + 2 * (c / 2 mod 2)) with 1 in H by lia. replace (c / 4 mod 2) with 0 in H by lia.
  erewrite bits_cons in H; [|reflexivity|reflexivity]. cbn in H. injection H as <- <-. right. now split.
Qed.
Lemma after_stored st n k o : in_stored k (with_out st true (after_bytes true n) o).
Proof. unfold after_bytes. destruct (0 <? n) eqn:E; [right; split; [easy|]; cbn; lia|now left]. Qed.
Lemma stored_step k st c st' o : in_stored k st -> inflate_feed st c = Ok (st', o) -> in_stored (k - 1) st' /\ (o = [] -> ending (c_ph st') \/ 0 < k).
Proof.
  intros [He|[Hf Hp]] H; [destruct (ending_step _ _ _ _ He H) as [H1 ->]; split; [now left|now left]|].
  unfold inflate_feed in H. destruct (c_ph st) as [| | | |l|n|l|]; try contradiction; rewrite Hf in H.
  - destruct Hp as [Hl Hk]. split; [|now right]. destruct l as [|x [|y [|z [|w l]]]].
    + injection H as <- <-. right. split; [easy|]. cbn [c_ph with_out app]. rewrite ?len_cons, ?len_nil in *. lia.
    + injection H as <- <-. right. split; [easy|]. cbn [c_ph with_out app]. rewrite ?len_cons, ?len_nil in *. lia.
    + injection H as <- <-. right. split; [easy|]. cbn [c_ph with_out app]. rewrite ?len_cons, ?len_nil in *. lia.
    + destruct (_ + 256 * c =? _); [|discriminate]. injection H as <- <-. apply after_stored.
    + rewrite !len_cons in Hl. pose proof (len_nonneg Z l). lia.
  - injection H as <- <-. split; [apply after_stored|easy].
Qed.
Lemma stored_fed st z st' o : fed st z st' o -> forall k, in_stored k st -> in_stored (k - len z) st' /\ (o = [] -> ending (c_ph st') \/ len z <= k \/ z = []).
Proof.
  induction 1 as [st|st c z st1 o1 st2 o2 Hd Hf H IH]; intros k Hk.
  - rewrite len_nil, Z.sub_0_r. split; [easy|]. now right; right.
  - destruct (stored_step _ _ _ _ _ Hk Hf) as [H1 H2]. destruct (IH _ H1) as [H3 H4]. rewrite len_cons. split; [now replace (k - (len z + 1)) with (k - 1 - len z) by lia|].
    intros E. apply app_eq_nil in E as [-> ->]. destruct (H2 eq_refl) as [He|Hp]; [left; now destruct (ending_fed _ _ _ _ H He)|].
    destruct (H4 eq_refl) as [He|[Hz| ->]]; [now left|right; left; lia|right; left; rewrite len_nil; lia].
Qed.

(** Streams of one block that is not dynamic: bits 1 and 2 of the third byte are the kind of the
    block, bit 0 says that it is the last one. *)
Definition in_block (st : core) : Prop := in_data st \/ exists k, k <= 4 /\ in_stored k st.
Lemma block_fed st z st' o : in_block st -> fed st z st' o -> in_block st'.
Proof.
  intros [H|(k & Hk & H)] Hf; [left; exact (data_fed _ _ _ _ H Hf)|]. right. destruct (stored_fed _ _ _ _ Hf _ H) as [H1 _].
  exists (k - len z). split; [pose proof (len_nonneg Z z); lia|easy].
Qed.
Lemma block_silent st z st' : in_block st -> fed st z st' [] -> 5 <= len z -> ending (c_ph st').
Proof.
  intros [[H|[H1 H2]]|(k & Hk & H)] Hf Hl.
  - now destruct (ending_fed _ _ _ _ Hf H).
  - destruct (fed_data _ _ _ _ Hf 36%nat ltac:(lia) H1 H2) as [_ K]. destruct (K eq_refl) as [K'|(m & K1 & K2)]; [easy|]. unfold len in Hl. destruct m; [easy|]. lia.
  - destruct (stored_fed _ _ _ _ Hf _ H) as [_ K]. destruct (K eq_refl) as [K'|[K'| ->]]; [easy|lia|rewrite len_nil in Hl; lia].
Qed.
Definition one_block (z : bytes) : Prop := nth 2 z 0 mod 8 = 1 \/ nth 2 z 0 mod 8 = 3.
Lemma fed_split a : forall st b st' o, fed st (a ++ b) st' o -> exists st1 o1 o2, fed st a st1 o1 /\ fed st1 b st' o2 /\ o = o1 ++ o2.
Proof.
  induction a as [|c a IH]; intros st b st' o H; [exists st, [], o; repeat split; [constructor|exact H]|].
  inversion H as [|s0 c0 z0 st1 o1 s2 o2 Hd Hf H2]; subst. destruct (IH _ _ _ _ H2) as (st2 & p1 & p2 & H3 & H4 & ->). exists st2, (o1 ++ p1), p2. split; [econstructor; eauto|]. split; [exact H4|apply app_assoc].
Qed.
Lemma split_at (l : bytes) n : 0 <= n <= len l -> exists a b, l = a ++ b /\ len a = n.
Proof. intros H. exists (firstn (Z.to_nat n) l), (skipn (Z.to_nat n) l). split; [now rewrite firstn_skipn|]. unfold len in *. rewrite firstn_length. lia. Qed.
Lemma fed_first z st o rest : one_block (z ++ rest) -> 3 <= len z -> fed inflate_start z st o -> in_block st.
Proof.
  intros Hb Hl Hf. destruct z as [|c0 [|c1 [|c2 z]]]; try (rewrite ?len_cons, ?len_nil in Hl; lia). unfold one_block in Hb. cbn [nth app] in Hb.
  inversion Hf as [|x0 x1 x2 st1 o1 x3 o2 Hd1 Hf1 H1]; subst. clear Hf Hd1. injection Hf1 as <- <-.
  inversion H1 as [|x0 x1 x2 st2 o1 x3 o3 Hd2 Hf2 H2]; subst. clear H1 Hd2. unfold inflate_feed in Hf2. cbn [c_ph with_out c_fin inflate_start] in Hf2. destruct (_ && _ && _ && _); [|discriminate].
  inversion H2 as [|x0 x1 x2 st3 o4 x3 o5 Hd3 Hf3 H3]; subst. clear H2 Hd3. injection Hf2 as <- <-.
  refine (block_fed _ _ _ _ _ H3). destruct Hb as [Hb|Hb].
  - right. exists 4. split; [lia|]. refine (first_stored _ _ _ _ Hb _ Hf3). reflexivity.
  - left. refine (first_fixed _ _ _ _ Hb _ Hf3). reflexivity.
Qed.
Lemma one_block_lively z : one_block z -> lively z.
Proof.
  intros Hb pre zr st o1 o used rest st' -> Hf Hr -> Hl Hs.
  enough (He : ending (c_ph st')). { destruct (fed_run_rest _ _ _ _ _ _ _ _ _ Hs Hr) as (o' & Hr' & ->). now rewrite (ending_run _ _ _ He Hr'). }
  destruct (Z.le_gt_cases 3 (len pre)) as [H3|H3].
  - apply (block_silent st used); [exact (fed_first _ _ _ _ Hb H3 Hf)|exact Hs|lia].
  - destruct (split_at used (3 - len pre)) as (u1 & u2 & E & L1); [pose proof (len_nonneg Z pre); lia|].  rewrite E in Hs, Hb.
    destruct (fed_split _ _ _ _ _ Hs) as (st1 & p1 & p2 & F1 & F2 & Ep). symmetry in Ep. apply app_eq_nil in Ep as [-> ->].
    apply (block_silent st1 u2); [|exact F2|].
    + refine (fed_first (pre ++ u1) st1 (o1 ++ []) (u2 ++ rest) _ _ (fed_app _ _ _ _ _ _ _ Hf _ _ _ F1)); [now rewrite <- !app_assoc in *|rewrite len_app; lia].
    + assert (len used = len u1 + len u2) by (rewrite E; apply len_app). pose proof (len_nonneg Z pre). lia.
Qed.
Theorem one_block_dense z d : is_bytes z -> is_bytes d -> i_run inflate_start z = Some d -> one_block z -> dense deflate_laws z d.
Proof. intros _ _ H Hb. exact (lively_dense z d H (one_block_lively z Hb)). Qed.
