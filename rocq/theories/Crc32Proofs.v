(** Facts about CRC-32: chunks, range, and that one wrong byte changes it. *)
From Coq Require Import ZifyBool ZifyNat.
From Verif Require Import Py PyFacts Crc32.
Ltac Zify.zify_post_hook ::= Z.div_mod_to_equations.

Lemma crc32_app a b s : crc32 (a ++ b) s = crc32 b (crc32 a s).
Proof.
  unfold crc32. rewrite fold_left_app. f_equal. f_equal.
  now rewrite Z.lxor_assoc, Z.lxor_nilpotent, Z.lxor_0_r.
Qed.
Lemma crc32_nil s : crc32 [] s = s.
Proof. unfold crc32. cbn. now rewrite Z.lxor_assoc, Z.lxor_nilpotent, Z.lxor_0_r. Qed.

Definition u32 (c : Z) : Prop := 0 <= c < 2 ^ 32.
Lemma u32_log c : 0 <= c -> (u32 c <-> forall i, 32 <= i -> Z.testbit c i = false).
Proof.
  intros Hc. split.
  - intros [_ H] i Hi. destruct (Z.eq_dec c 0) as [->|]; [apply Z.bits_0|].
    apply Z.bits_above_log2; [lia|]. assert (Z.log2 c < 32) by (apply Z.log2_lt_pow2; lia). lia.
  - intros H. split; [easy|]. destruct (Z.eq_dec c 0) as [->|]; [lia|].
    apply Z.log2_lt_pow2; [lia|]. destruct (Z_lt_le_dec (Z.log2 c) 32) as [|Hl]; [easy|].
    specialize (H (Z.log2 c) Hl). rewrite Z.bit_log2 in H by lia. discriminate.
Qed.
Lemma u32_lxor a b : u32 a -> u32 b -> u32 (Z.lxor a b).
Proof.
  intros Ha Hb. assert (0 <= Z.lxor a b) by (apply Z.lxor_nonneg; split; intros; [apply Hb|apply Ha]).
  apply u32_log; [easy|]. intros i Hi. rewrite Z.lxor_spec.
  rewrite (proj1 (u32_log a (proj1 Ha)) Ha i Hi), (proj1 (u32_log b (proj1 Hb)) Hb i Hi). reflexivity.
Qed.
Lemma shiftr1_range c : u32 c -> 0 <= Z.shiftr c 1 < 2 ^ 31.
Proof. unfold u32. intros [H1 H2]. rewrite Z.shiftr_div_pow2 by lia. change (2 ^ 1) with 2. change (2 ^ 32) with (2 * 2 ^ 31) in H2. lia. Qed.
Lemma crc_bit_u32 c : u32 c -> u32 (crc_bit c).
Proof.
  intros Hc. pose proof (shiftr1_range c Hc). unfold crc_bit. destruct (Z.odd c).
  - apply u32_lxor; [|split; vm_compute; easy]. unfold u32. lia.
  - unfold u32. lia.
Qed.
Lemma crc_bits_u32 n : forall c, u32 c -> u32 (crc_bits n c).
Proof. induction n; intros c Hc; cbn [crc_bits]; [easy|]. now apply IHn, crc_bit_u32. Qed.
Lemma byte_u32 b : is_byte b -> u32 b.
Proof. unfold is_byte, u32. lia. Qed.
Lemma crc_byte_u32 c b : u32 c -> is_byte b -> u32 (crc_byte c b).
Proof. intros. apply crc_bits_u32, u32_lxor; [easy|now apply byte_u32]. Qed.
Lemma crc_fold_u32 d : forall c, u32 c -> is_bytes d -> u32 (fold_left crc_byte d c).
Proof.
  induction d as [|b d IH]; intros c Hc Hd; cbn [fold_left]; [easy|]. inversion Hd; subst.
  apply IH; [now apply crc_byte_u32|easy].
Qed.
Lemma u32_ones : u32 4294967295. Proof. unfold u32. lia. Qed.
Lemma crc32_u32 d s : u32 s -> is_bytes d -> u32 (crc32 d s).
Proof. intros. apply u32_lxor; [apply crc_fold_u32; [now apply u32_lxor; [|apply u32_ones]|easy]|apply u32_ones]. Qed.

(** Each step is injective. *)
Lemma odd_shiftr c c' : Z.odd c = Z.odd c' -> Z.shiftr c 1 = Z.shiftr c' 1 -> c = c'.
Proof.
  intros H1 H2. rewrite (Z.div2_odd c), (Z.div2_odd c'). now rewrite !Z.div2_spec, H1, H2.
Qed.
Lemma top_bit c : 0 <= c < 2 ^ 31 -> Z.testbit c 31 = false.
Proof.
  intros H. destruct (Z.eq_dec c 0) as [->|]; [apply Z.bits_0|]. apply Z.bits_above_log2; [lia|].
  apply Z.log2_lt_pow2; lia.
Qed.
Lemma crc_bit_inj c c' : u32 c -> u32 c' -> crc_bit c = crc_bit c' -> c = c'.
Proof.
  intros Hc Hc' H. pose proof (top_bit _ (shiftr1_range c Hc)) as T. pose proof (top_bit _ (shiftr1_range c' Hc')) as T'.
  unfold crc_bit in H. destruct (Z.odd c) eqn:E, (Z.odd c') eqn:E'.
  - apply odd_shiftr; [congruence|].
    assert (Z.lxor (Z.lxor (Z.shiftr c 1) crc_poly) crc_poly = Z.lxor (Z.lxor (Z.shiftr c' 1) crc_poly) crc_poly) as H2 by now rewrite H.
    now rewrite !Z.lxor_assoc, !Z.lxor_nilpotent, !Z.lxor_0_r in H2.
  - exfalso. apply (f_equal (fun x => Z.testbit x 31)) in H. rewrite Z.lxor_spec, T, T' in H. discriminate.
  - exfalso. apply (f_equal (fun x => Z.testbit x 31)) in H. rewrite Z.lxor_spec, T, T' in H. discriminate.
  - apply odd_shiftr; [congruence|easy].
Qed.
Lemma crc_bits_inj n : forall c c', u32 c -> u32 c' -> crc_bits n c = crc_bits n c' -> c = c'.
Proof.
  induction n as [|n IH]; intros c c' Hc Hc' H; cbn [crc_bits] in H; [easy|].
  apply crc_bit_inj; [easy|easy|]. apply IH; [now apply crc_bit_u32|now apply crc_bit_u32|easy].
Qed.
Lemma lxor_inj_r a b c : Z.lxor a c = Z.lxor b c -> a = b.
Proof.
  intros H. assert (Z.lxor (Z.lxor a c) c = Z.lxor (Z.lxor b c) c) as H2 by now rewrite H.
  now rewrite !Z.lxor_assoc, !Z.lxor_nilpotent, !Z.lxor_0_r in H2.
Qed.
Lemma crc_byte_inj_state c c' b : u32 c -> u32 c' -> is_byte b -> crc_byte c b = crc_byte c' b -> c = c'.
Proof.
  intros Hc Hc' Hb H. pose proof (byte_u32 _ Hb). apply crc_bits_inj in H; [|now apply u32_lxor|now apply u32_lxor].
  now apply lxor_inj_r in H.
Qed.
Lemma crc_byte_inj_byte c b b' : u32 c -> is_byte b -> is_byte b' -> crc_byte c b = crc_byte c b' -> b = b'.
Proof.
  intros Hc Hb Hb' H. pose proof (byte_u32 _ Hb). pose proof (byte_u32 _ Hb').
  apply crc_bits_inj in H; [|now apply u32_lxor|now apply u32_lxor].
  rewrite (Z.lxor_comm c b), (Z.lxor_comm c b') in H. now apply lxor_inj_r in H.
Qed.
Lemma crc_fold_inj d : forall c c', u32 c -> u32 c' -> is_bytes d ->
  fold_left crc_byte d c = fold_left crc_byte d c' -> c = c'.
Proof.
  induction d as [|b d IH]; intros c c' Hc Hc' Hd H; cbn [fold_left] in H; [easy|]. inversion Hd; subst.
  apply IH in H; [|now apply crc_byte_u32|now apply crc_byte_u32|easy]. now apply crc_byte_inj_state in H.
Qed.
Lemma crc32_one_byte pre b b' post s : u32 s -> is_bytes pre -> is_byte b -> is_byte b' -> is_bytes post -> b <> b' ->
  crc32 (pre ++ b :: post) s <> crc32 (pre ++ b' :: post) s.
Proof.
  intros Hs Hp Hb Hb' Hq Hn H. unfold crc32 in H. apply lxor_inj_r in H. rewrite !fold_left_app in H. cbn [fold_left] in H.
  set (c := fold_left crc_byte pre _) in H.
  assert (u32 c) as Hc by (apply crc_fold_u32; [apply u32_lxor; [easy|apply u32_ones]|easy]).
  apply crc_fold_inj in H; [|now apply crc_byte_u32|now apply crc_byte_u32|easy].
  apply Hn. now apply (crc_byte_inj_byte c).
Qed.
