(** Property C99: names given as text, bytes or a buffer, binary or in digits. *)
From Coq Require Import ZifyBool ZifyNat.
From Verif Require Import Py PyFacts FunModel FunSpec FunProofs TextModel NameSpec.

Lemma digit_val c n : hex_val c = Some n <-> digit c n.
Proof.
  unfold hex_val, digit. destruct ((48 <=? c) && (c <=? 57)) eqn:E1; [split; [intros [= <-]; lia|intros H; f_equal; lia]|].
  destruct ((97 <=? c) && (c <=? 102)) eqn:E2; [split; [intros [= <-]; lia|intros H; f_equal; lia]|].
  destruct ((65 <=? c) && (c <=? 70)) eqn:E3; [split; [intros [= <-]; lia|intros H; f_equal; lia]|]. split; [easy|lia].
Qed.
Lemma spells_iff : forall n h s, (length h <= n)%nat -> hex_to_bin h = Ok s <-> spells h s.
Proof.
  induction n as [|n IH]; intros h s Hn.
  - destruct h; [|cbn in Hn; lia]. cbn. split; [intros [= <-]; constructor|intros H; inversion H; easy].
  - destruct h as [|a [|b h]]; [cbn; split; [intros [= <-]; constructor|intros H; inversion H; easy]|split; [easy|intros H; inversion H]|].
    cbn [hex_to_bin]. split.
    + intros H. destruct (hex_val a) as [x|] eqn:Ea; [|easy]. destruct (hex_val b) as [y|] eqn:Eb; [|easy]. apply bind_ok_inv in H as (r & Hr & H).
      assert (s = 16 * x + y :: r) as -> by congruence. constructor; [now apply digit_val|now apply digit_val|]. apply IH; [cbn in Hn; lia|exact Hr].
    + intros H. inversion H as [|a' x b' y h' s' Ha Hb Hs]; subst. apply digit_val in Ha as ->. apply digit_val in Hb as ->. apply IH in Hs as ->; [easy|cbn in Hn; lia].
Qed.
Lemma spells_len h s : spells h s -> len h = 2 * len s.
Proof. induction 1 as [|a x b y h s _ _ _ IH]; [easy|]. rewrite !len_cons. lia. Qed.
Lemma spells_ascii h s : spells h s -> Forall (fun c => c < 128) h.
Proof. induction 1 as [|a x b y h s Ha Hb _ IH]; constructor; [unfold digit in Ha; lia|]. constructor; [unfold digit in Hb; lia|exact IH]. Qed.
Lemma ascii_same h : Forall (fun c => c < 128) h -> ascii_encode h = Ok h.
Proof. induction 1 as [|c h Hc _ IH]; [easy|]. cbn [ascii_encode]. replace (c <? 128) with true by lia. now rewrite IH. Qed.
Lemma ascii_total t : ascii_encode t = Ok t \/ ascii_encode t = Raise ValueError.
Proof. induction t as [|c t IH]; [now left|]. cbn [ascii_encode]. destruct (c <? 128); [|now right]. destruct IH as [-> | ->]; [now left|now right]. Qed.
Lemma bin_total : forall n h, (length h <= n)%nat -> (exists s, hex_to_bin h = Ok s) \/ hex_to_bin h = Raise BinasciiError.
Proof.
  induction n as [|n IH]; intros [|a [|b h]] Hn; try (left; now exists []); try (now right); try (cbn in Hn; lia). cbn [hex_to_bin].
  destruct (hex_val a); [|now right]. destruct (hex_val b); [|now right]. destruct (IH h) as [(s & ->)| ->]; [cbn in Hn; lia|left; now eexists|now right].
Qed.
Lemma a2b_spells v h s : letters v h -> spells h s -> a2b_hex v = Ok s.
Proof.
  intros Hv Hs. assert (H : hex_to_bin h = Ok s) by now apply (spells_iff (length h)). destruct Hv as [-> |[-> | ->]]; [easy..|]. cbn [a2b_hex].
  rewrite ascii_same by now apply spells_ascii in Hs. exact H.
Qed.
Lemma letters_len v h : letters v h -> value_len v = Ok (len h).
Proof. intros [-> |[-> | ->]]; easy. Qed.

(** ** C99 *)
(** However the name is written, to_bin_sha returns its 20 bytes. *)
Theorem C99_bin : forall v sha, names v sha -> to_bin_sha_of v = Ok (VBytes sha) \/ (v = VBuffer sha /\ to_bin_sha_of v = Ok v).
Proof.
  intros v sha (Hl & Hb & Hv). unfold to_bin_sha_of. destruct Hv as [-> |[-> |(h & Hh & Hs)]].
  - left. cbn [value_len bind]. now rewrite Hl.
  - right. split; [easy|]. cbn [value_len bind]. now rewrite Hl.
  - left. rewrite (letters_len v h Hh). cbn [bind]. rewrite (spells_len h sha Hs), Hl. cbn [Z.eqb Z.mul Pos.eqb Pos.mul]. now rewrite (a2b_spells v h sha Hh Hs).
Qed.
Print Assumptions C99_bin.
(** to_hex_sha returns 40 digits that spell it: the given ones, or as bytes in lower case. *)
Theorem C99_hex : forall v sha, names v sha ->
  exists v' h, to_hex_sha_of v = Ok v' /\ letters v' h /\ spells h sha /\ (v' = v \/ v' = VBytes h /\ lower_hex h).
Proof.
  intros v sha (Hl & Hb & Hv). unfold to_hex_sha_of.
  assert (H : forall w, w = VBytes sha \/ w = VBuffer sha -> exists v' h, (let! n := value_len w in if n =? 40 then Ok w else let! h := b2a_hex w in Ok (VBytes h)) = Ok v' /\ letters v' h /\ spells h sha /\ (v' = w \/ v' = VBytes h /\ lower_hex h)).
  { intros w Hw. exists (VBytes (bin_to_hex sha)), (bin_to_hex sha). split.
    - destruct Hw as [-> | ->]; cbn [value_len bind]; rewrite Hl; reflexivity.
    - split; [now left|]. split; [apply (spells_iff (length (bin_to_hex sha))); [easy|now apply hex_to_bin_to_hex]|]. right. split; [easy|now apply bin_to_hex_lower]. }
  destruct Hv as [Hv|[Hv|(h & Hh & Hs)]]; [apply H; now left|apply H; now right|]. exists v, h. rewrite (letters_len v h Hh). cbn [bind]. rewrite (spells_len h sha Hs), Hl.
  split; [easy|]. split; [easy|]. split; [easy|now left].
Qed.
Print Assumptions C99_hex.
(** What is no name: to_bin_sha raises, ValueError (binascii.Error is one) for text and bytes
    that are not 20 long and do not spell anything, TypeError for other things. *)
Theorem C99_bin_rejects_partial : forall v,
  (forall l, letters v l -> len l <> 20 -> (forall s, ~ spells l s) -> to_bin_sha_of v = Raise BinasciiError \/ to_bin_sha_of v = Raise ValueError) /\
  (v = VOther -> to_bin_sha_of v = Raise TypeError /\ to_hex_sha_of v = Raise TypeError).
Proof.
  intros v. split; [|now intros ->]. intros l Hl Hn Hs. unfold to_bin_sha_of. rewrite (letters_len v l Hl). cbn [bind]. replace (len l =? 20) with false by lia.
  assert (Hr : hex_to_bin l = Raise BinasciiError).
  { destruct (bin_total (length l) l (le_n _)) as [(s & H)|H]; [|exact H]. elim (Hs s). now apply (spells_iff (length l)). }
  destruct Hl as [-> |[-> | ->]]; cbn [a2b_hex]; [rewrite Hr; now left..|]. destruct (ascii_total l) as [-> | ->]; [|now right]. cbn [bind]. rewrite Hr. now left.
Qed.
Print Assumptions C99_bin_rejects_partial.
(** Full statement: what is no name is rejected.  Not so: text of 20 characters counts as binary,
    digits of other lengths become names of other lengths, and to_hex_sha returns anything of 40
    bytes or characters; text with fewer digits makes it raise TypeError. *)
Theorem C99_unchecked_refuted :
  (forall t, len t = 20 -> to_bin_sha_of (VStr t) = Ok (VStr t)) /\
  (forall v h s, letters v h -> spells h s -> len s <> 10 -> to_bin_sha_of v = Ok (VBytes s)) /\
  (forall v l, letters v l -> len l = 40 -> to_hex_sha_of v = Ok v) /\
  (forall t, len t <> 40 -> to_hex_sha_of (VStr t) = Raise TypeError).
Proof.
  unfold to_bin_sha_of, to_hex_sha_of. split; [|split; [|split]].
  - intros t Ht. cbn [value_len bind]. now rewrite Ht.
  - intros v h s Hv Hs Hn. rewrite (letters_len v h Hv). cbn [bind]. pose proof (spells_len h s Hs). replace (len h =? 20) with false by lia. now rewrite (a2b_spells v h s Hv Hs).
  - intros v l Hv Hl. rewrite (letters_len v l Hv). cbn [bind]. now rewrite Hl.
  - intros t Ht. cbn [value_len bind]. now replace (len t =? 40) with false by lia.
Qed.
Print Assumptions C99_unchecked_refuted.
(** The name 2bff00...00 in capital letters as text and as bytes; 20 letters; three digits. *)
Definition ex_name : bytes := 43 :: 255 :: repeat 0 18.
Definition ex_digits : list Z := 50 :: 66 :: 70 :: 102 :: repeat 48 36.
Lemma ex_spells : spells ex_digits ex_name.
Proof. apply (spells_iff 40); [cbn; lia|reflexivity]. Qed.
Example C99_example :
  names (VStr ex_digits) ex_name /\ names (VBuffer ex_name) ex_name /\
  to_bin_sha_of (VStr ex_digits) = Ok (VBytes ex_name) /\ to_hex_sha_of (VBuffer ex_name) = Ok (VBytes (50 :: 98 :: 102 :: 102 :: repeat 48 36)) /\
  to_hex_sha_of (VBytes ex_digits) = Ok (VBytes ex_digits) /\ to_bin_sha_of (VStr (repeat 113 20)) = Ok (VStr (repeat 113 20)) /\
  to_bin_sha_of (VStr [97; 98; 99]) = Raise BinasciiError /\ to_bin_sha_of (VStr [233; 233]) = Raise ValueError /\ to_bin_sha_of (VBytes [97; 98]) = Ok (VBytes [171]).
Proof.
  assert (Hb : is_bytes ex_name) by (repeat (apply Forall_cons; [unfold is_byte; lia|]); apply Forall_nil).
  split; [split; [easy|split; [easy|right; right; exists ex_digits; split; [now right; right|exact ex_spells]]]|].
  split; [split; [easy|split; [easy|now right; left]]|]. vm_compute. repeat split.
Qed.
