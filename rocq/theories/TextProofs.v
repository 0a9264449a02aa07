(** Proofs about text and bytes. *)
From Coq Require Import ZifyBool ZifyNat.
From Verif Require Import Py PyFacts FunModel FunSpec FunProofs ZlibModel ReaderModel PackModel OsModel LooseModel PackDbModel CompoundModel GitModel GitAbbrModel GitAbbrSpec GitAbbrProofs TextModel TextSpec.
Ltac Zify.zify_post_hook ::= Z.div_mod_to_equations.

Ltac branch := match goal with |- context [if ?b then _ else _] => first [replace b with true by (unfold cont in *; lia) | replace b with false by (unfold cont in *; lia)] end.

(** ** UTF-8 *)
Lemma decode_of t b : utf8 t b -> utf8_decode b = Ok t.
Proof.
  induction 1 as [|c t f b Hc Hf _ IH]; [easy|]. unfold scalar in Hc. destruct Hf; cbn [app utf8_decode]; repeat branch; rewrite IH; cbn [bind]; do 2 f_equal; lia.
Qed.
Lemma of_decode : forall n b, (length b <= n)%nat -> is_bytes b -> forall t, utf8_decode b = Ok t -> utf8 t b.
Proof.
  induction n as [|n IH]; intros b Hn Hb t H; [destruct b; [|cbn in Hn; lia]; injection H as <-; constructor|].
  destruct b as [|x r]; [injection H as <-; constructor|]. inversion Hb as [|? ? Hx Hr]; subst. unfold is_byte in Hx. cbn [utf8_decode] in H. cbn [length] in Hn.
  destruct (x <? 128) eqn:E1.
  { apply bind_ok_inv in H as (t' & Ht & H). injection H as <-. apply (uc x t' [x] r); [unfold scalar; lia|constructor; lia|]. apply IH; [lia|easy..]. }
  destruct ((194 <=? x) && (x <? 224)) eqn:E2.
  { destruct r as [|y r]; [discriminate|]. inversion Hr as [|? ? Hy Hr']; subst. unfold is_byte in Hy. destruct (cont y) eqn:E3; [|discriminate]. unfold cont in E3. apply bind_ok_inv in H as (t' & Ht & H). injection H as <-.
    assert (utf8_of ((x - 192) * 64 + (y - 128)) [x; y]) as Hu.
    { replace ((x - 192) * 64 + (y - 128)) with (64 * (x - 192) + (y - 128)) by lia. replace [x; y] with [192 + (x - 192); 128 + (y - 128)] by (f_equal; [lia|f_equal; lia]). constructor; lia. }
    apply (uc _ t' [x; y] r); [unfold scalar; lia|exact Hu|]. apply IH; [cbn [length] in Hn; lia|easy..]. }
  destruct ((224 <=? x) && (x <? 240)) eqn:E3.
  { destruct r as [|y [|z r]]; [discriminate..|]. inversion Hr as [|? ? Hy Hr']; subst. inversion Hr' as [|? ? Hz Hr2]; subst. unfold is_byte in Hy, Hz.
    destruct (cont y && cont z && negb ((x =? 224) && (y <? 160)) && negb ((x =? 237) && (160 <=? y))) eqn:E4; [|discriminate]. unfold cont in E4. apply bind_ok_inv in H as (t' & Ht & H). injection H as <-.
    assert (utf8_of ((x - 224) * 4096 + (y - 128) * 64 + (z - 128)) [x; y; z]) as Hu.
    { replace ((x - 224) * 4096 + (y - 128) * 64 + (z - 128)) with (4096 * (x - 224) + 64 * (y - 128) + (z - 128)) by lia. replace [x; y; z] with [224 + (x - 224); 128 + (y - 128); 128 + (z - 128)] by (repeat (f_equal; [lia|]); f_equal; lia). constructor; lia. }
    apply (uc _ t' [x; y; z] r); [unfold scalar; lia|exact Hu|]. apply IH; [cbn [length] in Hn; lia|easy..]. }
  destruct ((240 <=? x) && (x <? 245)) eqn:E4; [|discriminate].
  destruct r as [|y [|z [|w r]]]; [discriminate..|]. inversion Hr as [|? ? Hy Hr']; subst. inversion Hr' as [|? ? Hz Hr2]; subst. inversion Hr2 as [|? ? Hw Hr3]; subst. unfold is_byte in Hy, Hz, Hw.
  destruct (cont y && cont z && cont w && negb ((x =? 240) && (y <? 144)) && negb ((x =? 244) && (144 <=? y))) eqn:E5; [|discriminate]. unfold cont in E5. apply bind_ok_inv in H as (t' & Ht & H). injection H as <-.
  assert (utf8_of ((x - 240) * 262144 + (y - 128) * 4096 + (z - 128) * 64 + (w - 128)) [x; y; z; w]) as Hu.
  { replace ((x - 240) * 262144 + (y - 128) * 4096 + (z - 128) * 64 + (w - 128)) with (262144 * (x - 240) + 4096 * (y - 128) + 64 * (z - 128) + (w - 128)) by lia.
    replace [x; y; z; w] with [240 + (x - 240); 128 + (y - 128); 128 + (z - 128); 128 + (w - 128)] by (repeat (f_equal; [lia|]); f_equal; lia). constructor; lia. }
  apply (uc _ t' [x; y; z; w] r); [unfold scalar; lia|exact Hu|]. apply IH; [cbn [length] in Hn; lia|easy..].
Qed.
Lemma decode_iff b t : is_bytes b -> (utf8_decode b = Ok t <-> utf8 t b).
Proof. intros Hb. split; [now apply (of_decode (length b))|apply decode_of]. Qed.
Lemma decode_total : forall n b, (length b <= n)%nat -> (exists t, utf8_decode b = Ok t) \/ utf8_decode b = Raise ValueError.
Proof.
  assert (Hb : forall b c, (exists t, utf8_decode b = Ok t) \/ utf8_decode b = Raise ValueError -> (exists t, (let! t := utf8_decode b in Ok (c :: t)) = Ok t) \/ (let! t := utf8_decode b in Ok (c :: t)) = Raise ValueError).
  { intros b c [(t & ->)| ->]; [left; now eexists|now right]. }
  induction n as [|n IH]; intros b Hn; [destruct b; [left; now exists []|cbn in Hn; lia]|]. destruct b as [|x r]; [left; now exists []|]. cbn [length] in Hn. cbn [utf8_decode].
  destruct (x <? 128); [apply Hb, IH; lia|]. destruct ((194 <=? x) && (x <? 224)).
  { destruct r as [|y r]; [now right|]. destruct (cont y); [|now right]. apply Hb, IH. cbn [length] in Hn. lia. }
  destruct ((224 <=? x) && (x <? 240)).
  { destruct r as [|y [|z r]]; [now right..|]. match goal with |- context [if ?c then _ else _] => destruct c end; [|now right]. apply Hb, IH. cbn [length] in Hn. lia. }
  destruct ((240 <=? x) && (x <? 245)); [|now right].
  destruct r as [|y [|z [|w r]]]; [now right..|]. match goal with |- context [if ?c then _ else _] => destruct c end; [|now right]. apply Hb, IH. cbn [length] in Hn. lia.
Qed.
Lemma encode_one c : 0 <= c < 1114112 -> (exists f, utf8_one c = Ok f /\ utf8_of c f /\ scalar c) \/ (utf8_one c = Raise ValueError /\ ~ scalar c).
Proof.
  intros Hc. unfold utf8_one, scalar. destruct (Z.ltb_spec c 128); [left; exists [c]; split; [easy|]; split; [constructor; lia|lia]|].
  destruct (Z.ltb_spec c 2048).
  { left. eexists. split; [reflexivity|]. split; [|lia]. replace c with (64 * (c / 64) + c mod 64) at 1 by lia. constructor; lia. }
  destruct ((55296 <=? c) && (c <=? 57343)) eqn:E; [right; split; [easy|lia]|].
  destruct (Z.ltb_spec c 65536).
  { left. eexists. split; [reflexivity|]. split; [|lia]. replace c with (4096 * (c / 4096) + 64 * (c / 64 mod 64) + c mod 64) at 1 by lia. constructor; lia. }
  left. eexists. split; [reflexivity|]. split; [|lia]. replace c with (262144 * (c / 262144) + 4096 * (c / 4096 mod 64) + 64 * (c / 64 mod 64) + c mod 64) at 1 by lia. constructor; lia.
Qed.
Lemma utf8_of_unique c f f' : utf8_of c f -> utf8_of c f' -> scalar c -> f = f'.
Proof.
  intros H H' _. assert (Hf : forall c f, utf8_of c f -> (f = [c] /\ 0 <= c < 128) \/ (f = [192 + c / 64; 128 + c mod 64] /\ 128 <= c < 2048) \/
    (f = [224 + c / 4096; 128 + c / 64 mod 64; 128 + c mod 64] /\ 2048 <= c < 65536) \/ (f = [240 + c / 262144; 128 + c / 4096 mod 64; 128 + c / 64 mod 64; 128 + c mod 64] /\ 65536 <= c)).
  { clear. intros c f H. destruct H; [left|right; left|right; right; left|right; right; right]; (split; [|lia]); repeat (apply f_equal2; [lia|]); reflexivity. }
  apply Hf in H, H'. destruct H as [[-> H]|[[-> H]|[[-> H]|[-> H]]]], H' as [[-> H']|[[-> H']|[[-> H']|[-> H']]]]; first [reflexivity | exfalso; lia].
Qed.
Lemma encode_iff t : is_text t -> forall b, utf8_encode t = Ok b <-> utf8 t b.
Proof.
  induction 1 as [|c t Hc _ IH]; intros b; cbn [utf8_encode].
  - split; [intros [= <-]; constructor|]. intros H. now inversion H.
  - destruct (encode_one c Hc) as [(f & -> & Hf & Hs)|[-> Hn]]; cbn [bind].
    + split.
      * intros H. apply bind_ok_inv in H as (r & Hr & [= <-]). constructor; [easy..|]. now apply IH.
      * intros H. inversion H as [|? ? f' b' Hs' Hf' Hb']; subst. apply IH in Hb'. rewrite Hb'. cbn [bind]. now rewrite (utf8_of_unique c f f').
    + split; [discriminate|]. intros H. now inversion H.
Qed.
Lemma encode_total t : is_text t -> (exists b, utf8_encode t = Ok b) \/ utf8_encode t = Raise ValueError.
Proof.
  induction 1 as [|c t Hc _ IH]; [left; now eexists|]. cbn [utf8_encode]. destruct (encode_one c Hc) as [(f & -> & _)|[-> _]]; [|now right]. cbn [bind]. destruct IH as [(b & ->)| ->]; [left; now eexists|now right].
Qed.
Lemma utf8_bytes t b : utf8 t b -> is_bytes b /\ is_text t.
Proof.
  induction 1 as [|c t f b Hc Hf _ [IH1 IH2]]; [split; constructor|]. unfold scalar in Hc. split.
  - apply Forall_app. split; [|easy]. destruct Hf; repeat (constructor; [unfold is_byte; lia|]); constructor.
  - constructor; [lia|easy].
Qed.
Lemma utf8_scalars t b : utf8 t b -> Forall scalar t.
Proof. induction 1; now constructor. Qed.
Lemma scalars_utf8 t : Forall scalar t -> exists b, utf8 t b.
Proof.
  induction 1 as [|c t Hc _ (b & IH)]; [exists []; constructor|]. destruct (encode_one c) as [(f & _ & Hf & _)|[_ Hn]]; [unfold scalar in Hc; lia| |easy]. exists (f ++ b). now constructor.
Qed.
Lemma ascii_utf8 t : ascii t -> utf8 t t.
Proof. induction 1 as [|c t Hc _ IH]; [constructor|]. change (c :: t) with ([c] ++ t) at 2. constructor; [unfold scalar; lia|now constructor|easy]. Qed.
Lemma ascii_encode_ok t : ascii t -> ascii_encode t = Ok t.
Proof. induction 1 as [|c t Hc _ IH]; [easy|]. cbn [ascii_encode]. replace (c <? 128) with true by lia. now rewrite IH. Qed.
Lemma ascii_encode_iff t : is_text t -> (exists b, ascii_encode t = Ok b) <-> ascii t.
Proof.
  intros Ht. split; [|intros H; exists t; now apply ascii_encode_ok]. induction Ht as [|c t Hc _ IH]; intros (b & H); [constructor|]. cbn [ascii_encode] in H. destruct (Z.ltb_spec c 128); [|discriminate].
  apply bind_ok_inv in H as (r & Hr & _). constructor; [lia|]. apply IH. now exists r.
Qed.
Lemma ascii_encode_total t : (exists b, ascii_encode t = Ok b) \/ ascii_encode t = Raise ValueError.
Proof. induction t as [|c t IH]; [left; now eexists|]. cbn [ascii_encode]. destruct (c <? 128); [|now right]. destruct IH as [(b & ->)| ->]; [left; now eexists|now right]. Qed.

(** ** Headers *)
Lemma fmt_ascii n : ascii (fmt_i n).
Proof.
  assert (Hd : forall n, 0 <= n -> ascii (dec_nonneg n)) by (intros k Hk; unfold ascii; eapply Forall_impl; [|now apply dec_nonneg_digits]; cbv beta; lia).
  unfold fmt_i. destruct (Z.ltb_spec n 0); [constructor; [lia|]; apply Hd; lia|now apply Hd].
Qed.
Lemma header_ok type t size : force_text type = Ok t -> ascii t -> loose_header_of type size = Ok (t ++ [32] ++ fmt_i size ++ [0]).
Proof.
  intros E Ht. unfold loose_header_of. rewrite E. cbn [bind]. apply ascii_encode_ok. unfold ascii. rewrite !Forall_app. split; [exact Ht|]. split; [constructor; [lia|constructor]|]. split; [apply fmt_ascii|constructor; [lia|constructor]].
Qed.
Lemma header_bad type t size : force_text type = Ok t -> is_text t -> ~ ascii t -> loose_header_of type size = Raise ValueError.
Proof.
  intros E Ht Hn. unfold loose_header_of. rewrite E. cbn [bind]. destruct (ascii_encode_total (t ++ [32] ++ fmt_i size ++ [0])) as [H| ->]; [|easy]. exfalso. apply Hn.
  apply ascii_encode_iff in H; [now apply Forall_app in H|]. apply Forall_app. split; [easy|].
  assert (Ha : forall l, ascii l -> is_text l) by (intros l; apply Forall_impl; lia). apply Ha. unfold ascii. rewrite !Forall_app. split; [constructor; [lia|constructor]|]. split; [apply fmt_ascii|constructor; [lia|constructor]].
Qed.
Lemma force_text_value v t : match v with VStr s => t = s | VBytes b | VBuffer b => is_bytes b /\ utf8 t b | VOther => False end -> force_text v = Ok t.
Proof. destruct v; cbn [force_text]; [intros [_ H]; now apply decode_of|now intros -> |intros [_ H]; now apply decode_of|easy]. Qed.

(** ** Texts of exceptions *)
Lemma hex_ascii l : is_bytes l -> ascii (bin_to_hex l).
Proof. intros H. apply bin_to_hex_lower in H. revert H. apply Forall_impl. lia. Qed.
Lemma repr_hex l : Forall (fun c => 48 <= c <= 57 \/ 97 <= c <= 102) l -> repr_bytes l = [98; 39] ++ l ++ [39].
Proof.
  intros H. unfold repr_bytes. assert (E : existsb (Z.eqb 39) l = false).
  { induction H as [|c l Hc _ IH]; [easy|]. cbn [existsb]. rewrite IH. replace (39 =? c) with false by lia. easy. }
  rewrite E. cbn [andb]. f_equal. f_equal. clear E. induction H as [|c l Hc _ IH]; [easy|]. cbn [map concat]. rewrite IH. unfold repr_byte. repeat branch. easy.
Qed.
Lemma text_bytes b : is_bytes b -> len b <> 40 -> bad_object_text (VBytes b) = Ok (str_bad_object ++ [98; 39] ++ bin_to_hex b ++ [39]).
Proof.
  intros Hb Hl. unfold bad_object_text, to_hex_sha_of. cbn [value_len bind b2a_hex]. replace (len b =? 40) with false by lia. cbn [bind percent_s]. rewrite repr_hex; [easy|]. now apply bin_to_hex_lower.
Qed.
Lemma text_hex_str t : len t = 40 -> bad_object_text (VStr t) = Ok (str_bad_object ++ t).
Proof. intros Hl. unfold bad_object_text, to_hex_sha_of. cbn [value_len bind]. now replace (len t =? 40) with true by lia. Qed.
Lemma text_hex_bytes t : lower_hex t -> len t = 40 -> bad_object_text (VBytes t) = Ok (str_bad_object ++ [98; 39] ++ t ++ [39]).
Proof. intros Ht Hl. unfold bad_object_text, to_hex_sha_of. cbn [value_len bind]. replace (len t =? 40) with true by lia. cbn [bind percent_s]. now rewrite repr_hex. Qed.
Lemma text_str t : len t <> 40 -> bad_object_text (VStr t) = Raise TypeError.
Proof. intros Hl. unfold bad_object_text, to_hex_sha_of. cbn [value_len bind b2a_hex]. now replace (len t =? 40) with false by lia. Qed.

(** ** Digits as text or bytes *)
Lemma any_hex_ascii d : any_hex d -> ascii d.
Proof. apply Forall_impl. lia. Qed.
Lemma force_digits v d : v = VBytes d \/ v = VStr d \/ v = VBuffer d -> any_hex d -> force_text v = Ok d.
Proof. intros Hv Hd. apply any_hex_ascii, ascii_utf8 in Hd. destruct Hv as [-> |[-> | ->]]; cbn [force_text]; [now apply decode_of|easy|now apply decode_of]. Qed.
Lemma binsha_digits v d : v = VBytes d \/ v = VStr d \/ v = VBuffer d -> any_hex d -> partial_binsha v = if negb (len d mod 2 =? 0) then hex_to_bin (d ++ [48]) else hex_to_bin d.
Proof.
  intros Hv Hd. unfold partial_binsha. rewrite (force_digits v d Hv Hd). cbn [bind a2b_hex]. rewrite !ascii_encode_ok; [easy|now apply any_hex_ascii|]. apply Forall_app. split; [now apply any_hex_ascii|constructor; [lia|constructor]].
Qed.
Lemma partial_of F fuel v d b : v = VBytes b \/ v = VStr b \/ v = VBuffer b -> any_hex b -> db_partial_of F fuel v d = db_partial F fuel b d.
Proof.
  intros Hv Hb. unfold db_partial_of, db_partial. destruct (db_open F fuel d) as [[[]|x|] d1]; [|easy..]. rewrite (force_digits v b Hv Hb), (binsha_digits v b Hv Hb). cbn [force_bytes].
  assert (utf8_encode b = Ok b) as ->; [|easy]. pose proof (any_hex_ascii b Hb) as Ha. apply encode_iff; [revert Ha; apply Forall_impl; lia|now apply ascii_utf8].
Qed.
Lemma hex_back : forall n h b, (length h <= n)%nat -> hex_to_bin h = Ok b -> any_hex h -> bin_to_hex b = lower h.
Proof.
  induction n as [|n IH]; intros h b Hn H Hh; [destruct h; [|cbn in Hn; lia]; injection H as <-; easy|]. destruct h as [|x [|y h]]; [injection H as <-; easy|discriminate|]. cbn [hex_to_bin] in H.
  inversion Hh as [|? ? Hx Hh']; subst. inversion Hh' as [|? ? Hy Hh2]; subst.
  assert (Hv : forall c, 48 <= c <= 57 \/ 97 <= c <= 102 \/ 65 <= c <= 70 -> exists v, hex_val c = Some v /\ 0 <= v < 16 /\ hex_digit v = if (65 <=? c) && (c <=? 70) then c + 32 else c).
  { intros c Hc. unfold hex_val. destruct ((48 <=? c) && (c <=? 57)) eqn:E1; [eexists; split; [reflexivity|]; split; [lia|]; unfold hex_digit; repeat branch; lia|].
    destruct ((97 <=? c) && (c <=? 102)) eqn:E2; [eexists; split; [reflexivity|]; split; [lia|]; unfold hex_digit; repeat branch; lia|]. destruct ((65 <=? c) && (c <=? 70)) eqn:E3; [eexists; split; [reflexivity|]; split; [lia|]; unfold hex_digit; repeat branch; lia|lia]. }
  destruct (Hv x Hx) as (a & Ea & Ha & Da). destruct (Hv y Hy) as (c & Ec & Hc & Dc). rewrite Ea, Ec in H. apply bind_ok_inv in H as (r & Hr & H). assert (b = 16 * a + c :: r) by congruence. subst b. clear H.
  assert (E1 : (16 * a + c) / 16 = a) by lia. assert (E2 : (16 * a + c) mod 16 = c) by lia. remember (16 * a + c) as v eqn:Ev. cbn [bin_to_hex]. unfold lower. cbn [map]. fold (lower h). rewrite E1, E2, Da, Dc. do 2 f_equal. apply IH; [cbn in Hn; lia|easy..].
Qed.
Lemma hex_bytes : forall n h b, (length h <= n)%nat -> hex_to_bin h = Ok b -> is_bytes b /\ 2 * len b = len h.
Proof.
  induction n as [|n IH]; intros h b Hn H; [destruct h; [|cbn in Hn; lia]; injection H as <-; split; [constructor|easy]|]. destruct h as [|x [|y h]]; [injection H as <-; split; [constructor|easy]|discriminate|]. cbn [hex_to_bin] in H.
  assert (Hv : forall c v, hex_val c = Some v -> 0 <= v < 16).
  { intros c v. unfold hex_val. destruct ((48 <=? c) && (c <=? 57)) eqn:E1; [intros [= <-]; lia|]. destruct ((97 <=? c) && (c <=? 102)) eqn:E2; [intros [= <-]; lia|]. destruct ((65 <=? c) && (c <=? 70)) eqn:E3; [intros [= <-]; lia|discriminate]. }
  destruct (hex_val x) as [a|] eqn:Ea; [|discriminate]. destruct (hex_val y) as [c|] eqn:Ec; [|discriminate]. apply bind_ok_inv in H as (r & Hr & H). assert (b = 16 * a + c :: r) by congruence. subst b. clear H. apply Hv in Ea, Ec. destruct (IH h r) as [H1 H2]; [cbn in Hn; lia|easy|].
  split; [constructor; [unfold is_byte; lia|easy]|]. rewrite !len_cons. lia.
Qed.
(** The digits that are shown: padded to an even number. *)
Lemma compound_text v d : v = VBytes d \/ v = VStr d \/ v = VBuffer d -> any_hex d -> len d < 79 ->
  bad_object_message (CompoundPart v) = Ok (str_bad_object ++ [98; 39] ++ pad_even (lower d) ++ [39]).
Proof.
  intros Hv Hd Hl. unfold bad_object_message, bad_object_arg. rewrite (binsha_digits v d Hv Hd). destruct (digits_bin d Hd) as (b & -> & Hb). cbn [bind].
  pose proof (hex_bytes (length (pad_even (lower d))) _ b (le_n _) Hb) as [Hbb Hlen].
  assert (Hpl : len (pad_even (lower d)) <= len d + 1 /\ any_hex (pad_even (lower d))).
  { assert (Hlow : any_hex (lower d)) by (pose proof (lower_lower d Hd) as H; revert H; apply Forall_impl; lia). unfold pad_even. rewrite <- (lower_len d). destruct (Z.even (len (lower d))); [split; [lia|easy]|]. rewrite len_app. change (len [48]) with 1. split; [lia|].
    apply Forall_app. split; [easy|constructor; [lia|constructor]]. }
  rewrite text_bytes; [|easy|lia]. do 3 f_equal. f_equal. rewrite (hex_back _ _ b (le_n _) Hb) by easy. apply lower_same. pose proof (lower_lower d Hd) as H. unfold pad_even. destruct (Z.even (len (lower d))); [easy|]. apply Forall_app. split; [easy|constructor; [lia|constructor]].
Qed.
(** repr gives a literal of the bytes. *)
Lemma hex_digit_char v : 0 <= v < 16 -> hex_char (hex_digit v) v.
Proof. intros H. unfold hex_digit, hex_char. destruct (v <? 10) eqn:E; lia. Qed.
Lemma repr_literal b : is_bytes b -> exists q t, (q = 39 \/ (q = 34 /\ In 39 b /\ ~ In 34 b)) /\ repr_bytes b = [98; q] ++ t ++ [q] /\ literal q t b.
Proof.
  intros Hb. unfold repr_bytes. set (q := if existsb (Z.eqb 39) b && negb (existsb (Z.eqb 34) b) then 34 else 39). exists q, (concat (map (repr_byte q) b)). split; [|split; [reflexivity|]].
  - unfold q. destruct (existsb (Z.eqb 39) b) eqn:E1; [|now left]. destruct (existsb (Z.eqb 34) b) eqn:E2; [now left|]. right. cbn [andb negb]. split; [reflexivity|]. split.
    + apply existsb_exists in E1 as (x & Hx & E). apply Z.eqb_eq in E. now subst.
    + intros Hin. assert (existsb (Z.eqb 34) b = true) by (apply existsb_exists; now exists 34). congruence.
  - assert (Hq : q = 39 \/ q = 34) by (unfold q; destruct (_ && _); auto). clearbody q. induction Hb as [|c b Hc _ IH]; [constructor|]. cbn [map concat]. unfold is_byte in Hc. unfold repr_byte.
    destruct ((c =? q) || (c =? 92)) eqn:E1; [apply lit_quote; [lia|exact IH]|].
    destruct (c =? 9) eqn:E2; [apply (lit_letter q 116 c); [left; f_equal; lia|exact IH]|].
    destruct (c =? 10) eqn:E3; [apply (lit_letter q 110 c); [right; left; f_equal; lia|exact IH]|].
    destruct (c =? 13) eqn:E4; [apply (lit_letter q 114 c); [right; right; left; f_equal; lia|exact IH]|].
    destruct ((c <? 32) || (127 <=? c)) eqn:E5; [|apply lit_plain; [lia..|exact IH]].
    unfold hex_escape. cbn [app]. replace c with (16 * (c / 16) + c mod 16) at 3 by lia. apply lit_hex; [apply hex_digit_char; lia..|exact IH].
Qed.
Lemma text_forty b : is_bytes b -> len b = 40 -> exists q t, (q = 39 \/ (q = 34 /\ In 39 b /\ ~ In 34 b)) /\
  bad_object_text (VBytes b) = Ok (str_bad_object ++ [98; q] ++ t ++ [q]) /\ literal q t b.
Proof.
  intros Hb Hl. destruct (repr_literal b Hb) as (q & t & Hq & E & H). exists q, t. split; [exact Hq|]. split; [|exact H].
  unfold bad_object_text, to_hex_sha_of. cbn [value_len bind]. replace (len b =? 40) with true by lia. cbn [bind percent_s]. now rewrite E.
Qed.
