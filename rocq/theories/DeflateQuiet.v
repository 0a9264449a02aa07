(** The first 8 bytes of a zlib stream that begins with a dynamic block (RFC 1951, 3.2.7) put
    nothing out: they are not enough for the code lengths (C23). *)
From Coq Require Import ZifyBool ZifyNat.
From Verif Require Import Py PyFacts ZlibModel DeflateModel DeflateProofs DeflateDense.
Ltac Zify.zify_post_hook ::= Z.div_mod_to_equations.

(** n bits without output, and without an end of the bit-wise part. *)
Fixpoint Q (n : nat) (ph : phase) : Prop :=
  match n with
  | O => True
  | S n => bitwise ph = true /\ forall fin hist b fin' ph' o, is_bit b -> bit_step ph fin hist b = Ok (fin', ph', o) -> o = [] /\ Q n ph'
  end.
Lemma Q_less n : forall ph, Q (S n) ph -> Q n ph.
Proof.
  induction n as [|n IH]; intros ph H; [easy|]. destruct H as [H1 H2]. split; [easy|].
  intros fin hist b fin' ph' o Hb Hs. destruct (H2 _ _ _ _ _ _ Hb Hs) as [-> H]. split; [easy|]. now apply IH.
Qed.
Lemma Q_collect g : forall n need weight acc, 1 <= need -> 0 <= acc < weight ->
  (forall fin hist v fin' ph' o, 0 <= v < weight * 2 ^ need -> arrive g fin hist v = Ok (fin', ph', o) -> o = [] /\ Q (n - Z.to_nat need) ph') ->
  Q n (PCollect g need weight acc).
Proof.
  induction n as [|n IH]; intros need weight acc Hn Ha H; [easy|]. split; [easy|]. intros fin hist b fin' ph' o Hb Hs. cbn [bit_step] in Hs.
  assert (Hacc : 0 <= acc + weight * b < 2 * weight) by (destruct Hb as [-> | ->]; lia).
  destruct (need <=? 1) eqn:E.
  - assert (need = 1) as -> by lia. assert (Hv : 0 <= acc + weight * b < weight * 2 ^ 1) by (change (2 ^ 1) with 2; lia). destruct (H _ _ _ _ _ _ Hv Hs) as [-> HQ]. split; [easy|].
    replace (S n - Z.to_nat 1)%nat with n in HQ by lia. exact HQ.
  - injection Hs as <- <- <-. split; [easy|]. apply IH; [lia|exact Hacc|]. intros fin1 hist1 v fin2 ph2 o2 Hv Hr.
    replace (n - Z.to_nat (need - 1))%nat with (S n - Z.to_nat need)%nat by lia. apply (H _ _ _ _ _ _) in Hr; [exact Hr|].
    replace need with (Z.succ (need - 1)) by lia. rewrite Z.pow_succ_r by lia. rewrite Z.mul_assoc, (Z.mul_comm weight 2). exact Hv.
Qed.
Lemma Q_walk g symbols n : (forall fin hist i fin' ph' o, symbol g fin hist (at_ symbols i) = Ok (fin', ph', o) -> o = [] /\ Q (n - 1) ph') ->
  forall counts code first index, Q n (PWalk g counts symbols code first index).
Proof.
  destruct n as [|n]; [easy|]. replace (S n - 1)%nat with n by lia.
  intros H. enough (HH : forall k, (k <= n)%nat -> forall counts code first index, Q (S k) (PWalk g counts symbols code first index)) by (intros; now apply HH).
  assert (Hm : forall k ph, (k <= n)%nat -> Q n ph -> Q k ph).
  { clear. intros k ph Hk. induction Hk as [|n _ IH]; [easy|]. intros HQ. now apply IH, Q_less. }
  induction k as [|k IH]; intros Hk counts code first index; (split; [easy|]); intros fin hist b fin' ph' o Hb Hs;
    (destruct counts as [|c counts]; [discriminate|]); cbn [bit_step] in Hs; (destruct (code + b - first <? c); [destruct (H _ _ _ _ _ _ Hs) as [-> HQ]; split; [easy|]; now apply Hm|]); injection Hs as <- <- <-; (split; [easy|]).
  - easy.
  - apply IH. lia.
Qed.

(** ** Code lengths that cannot be used: none for the end of the block *)
Definition no_end (ch : huff) (rlens : list Z) : Prop :=
  (256 < len rlens /\ at_ (rev rlens) 256 = 0) \/ (Forall (fun l => l = 0) rlens /\ Forall (fun s => s = 0 \/ 16 <= s) (h_symbol ch)).
Lemma zero_hd rlens : Forall (fun l => l = 0) rlens -> hd 0 rlens = 0.
Proof. now destruct 1. Qed.
Lemma at_app (a b : list Z) i : 0 <= i < len a -> at_ (a ++ b) i = at_ a i.
Proof. unfold at_. intros H. apply app_nth1. unfold len in H. lia. Qed.
Lemma no_end_app ch add rlens : no_end ch rlens -> (Forall (fun l => l = 0) rlens -> Forall (fun s => s = 0 \/ 16 <= s) (h_symbol ch) -> Forall (fun l => l = 0) add) ->
  no_end ch (add ++ rlens).
Proof.
  intros [[H1 H2]|[H1 H2]] H.
  - left. rewrite rev_app_distr, len_app. pose proof (len_nonneg _ add). split; [lia|]. rewrite at_app; [easy|]. unfold len in *. rewrite rev_length. lia.
  - right. split; [|easy]. apply Forall_app. split; [now apply H|easy].
Qed.
Lemma no_end_at ch rlens : no_end ch rlens -> at_ (rev rlens) 256 = 0.
Proof.
  intros [[_ H]|[H _]]; [easy|]. unfold at_. destruct (nth_in_or_default (Z.to_nat 256) (rev rlens) 0) as [Hi|Hi]; [|easy].
  apply in_rev in Hi. rewrite Forall_forall in H. now apply H.
Qed.
Lemma Q_no_end n : forall ch nlen ndist rlens, no_end ch rlens ->
  (forall counts code first index, Q n (PWalk (WClen ch nlen ndist rlens) counts (h_symbol ch) code first index)) /\
  (forall s need weight acc, 1 <= need -> 0 <= acc < weight -> Q n (PCollect (GRepeat ch nlen ndist rlens s) need weight acc)).
Proof.
  induction n as [n IH] using lt_wf_ind. intros ch nlen ndist rlens Hno.
  assert (Hnext : forall k rl ph, (k < n)%nat -> no_end ch rl -> next_clen ch nlen ndist rl = Ok ph -> Q k ph).
  { intros k rl ph Hk Hrl H. unfold next_clen in H. destruct (len rl <? nlen + ndist) eqn:E; [injection H as <-; now apply IH|].
    rewrite rev'_rev, (no_end_at _ _ Hrl) in H. cbn [Z.eqb negb] in H. rewrite andb_false_r in H. discriminate H. }
  destruct n as [|n]; [easy|]. split.
  - intros counts code first index. apply Q_walk. intros fin hist i fin' ph' o H. replace (S n - 1)%nat with n by lia. cbn [symbol] in H.
    set (s := at_ (h_symbol ch) i) in *.
    assert (Hs : Forall (fun s => s = 0 \/ 16 <= s) (h_symbol ch) -> s = 0 \/ 16 <= s).
    { intros Hf. unfold s, at_. destruct (nth_in_or_default (Z.to_nat i) (h_symbol ch) 0) as [Hi|Hi]; [|now left]. rewrite Forall_forall in Hf. now apply Hf. }
    destruct (s <? 16) eqn:E16.
    + apply bind_ok_inv in H as (ph & H & H2). injection H2 as <- <- <-. split; [easy|]. apply (Hnext n (s :: rlens)); [lia| |exact H].
      apply (no_end_app ch [s]); [easy|]. intros _ Hf. constructor; [|constructor]. specialize (Hs Hf). lia.
    + destruct (_ && _); [discriminate|]. injection H as <- <- <-. split; [easy|]. apply IH; [lia|easy| |lia].
      destruct s as [|p|p]; try lia. repeat (destruct p as [p|p|]; try lia).
  - intros s need weight acc Hn Ha. apply Q_collect; [easy|easy|]. intros fin hist v fin' ph' o Hv H. cbn [arrive] in H.
    apply bind_ok_inv in H as (ph & H & H2). injection H2 as <- <- <-. split; [easy|].
    set (add := match s with 16 => _ | 17 => _ | _ => _ end) in H.
    apply (Hnext _ (add ++ rlens)); [lia| |exact H]. apply no_end_app; [easy|]. intros Hz _.
    assert (Hrep : forall k x, x = 0 -> Forall (fun l => l = 0) (repeat x k)) by (intros k x ->; apply Forall_forall; intros y Hy; now apply repeat_spec in Hy).
    pose proof (zero_hd _ Hz) as Hh. subst add. destruct s as [|p|p]; try now apply Hrep. repeat (destruct p as [p|p|]; try now apply Hrep).
Qed.

(** ** How many bits the code lengths take *)
Lemma other_symbol {A} (x y z : A) s : s <> 16 -> s <> 17 -> match s with 16 => x | 17 => y | _ => z end = z.
Proof. intros H1 H2. destruct s as [|p|p]; try reflexivity. repeat (destruct p as [p|p|]; try reflexivity; try easy). Qed.
Lemma repeat_bits s : 1 <= match s with 16 => 2 | 17 => 3 | _ => 7 end.
Proof. destruct (Z.eq_dec s 16) as [-> |H1]; [lia|]. destruct (Z.eq_dec s 17) as [-> |H2]; [lia|]. rewrite other_symbol by easy. lia. Qed.
Definition fits (n : nat) (l : Z) : Prop :=
  if l <=? 256 then 138 * Z.of_nat n < 8 * (256 - l) + 414 else if l =? 257 then Z.of_nat n <= 1 else n = 0%nat.
Lemma len_repeat {A} (x : A) k : len (repeat x k) = Z.of_nat k.
Proof. unfold len. now rewrite repeat_length. Qed.
Lemma fits_at_most n l : 0 <= l -> fits (S n) l -> l <= 257.
Proof. unfold fits. intros Hl H. destruct (_ <=? _) eqn:E; [lia|]. destruct (_ =? _) eqn:E2; lia. Qed.
Lemma fits_one n l : 0 <= l -> fits (S n) l -> fits n (l + 1).
Proof. unfold fits. intros H0 H. destruct (l <=? 256) eqn:E1; destruct (l =? 257) eqn:E2; destruct (l + 1 <=? 256) eqn:E3; destruct (l + 1 =? 257) eqn:E4; lia. Qed.
Lemma fits_same n l k : 0 <= l -> 3 <= k <= 6 -> fits (S n) l -> fits (n - 2) (k + l).
Proof. unfold fits. intros H0 Hk H. destruct (l <=? 256) eqn:E1; destruct (l =? 257) eqn:E2; destruct (k + l <=? 256) eqn:E3; destruct (k + l =? 257) eqn:E4; lia. Qed.
Lemma fits_zeros ch rlens n k m : fits (S n) (len rlens) -> (3 <= k <= 138)%nat -> (m = n - 7 \/ (m = n - 3 /\ k <= 10))%nat ->
  fits m (len (repeat 0 k ++ rlens)) \/ no_end ch (repeat 0 k ++ rlens).
Proof.
  intros Hfit Hk Hm. pose proof (len_nonneg _ rlens) as H0. pose proof (fits_at_most _ _ H0 Hfit) as Hlen. rewrite len_app, len_repeat.
  destruct (Z_le_gt_dec (Z.of_nat k + len rlens) 256) as [Hle|Hgt].
  - left. unfold fits in *. replace (len rlens <=? 256) with true in Hfit by lia. replace (_ <=? 256) with true by lia. lia.
  - destruct (Z.eq_dec (len rlens) 257) as [E|E].
    + left. unfold fits in *. replace (len rlens <=? 256) with false in Hfit by lia. replace (len rlens =? 257) with true in Hfit by lia.
      replace (_ <=? 256) with false by lia. replace (_ =? 257) with false by lia. lia.
    + right. left. split; [rewrite len_app, len_repeat; lia|]. rewrite rev_app_distr. unfold at_. rewrite app_nth2 by (rewrite rev_length; unfold len in *; lia).
      match goal with |- nth ?j ?l 0 = 0 => destruct (nth_in_or_default j l 0) as [Hi|Hi]; [|exact Hi]; apply in_rev in Hi; now apply repeat_spec in Hi end.
Qed.
Lemma Q_clen n : forall ch nlen ndist rlens, 257 <= nlen -> 1 <= ndist -> fits n (len rlens) ->
  forall counts code first index, Q n (PWalk (WClen ch nlen ndist rlens) counts (h_symbol ch) code first index).
Proof.
  induction n as [n IH] using lt_wf_ind. intros ch nlen ndist rlens Hl Hd Hfit counts code first index.
  destruct n as [|n]; [easy|]. pose proof (len_nonneg _ rlens) as Hlen0.
  assert (Hnext : forall k rl ph, (k <= n)%nat -> fits k (len rl) \/ no_end ch rl -> next_clen ch nlen ndist rl = Ok ph -> Q k ph).
  { intros k rl ph Hk [Hf|Hno] H; unfold next_clen in H; (destruct (len rl <? nlen + ndist) eqn:E; [injection H as <-|]).
    - apply IH; [lia|lia|lia|easy].
    - destruct k as [|k]; [easy|]. exfalso. unfold fits in Hf. replace (len rl <=? 256) with false in Hf by lia. replace (len rl =? 257) with false in Hf by lia. discriminate.
    - now apply Q_no_end.
    - rewrite rev'_rev, (no_end_at _ _ Hno) in H. cbn [Z.eqb negb] in H. rewrite andb_false_r in H. discriminate H. }
  clear IH. apply Q_walk. intros fin hist i fin' ph' o H. replace (S n - 1)%nat with n by lia. cbn [symbol] in H. set (s := at_ (h_symbol ch) i) in *. clearbody s.
  destruct (s <? 16) eqn:E16.
  - apply bind_ok_inv in H as (ph & H & H2). injection H2 as <- <- <-. split; [easy|]. apply (Hnext n (s :: rlens)); [lia| |exact H]. left.
    rewrite len_cons. now apply fits_one.
  - destruct (_ && _); [discriminate|]. injection H as <- <- <-. split; [easy|].
    assert (Hrep : forall k add, (k <= n)%nat -> (forall v, 0 <= v < 1 * 2 ^ match s with 16 => 2 | 17 => 3 | _ => 7 end -> fits k (len (add v ++ rlens)) \/ no_end ch (add v ++ rlens)) ->
      (forall v, match s with 16 => repeat (hd 0 rlens) (Z.to_nat (3 + v)) | 17 => repeat 0 (Z.to_nat (3 + v)) | _ => repeat 0 (Z.to_nat (11 + v)) end = add v) ->
      (n - Z.to_nat (match s with 16 => 2 | 17 => 3 | _ => 7 end)%Z)%nat = k -> Q n (collect (GRepeat ch nlen ndist rlens s) match s with 16 => 2 | 17 => 3 | _ => 7 end)).
    { intros k add Hk Hadd Ha Hn. apply Q_collect; [apply repeat_bits|lia|]. intros fin1 hist1 v fin2 ph2 o2 Hv H. cbn [arrive] in H.
      apply bind_ok_inv in H as (ph & H & H2). injection H2 as <- <- <-. split; [easy|]. rewrite Ha in H. rewrite Hn. apply (Hnext _ (add v ++ rlens)); [easy|now apply Hadd|exact H]. }
    destruct (Z.eq_dec s 16) as [-> |E]; [|destruct (Z.eq_dec s 17) as [-> |E']].
    + apply (Hrep (n - 2)%nat (fun v => repeat (hd 0 rlens) (Z.to_nat (3 + v)))); [lia| |reflexivity|reflexivity].
      intros v Hv. left. rewrite len_app, len_repeat. change (1 * 2 ^ 2) with 4 in Hv. apply fits_same; [easy|lia|easy].
    + apply (Hrep (n - 3)%nat (fun v => repeat 0 (Z.to_nat (3 + v)))); [lia| |reflexivity|reflexivity].
      intros v Hv. change (1 * 2 ^ 3) with 8 in Hv. apply (fits_zeros _ _ n); [easy|lia|right; lia].
    + apply (Hrep (n - 7)%nat (fun v => repeat 0 (Z.to_nat (11 + v)))); [lia| | |].
      * intros v Hv. rewrite other_symbol in Hv by easy. change (1 * 2 ^ 7) with 128 in Hv. apply (fits_zeros _ _ n); [easy|lia|left; lia].
      * intros v. now rewrite other_symbol.
      * now rewrite other_symbol.
Qed.
(** Four lengths only: of the code for 16, 17, 18 and 0. *)
Definition four_lens (a b c d : Z) : list Z := [d; 0; 0; 0; 0; 0; 0; 0; 0; 0; 0; 0; 0; 0; 0; 0; a; b; c].
Lemma four_lens_eq a b c d : map (fun s => fold_left (fun x p => if fst p =? s then snd p else x) (combine clen_order [a; b; c; d]) 0) (upto 19) = four_lens a b c d.
Proof. vm_compute. reflexivity. Qed.
Lemma four_lens_nth a b c d i : (i < 19)%nat -> 1 <= nth i (four_lens a b c d) 0 -> i = 0%nat \/ (16 <= i)%nat.
Proof. intros Hi H. unfold four_lens in H. do 16 (destruct i as [|i]; [cbn [nth] in H; lia|]). lia. Qed.
Lemma upto_nth n i : (i < n)%nat -> nth i (upto n) 0 = Z.of_nat i.
Proof. intros H. unfold upto. rewrite (nth_indep _ 0 (Z.of_nat 0)) by now rewrite map_length, seq_length. rewrite map_nth, seq_nth by easy. reflexivity. Qed.
Lemma upto_length n : length (upto n) = n.
Proof. unfold upto. now rewrite map_length, seq_length. Qed.
Lemma code_length_pos l : In l code_lengths -> 1 <= l.
Proof. change code_lengths with (map Z.of_nat (seq 1 15)). rewrite in_map_iff. intros (i & <- & Hi). apply in_seq in Hi. lia. Qed.
Lemma symbol_length lens s : In s (h_symbol (build lens)) -> exists i, s = Z.of_nat i /\ (i < length lens)%nat /\ 1 <= nth i lens 0.
Proof.
  cbn [build h_symbol]. intros Hs. apply in_flat_map in Hs as (l & Hl & Hs). unfold with_length in Hs.
  apply in_map_iff in Hs as ([l' s'] & <- & Hs). apply filter_In in Hs as [Hs Hl']. cbn [fst snd] in *. apply Z.eqb_eq in Hl'. subst l'.
  apply code_length_pos in Hl.
  apply (In_nth _ _ (0, 0)) in Hs as (i & Hi & Hn). rewrite combine_length, upto_length in Hi. rewrite combine_nth in Hn by now rewrite upto_length. rewrite upto_nth in Hn by lia.
  injection Hn as Hn1 Hn2. exists i. split; [easy|]. split; [lia|]. lia.
Qed.
Lemma four_symbols a b c d : Forall (fun s => s = 0 \/ 16 <= s)
  (h_symbol (build (map (fun s => fold_left (fun x p => if fst p =? s then snd p else x) (combine clen_order [a; b; c; d]) 0) (upto 19)))).
Proof.
  rewrite four_lens_eq. apply Forall_forall. intros s Hs. apply symbol_length in Hs as (i & -> & Hi & H1). apply four_lens_nth in H1; [lia|exact Hi].
Qed.
Lemma Q_lengths nlen ndist todo : 257 <= nlen -> 1 <= ndist -> 4 <= todo -> forall k got n, len got + Z.of_nat k = todo -> (1 <= k)%nat ->
  (4 < todo -> (n <= 3 * k + 17)%nat) -> Q n (collect (GClen nlen ndist todo got) 3).
Proof.
  intros Hl Hd Ht. induction k as [|k IH]; intros got n Hk Hk1 Hn; [lia|]. apply Q_collect; [lia|lia|]. intros fin hist v fin' ph' o _ H. cbn [arrive] in H.
  destruct (len (got ++ [v]) <? todo) eqn:E; rewrite len_app, len_cons, len_nil in E.
  - injection H as <- <- <-. split; [easy|]. apply IH; [rewrite len_app, len_cons, len_nil; lia|lia|lia].
  - destruct (usable true _) eqn:Eu; [|discriminate]. apply bind_ok_inv in H as (ph & H & H2). injection H2 as <- <- <-. split; [easy|].
    unfold next_clen in H. rewrite len_nil in H. replace (0 <? nlen + ndist) with true in H by lia. injection H as <-.
    destruct (Z_lt_le_dec 4 todo) as [H4|H4].
    + apply Q_clen; [lia|lia|]. unfold fits. rewrite len_nil. replace (0 <=? 256) with true by reflexivity. specialize (Hn H4). assert (k = 0)%nat by lia. lia.
    + apply Q_no_end. right. split; [constructor|]. assert (Hlen : length (got ++ [v]) = 4%nat) by (rewrite app_length; unfold len in *; cbn [length]; lia).
      destruct (got ++ [v]) as [|a [|b [|c [|d [|]]]]]; try discriminate Hlen. apply four_symbols.
Qed.
Lemma Q_dynamic : Q 45 (collect GCounts 14).
Proof.
  apply Q_collect; [lia|lia|]. intros fin hist v fin' ph' o Hv H. change (1 * 2 ^ 14) with 16384 in Hv. cbn [arrive] in H.
  remember (257 + v mod 32) as nlen eqn:E1. remember (1 + v / 32 mod 32) as ndist eqn:E2. remember (4 + v / 1024) as todo eqn:E3.
  destruct (_ || _) eqn:E; [discriminate|]. injection H as <- <- <-. split; [easy|].
  apply (Q_lengths nlen ndist todo ltac:(lia) ltac:(lia) ltac:(lia) (Z.to_nat todo)); rewrite ?len_nil; lia.
Qed.

(** ** Bytes *)
Lemma bits_Q bits : Forall is_bit bits -> forall n st st' o, Q (length bits + n) (c_ph st) -> bits_step st bits = Ok (st', o) -> o = [] /\ Q n (c_ph st').
Proof.
  induction 1 as [|b bits Hb _ IH]; intros n st st' o HQ H; cbn [bits_step] in H.
  - injection H as <- <-. now split.
  - destruct HQ as [Hbw HQ]. rewrite Hbw in H. apply bind_ok_inv in H as ([[fin ph] o1] & H1 & H). apply bind_ok_inv in H as ([st2 o2] & H2 & H). injection H as <- <-.
    destruct (HQ _ _ _ _ _ _ Hb H1) as [-> HQ']. now destruct (IH n (with_out st fin ph []) _ _ HQ' H2) as [-> HQ2].
Qed.
Lemma fed_Q st z st' o : fed st z st' o -> Q (8 * length z) (c_ph st) -> o = [].
Proof.
  induction 1 as [st|st c z st1 o1 st2 o2 Hd Hf H IH]; intros HQ; [easy|].
  assert (Hbw : bitwise (c_ph st) = true) by (cbn [length] in HQ; replace (8 * S (length z))%nat with (S (7 + 8 * length z)) in HQ by lia; apply HQ).
  rewrite (proj2 (feed_bitwise st c Hbw)) in Hf.
  destruct (bits_Q _ (bits_of_bits 8 c) (8 * length z) _ _ _ ltac:(rewrite bits_of_length; replace (8 + 8 * length z)%nat with (8 * length (c :: z))%nat by (cbn [length]; lia); exact HQ) Hf) as [-> HQ'].
  now rewrite (IH HQ').
Qed.
Lemma fed_uncons st c z st' o : fed st (c :: z) st' o -> exists st1 o1 o2, inflate_feed st c = Ok (st1, o1) /\ fed st1 z st' o2 /\ o = o1 ++ o2.
Proof. intros H. inversion H as [|? ? ? st1 o1 ? o2 Hd Hf H']; subst. now exists st1, o1, o2. Qed.
Lemma fed_dynamic a b c z st' o : c mod 8 = 4 \/ c mod 8 = 5 -> (length z <= 5)%nat -> fed inflate_start (a :: b :: c :: z) st' o -> o = [].
Proof.
  intros Hc Hz H. apply fed_uncons in H as (st1 & o1 & q1 & F1 & H & ->). cbn in F1. injection F1 as <- <-.
  apply fed_uncons in H as (st2 & o2 & q2 & F2 & H & ->). cbn [inflate_feed c_ph with_out] in F2. destruct (_ && _) eqn:E in F2; [|discriminate]. injection F2 as <- <-.
  apply fed_uncons in H as (st3 & o3 & q3 & F3 & H & ->). rewrite block_bits in F3 by reflexivity.
  assert (HF : exists st fin, bits_step (with_out st fin (collect GCounts 14) []) (bits_of 5 (c / 8)) = Ok (st3, o3)).
  { destruct Hc as [Hc|Hc].
    - replace (c mod 2 + 2 * (c / 2 mod 2)) with 0 in F3 by lia. replace (c / 4 mod 2) with 1 in F3 by lia. erewrite bits_cons in F3; [|reflexivity|reflexivity]. eexists _, _. exact F3.
    - replace (c mod 2 + 2 * (c / 2 mod 2)) with 1 in F3 by lia. replace (c / 4 mod 2) with 1 in F3 by lia. erewrite bits_cons in F3; [|reflexivity|reflexivity]. eexists _, _. exact F3. }
  destruct HF as (st & fin & HF). assert (HD : Q (length (bits_of 5 (c / 8)) + 40) (c_ph (with_out st fin (collect GCounts 14) []))) by (rewrite bits_of_length; exact Q_dynamic).
  destruct (bits_Q _ (bits_of_bits 5 (c / 8)) 40 _ _ _ HD HF) as [-> HQ].
  cbn [app]. apply (fed_Q _ _ _ _ H).
  assert (Hm : forall k ph, (k <= 40)%nat -> Q 40 ph -> Q k ph).
  { clear. intros k ph Hk. induction Hk as [|n _ IH]; [easy|]. intros HQ. now apply IH, Q_less. }
  apply Hm; [lia|exact HQ].
Qed.
Lemma run_split a : forall st b d, i_run st (a ++ b) = Some d -> exists st' o d', fed st a st' o /\ i_run st' b = Some d' /\ d = o ++ d'.
Proof.
  induction a as [|c a IH]; intros st b d H.
  - exists st, [], d. split; [constructor|]. now split.
  - cbn [app] in H. apply run_step in H as (Hd & st1 & o1 & d1 & Hf & Hr & ->). destruct (IH _ _ _ Hr) as (st' & o & d' & H1 & H2 & ->).
    exists st', (o1 ++ o), d'. split; [now apply (fed_cons _ _ _ st c a st1 o1)|]. split; [easy|]. now rewrite app_assoc.
Qed.
Lemma go_quiet st z st' o : fed st z st' o -> o = [] -> forall n, 0 < n -> a_go core inflate_feed inflate_done inflate_direct st [] z n = Ok (st', [], [], []).
Proof.
  induction 1 as [st|st c z st1 o1 st2 o2 Hd Hf H IH]; intros Ho n Hn; cbn [a_go]; rewrite len_nil; replace (n <? 0) with false by lia; [easy|].
  apply app_eq_nil in Ho as [-> ->]. rewrite Hd. replace (n <=? 0) with false by lia. rewrite andb_false_r. cbn [orb]. rewrite Hf. cbn [bind].
  now rewrite (IH eq_refl) by lia.
Qed.
(** The first 8 bytes. *)
Lemma dynamic_quiet z d n : i_run inflate_start z = Some d -> d <> [] -> nth 2 z 0 mod 8 = 4 \/ nth 2 z 0 mod 8 = 5 -> 0 < n ->
  (8 < length z)%nat /\ exists st, zs_decompress deflate (zs_new deflate) (firstn 8 z) n = Ok ([], st).
Proof.
  intros Hr Hd Hc Hn. rewrite <- (firstn_skipn 8 z) in Hr. apply run_split in Hr as (st & o & d' & Hf & Hr & ->).
  assert (Ho : o = []).
  { destruct z as [|a [|b [|c z]]]; cbn in Hc; try lia. cbn [firstn] in Hf. apply (fed_dynamic a b c (firstn 5 z) st o Hc); [|exact Hf]. rewrite firstn_length. lia. }
  split.
  - destruct (skipn 8 z) as [|x zr] eqn:E; [|apply (f_equal (@length _)) in E; rewrite skipn_length in E; cbn [length] in E; lia].
    cbn in Hr. destruct (inflate_done st); [|discriminate]. injection Hr as <-. now rewrite Ho in Hd.
  - cbn [deflate zs_decompress zs_new]. unfold a_decompress. cbn [a_core a_pend]. rewrite (go_quiet _ _ _ _ Hf Ho n Hn). cbn [bind]. eexists. reflexivity.
Qed.
