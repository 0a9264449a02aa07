(** Proofs about lookups in the pack index model. *)
From Coq Require Import ZifyBool ZifyNat Sorting.Sorted Sorting.Permutation.
From Verif Require Import Py PyFacts FunModel FunSpec FunProofs IndexModel IndexSpec IndexProofs.
Ltac Zify.zify_post_hook ::= Z.div_mod_to_equations.

(** ** Termination *)
Lemma bisect_terminates get sha : forall fuel lo hi, hi - lo < 2 ^ (Z.of_nat fuel - 1) -> (1 <= fuel)%nat ->
  bisect fuel get sha lo hi <> Diverge.
Proof.
  induction fuel as [|f IH]; intros lo hi H Hf; [lia|]. cbn [bisect].
  destruct (Z.ltb_spec lo hi); [|discriminate].
  destruct f as [|f].
  { cbn in H. lia. }
  assert (2 ^ (Z.of_nat (S (S f)) - 1) = 2 * 2 ^ (Z.of_nat (S f) - 1)) as E.
  { rewrite <- Z.pow_succ_r by lia. f_equal. lia. }
  rewrite E in H.
  destruct (blt _ _); [|destruct (beq _ _); [discriminate|]]; apply IH; lia.
Qed.
Lemma bisect_low_terminates get sha : forall fuel lo hi, hi - lo < 2 ^ (Z.of_nat fuel - 1) -> (1 <= fuel)%nat ->
  exists r, bisect_low fuel get sha lo hi = Ok r.
Proof.
  induction fuel as [|f IH]; intros lo hi H Hf; [lia|]. cbn [bisect_low].
  destruct (Z.ltb_spec lo hi); [|eauto].
  destruct f as [|f].
  { cbn in H. lia. }
  assert (2 ^ (Z.of_nat (S (S f)) - 1) = 2 * 2 ^ (Z.of_nat (S f) - 1)) as E.
  { rewrite <- Z.pow_succ_r by lia. f_equal. lia. }
  rewrite E in H.
  destruct (blt _ _); [|destruct (beq _ _); [eauto|]]; apply IH; lia.
Qed.
Lemma bisect_fuel_enough lo hi : hi - lo < 2 ^ (Z.of_nat (bisect_fuel lo hi) - 1).
Proof.
  unfold bisect_fuel. pose proof (Z.log2_nonneg (hi - lo)).
  replace (Z.of_nat (S (S (Z.to_nat (Z.log2 (hi - lo))))) - 1) with (Z.succ (Z.log2 (hi - lo))) by lia.
  destruct (Z.le_gt_cases (hi - lo) 0).
  - pose proof (Z.pow_pos_nonneg 2 (Z.succ (Z.log2 (hi - lo)))). lia.
  - apply Z.log2_spec. lia.
Qed.
Lemma index_no_diverge A (l : list A) i : index l i <> Diverge.
Proof. unfold index. destruct (_ && _); [destruct (nth_error _ _)|]; discriminate. Qed.
Lemma bisect_bounds_no_diverge l b : bisect_bounds l b <> Diverge.
Proof.
  unfold bisect_bounds.
  destruct (b =? 0); cbn [bind].
  - pose proof (index_no_diverge _ l b). destruct (index l b); cbn; congruence.
  - pose proof (index_no_diverge _ l (b - 1)). destruct (index l (b - 1)); cbn; try congruence.
    pose proof (index_no_diverge _ l b). destruct (index l b); cbn; congruence.
Qed.
Lemma sha_to_index_terminates ix sha : sha_to_index ix sha <> Diverge.
Proof.
  unfold sha_to_index. pose proof (index_no_diverge _ sha 0). destruct (index sha 0) as [b| |]; cbn [bind]; try congruence.
  pose proof (bisect_bounds_no_diverge (ix_fanout ix) b).
  destruct (bisect_bounds _ _) as [[lo hi]| |]; cbn [bind]; try congruence.
  apply bisect_terminates; [apply bisect_fuel_enough|unfold bisect_fuel; lia].
Qed.
Lemma is_equal_no_diverge n a b : is_equal_canonical_sha n a b <> Diverge.
Proof.
  unfold is_equal_canonical_sha. destruct (negb _); [discriminate|]. destruct (_ =? 0); [discriminate|].
  pose proof (index_no_diverge _ a (-1)). destruct (index a (-1)); cbn [bind]; try congruence.
  pose proof (index_no_diverge _ b (len a - 1)). destruct (index b (len a - 1)); cbn [bind]; try congruence.
Qed.
Lemma partial_sha_to_index_terminates ix p n : partial_sha_to_index ix p n <> Diverge.
Proof.
  unfold partial_sha_to_index. destruct (len p <? 2); [discriminate|].
  pose proof (index_no_diverge _ p 0). destruct (index p 0) as [b| |]; cbn [bind]; try congruence.
  pose proof (bisect_bounds_no_diverge (ix_fanout ix) b).
  destruct (bisect_bounds _ _) as [[lo hi]| |]; cbn [bind]; try congruence.
  match goal with |- context [bisect_low ?f ?g ?s lo hi] =>
    destruct (bisect_low_terminates g s f lo hi) as [r ->];
      [apply bisect_fuel_enough|unfold bisect_fuel; lia|] end. cbn [bind].
  unfold ix_size. pose proof (index_no_diverge _ (ix_fanout ix) 255).
  destruct (index (ix_fanout ix) 255); cbn [bind]; try congruence.
  destruct (r <? a); [|discriminate].
  pose proof (is_equal_no_diverge n p (ix_sha ix r)).
  destruct (is_equal_canonical_sha _ _ _) as [[|]| |]; cbn [bind]; try congruence.
  destruct (_ && _); discriminate.
Qed.

(** ** Soundness *)
Lemma bisect_sound get sha : forall fuel lo hi i, bisect fuel get sha lo hi = Ok (Some i) ->
  get i = sha /\ lo <= i < hi.
Proof.
  induction fuel as [|f IH]; intros lo hi i H; [discriminate|]. cbn [bisect] in H.
  destruct (Z.ltb_spec lo hi); [|discriminate].
  destruct (blt _ _); [|destruct (beq _ _) eqn:E].
  - apply IH in H. split; [easy|lia].
  - injection H as <-. apply beq_eq in E. split; [easy|lia].
  - apply IH in H. split; [easy|lia].
Qed.
Lemma sha_to_index_sound ix sha i : sha_to_index ix sha = Ok (Some i) -> ix_sha ix i = sha.
Proof.
  unfold sha_to_index. destruct (index sha 0) as [b| |]; cbn [bind]; try discriminate.
  destruct (bisect_bounds _ _) as [[lo hi]| |]; cbn [bind]; try discriminate.
  intros H. now apply bisect_sound in H.
Qed.

(** ** Sorted lists *)
Lemma sorted_index R l i j (x y : bytes) : StronglySorted R l -> 0 <= i -> i < j ->
  index l i = Ok x -> index l j = Ok y -> R x y.
Proof.
  intros Hs Hi Hij Hx Hy. apply index_ok_split in Hx as (a & b & -> & Ha); [|easy].
  apply index_ok_split in Hy as (c & d & E & Hc); [|lia].
  assert (exists m, c = a ++ x :: m) as (m & ->).
  { assert (firstn (length a + 1) (a ++ x :: b) = firstn (length a + 1) (c ++ y :: d)) as E2 by now rewrite E.
    rewrite firstn_plus, firstn_app, firstn_all, Nat.sub_diag in E2. cbn [firstn] in E2.
    rewrite app_nil_r, skipn_app, skipn_all, Nat.sub_diag in E2. cbn [skipn app firstn] in E2.
    rewrite firstn_app in E2. replace (length a + 1 - length c)%nat with 0%nat in E2 by (unfold len in *; lia).
    cbn [firstn] in E2. rewrite app_nil_r in E2.
    exists (skipn (length a + 1) c). change (a ++ x :: ?m) with (a ++ [x] ++ m).
    rewrite app_assoc, E2. symmetry. apply firstn_skipn. }
  rewrite E in Hs. clear - Hs. induction a as [|z a IH]; cbn in Hs; inversion Hs as [|? ? H1 H2]; subst.
  - apply Forall_app in H2 as [_ H2]. now inversion H2.
  - now apply IH.
Qed.
Lemma sorted_le l i j (x y : bytes) : StronglySorted sha_le l -> 0 <= i -> i <= j ->
  index l i = Ok x -> index l j = Ok y -> sha_le x y.
Proof.
  intros Hs Hi Hij Hx Hy. destruct (Z.eq_dec i j) as [->|].
  - rewrite Hx in Hy. injection Hy as ->. apply sha_le_refl.
  - eapply sorted_index; eauto. lia.
Qed.
(** The elements satisfying a downward closed property form a prefix. *)
Lemma sorted_filter (P : bytes -> bool) l i s : StronglySorted sha_le l ->
  (forall x y, In x l -> In y l -> sha_le x y -> P y = true -> P x = true) ->
  0 <= i -> index l i = Ok s -> (P s = true <-> i < len (filter P l)).
Proof.
  intros Hs. revert i. induction Hs as [|x l Hs IH Hx]; intros i HP Hi Hidx.
  - unfold index in Hidx. rewrite len_nil in Hidx. now destruct (_ && _) in Hidx; [destruct (nth_error _ _) eqn:E; [destruct (Z.to_nat _)|]|].
  - cbn [filter]. destruct (Z.eq_dec i 0) as [->|Hne].
    + change (index (x :: l) 0) with (index ([] ++ x :: l) 0) in Hidx. rewrite index_app in Hidx by easy.
      injection Hidx as ->. destruct (P s) eqn:E.
      * rewrite len_cons. pose proof (len_nonneg _ (filter P l)). split; [lia|easy].
      * split; [easy|]. rewrite filter_none; [rewrite len_nil; lia|].
        apply Forall_forall. intros y Hy. destruct (P y) eqn:Ey; [|easy].
        rewrite <- E. symmetry. apply (HP s y); try easy; [now left|now right|].
        rewrite Forall_forall in Hx. now apply Hx.
    + assert (index l (i - 1) = Ok s) as Hidx'.
      { revert Hidx. replace i with (Z.of_nat (S (Z.to_nat (i - 1)))) by lia.
        replace (Z.of_nat (S (Z.to_nat (i - 1))) - 1) with (Z.of_nat (Z.to_nat (i - 1))) by lia.
        rewrite !nth_error_index. easy. }
      specialize (IH (i - 1)). destruct (P x) eqn:E.
      * rewrite len_cons. rewrite IH; try easy; try lia. intros y z ? ?. apply HP; now right.
      * rewrite IH; try easy; try lia; [|intros y z ? ?; apply HP; now right].
        rewrite filter_none; [rewrite len_nil; lia|].
        apply Forall_forall. intros y Hy. destruct (P y) eqn:Ey; [|easy].
        rewrite <- E. symmetry. apply (HP x y); try easy; [now left|now right|].
        rewrite Forall_forall in Hx. now apply Hx.
Qed.
Lemma sha_le_hd x y : sha_ok x -> sha_ok y -> sha_le x y -> hd 0 x <= hd 0 y.
Proof.
  intros [Hx _] [Hy _] H. destruct x as [|a x], y as [|b y]; try discriminate.
  unfold sha_le in H. cbn in *. destruct (Z.ltb_spec b a); [discriminate|lia].
Qed.
Lemma fanout_bucket l b i s : sorted_shas l -> 0 <= i -> index l i = Ok s ->
  (hd 0 s <= b <-> i < len (filter (fun s => hd 0 s <=? b) l)).
Proof.
  intros [Hok Hs] Hi Hx. rewrite <- (sorted_filter (fun s => hd 0 s <=? b) l i s Hs); try easy.
  - lia.
  - intros x y Hin Hin' Hle Hy. rewrite Forall_forall in Hok.
    pose proof (sha_le_hd x y (Hok _ Hin) (Hok _ Hin') Hle). lia.
Qed.

Lemma len_filter_mono A (f g : A -> bool) l : (forall x, f x = true -> g x = true) -> len (filter f l) <= len (filter g l).
Proof.
  intros H. induction l as [|x l IH]; cbn [filter]; [easy|].
  specialize (H x). destruct (f x), (g x); rewrite ?len_cons; try lia.
Qed.
(** Bounds of a lookup: everything below [lo] starts with a smaller byte, everything from
    [hi] on with a larger one. *)
Lemma bounds_ok l ix b : opened ix l -> sorted_shas l -> 0 <= b < 256 ->
  exists lo hi, bisect_bounds (ix_fanout ix) b = Ok (lo, hi) /\ 0 <= lo /\ lo <= hi /\ hi <= len l /\
    forall i s, 0 <= i -> index l i = Ok s ->
      (i < lo <-> hd 0 s < b) /\ (i < hi <-> hd 0 s <= b).
Proof.
  intros [Hf _] Hs Hb. unfold bisect_bounds. rewrite Hf.
  pose proof (fun c => len_filter_le _ (fun s => hd 0 s <=? c) l) as Hle.
  destruct (Z.eqb_spec b 0) as [->|Hne].
  - cbn [bind]. rewrite fanout_index by easy. cbn [bind]. eexists _, _. split; [reflexivity|].
    split; [easy|]. specialize (Hle 0). split; [unfold bytes in *; lia|]. split; [unfold bytes in *; lia|].
    intros i s Hi Hx. rewrite <- (fanout_bucket l 0 i s) by easy. split; [|easy].
    assert (0 <= hd 0 s) by (apply sha_ok_hd; destruct Hs; eapply Forall_index; eauto). lia.
  - rewrite fanout_index by lia. cbn [bind]. rewrite fanout_index by easy. cbn [bind].
    eexists _, _. split; [reflexivity|].
    pose proof (Hle (b - 1)). pose proof (Hle b). split; [unfold bytes in *; lia|].
    split; [apply len_filter_mono; intros; lia|]. split; [unfold bytes in *; lia|].
    intros i s Hi Hx. rewrite <- (fanout_bucket l b i s) by easy.
    rewrite <- (fanout_bucket l (b - 1) i s) by easy. split; [lia|easy].
Qed.

(** ** Completeness of the lookup by full name *)
Lemma bisect_complete get sha l : StronglySorted sha_le l ->
  (forall i s, 0 <= i -> index l i = Ok s -> get i = s) ->
  forall fuel lo hi, 0 <= lo -> hi <= len l ->
  (forall i, 0 <= i -> index l i = Ok sha -> lo <= i < hi) ->
  bisect fuel get sha lo hi = Ok None -> ~ In sha l.
Proof.
  intros Hs Hget. induction fuel as [|f IH]; intros lo hi Hlo Hhi Hinv H; [discriminate|].
  cbn [bisect] in H. destruct (Z.ltb_spec lo hi) as [Hlt|Hge].
  - destruct (index_in _ l ((lo + hi) / 2)) as [m Hm]; [lia|].
    rewrite (Hget _ m) in H by (easy || lia).
    destruct (blt sha m) eqn:E; [|destruct (beq sha m) eqn:E2; [discriminate|]].
    + apply IH in H; try easy; try lia. intros i Hi Hx. specialize (Hinv i Hi Hx). split; [lia|].
      destruct (Z.lt_ge_cases i ((lo + hi) / 2)) as [|Hc]; [easy|exfalso].
      pose proof (sorted_le l ((lo + hi) / 2) i m sha Hs ltac:(lia) Hc Hm Hx) as Hle. unfold sha_le in Hle. congruence.
    + apply IH in H; try easy; try lia. intros i Hi Hx. specialize (Hinv i Hi Hx). split; [|lia].
      destruct (Z.lt_ge_cases ((lo + hi) / 2) i) as [|Hc]; [lia|exfalso].
      pose proof (sorted_le l i _ sha m Hs ltac:(lia) Hc Hx Hm) as Hle. unfold sha_le in Hle.
      apply blt_total in E; [congruence|easy].
  - intros Hin. apply In_nth_error in Hin as [k Hk].
    specialize (Hinv (Z.of_nat k) ltac:(lia)). rewrite nth_error_index, Hk in Hinv. specialize (Hinv eq_refl). lia.
Qed.
Lemma index_hd s : 0 < len s -> index s 0 = Ok (hd 0 s).
Proof. destruct s as [|x s]; [rewrite len_nil; lia|]. intros _. apply (index_app _ [] s x). easy. Qed.

Lemma sha_to_index_complete ix l sha : opened ix l -> sorted_shas l -> sha_ok sha ->
  exists r, sha_to_index ix sha = Ok r /\
    match r with Some i => 0 <= i /\ index l i = Ok sha | None => ~ In sha l end.
Proof.
  intros Ho Hs Hsha. pose proof (sha_ok_hd _ Hsha) as Hhd. unfold sha_to_index.
  rewrite index_hd by (destruct Hsha as [-> _]; lia). cbn [bind].
  destruct (bounds_ok l ix (hd 0 sha) Ho Hs Hhd) as (lo & hi & -> & Hlo & Hlh & Hhi & Hb). cbn [bind].
  pose proof (bisect_terminates (ix_sha ix) sha (bisect_fuel lo hi) lo hi (bisect_fuel_enough lo hi) ltac:(unfold bisect_fuel; lia)) as Ht.
  destruct (bisect _ _ _ _ _) as [[i|]| |] eqn:E; [| |exfalso|congruence].
  - exists (Some i). split; [easy|]. apply bisect_sound in E as [E Hi].
    destruct (index_in _ l i) as [s Hx]; [lia|]. split; [lia|]. destruct Ho as [_ Ho]. rewrite (Ho i s) in E by (easy || lia).
    now subst.
  - exists None. split; [easy|]. destruct Ho as [_ Ho].
    eapply bisect_complete; [apply Hs|exact Ho|exact Hlo|exact Hhi| |exact E].
    intros i Hi Hx. destruct (Hb i sha Hi Hx) as [H1 H2]. lia.
  - clear - E. revert lo hi E. generalize (bisect_fuel). intros g lo hi. generalize (g lo hi). clear g.
    intros f. revert lo hi. induction f as [|f IH]; intros lo hi E; [discriminate|]. cbn [bisect] in E.
    destruct (lo <? hi); [|discriminate]. destruct (blt _ _); [eauto|]. destruct (beq _ _); [discriminate|eauto].
Qed.

(** ** Abbreviated names *)
Lemma hex_digit_lt a b : 0 <= a < 16 -> 0 <= b < 16 -> (hex_digit a <? hex_digit b) = (a <? b).
Proof. intros. unfold hex_digit. destruct (Z.ltb_spec a 10), (Z.ltb_spec b 10); lia. Qed.
Lemma hex_digit_eq a b : 0 <= a < 16 -> 0 <= b < 16 -> (hex_digit a =? hex_digit b) = (a =? b).
Proof. intros. unfold hex_digit. destruct (Z.ltb_spec a 10), (Z.ltb_spec b 10); lia. Qed.
Lemma blt_hex : forall x y, is_bytes x -> is_bytes y -> blt (bin_to_hex x) (bin_to_hex y) = blt x y.
Proof.
  induction x as [|a x IH]; intros [|b y] Hx Hy; cbn [bin_to_hex blt]; try easy.
  inversion Hx; inversion Hy; subst. unfold is_byte in *.
  rewrite !hex_digit_lt, !hex_digit_eq, IH by (easy || lia).
  destruct (Z.ltb_spec (a / 16) (b / 16)), (Z.ltb_spec a b), (Z.eqb_spec (a / 16) (b / 16)),
    (Z.ltb_spec (a mod 16) (b mod 16)), (Z.eqb_spec (a mod 16) (b mod 16)), (Z.eqb_spec a b); try easy; lia.
Qed.
Lemma startswith_between p : forall x y z, sha_le x y -> sha_le y z ->
  startswith x p = true -> startswith z p = true -> startswith y p = true.
Proof.
  unfold sha_le. induction p as [|c p IH]; intros x y z H1 H2 Hx Hz; [now destruct y|].
  destruct x as [|a x], z as [|b z]; try discriminate. cbn [startswith] in *.
  assert (a = c) by lia. assert (b = c) by lia. subst.
  destruct y as [|d y]; [discriminate|]. cbn [blt] in *.
  destruct (Z.ltb_spec d c); [discriminate|]. destruct (Z.ltb_spec c d); [discriminate|].
  assert (d = c) by lia. subst. rewrite Z.eqb_refl in *. cbn [startswith]. rewrite Z.eqb_refl. cbn [andb] in *. eapply IH; eauto.
Qed.
Lemma startswith_ge_filled p : forall y n, startswith y p = true -> Forall (fun c => 48 <= c) y ->
  len p + Z.of_nat n <= len y -> sha_le (p ++ repeat 48 n) y.
Proof.
  unfold sha_le. induction p as [|c p IH]; intros y n Hy Hf Hl.
  - cbn [app]. rewrite len_nil in Hl. clear Hy. revert y Hf Hl.
    induction n as [|n IHn]; intros y Hf Hl; [now destruct y|].
    destruct y as [|d y]; [rewrite len_nil in Hl; lia|]. inversion Hf; subst. rewrite len_cons in Hl.
    cbn [repeat blt]. replace (d <? 48) with false by lia. destruct (Z.eqb_spec d 48); [|easy]. apply IHn; [easy|lia].
  - destruct y as [|d y]; [discriminate|]. cbn [startswith] in Hy. apply andb_true_iff in Hy as [E Hy].
    apply Z.eqb_eq in E as ->. cbn [app blt]. rewrite Z.ltb_irrefl, Z.eqb_refl.
    inversion Hf; subst. rewrite !len_cons in Hl. apply IH; [easy|easy|lia].
Qed.
Lemma bin_to_hex_ge l : is_bytes l -> Forall (fun c => 48 <= c) (bin_to_hex l).
Proof.
  induction 1 as [|b l Hb Hl IH]; cbn [bin_to_hex]; [constructor|].
  unfold is_byte in Hb. constructor; [|constructor; [|easy]]; unfold hex_digit; destruct (_ <? 10) eqn:E; lia.
Qed.

Lemma bisect_low_ok get sha l : StronglySorted sha_lt l ->
  (forall i s, 0 <= i -> index l i = Ok s -> get i = s) ->
  forall fuel lo hi r, 0 <= lo -> lo <= hi -> hi <= len l ->
  (forall i s, 0 <= i -> index l i = Ok s -> (i < lo -> sha_lt s sha) /\ (hi <= i -> sha_le sha s)) ->
  bisect_low fuel get sha lo hi = Ok r ->
  0 <= r <= len l /\
  forall i s, 0 <= i -> index l i = Ok s -> (i < r -> sha_lt s sha) /\ (r <= i -> sha_le sha s).
Proof.
  intros Hs Hget. induction fuel as [|f IH]; intros lo hi r Hlo Hlh Hhi Hinv H; [discriminate|].
  cbn [bisect_low] in H. destruct (Z.ltb_spec lo hi) as [Hlt|Hge].
  - destruct (index_in _ l ((lo + hi) / 2)) as [m Hm]; [lia|].
    rewrite (Hget _ m) in H by (easy || lia).
    destruct (blt sha m) eqn:E; [|destruct (beq sha m) eqn:E2].
    + apply IH in H; try easy; try lia. intros i s Hi Hx. destruct (Hinv i s Hi Hx). split; [easy|].
      intros Hc. destruct (Z.eq_dec i ((lo + hi) / 2)) as [->|].
      * assert (s = m) as -> by congruence. now apply sha_lt_le.
      * apply sha_lt_le. unfold sha_lt. eapply blt_trans; [exact E|].
        eapply (sorted_index sha_lt); [exact Hs| | |exact Hm|exact Hx]; lia.
    + injection H as <-. apply beq_eq in E2. subst m. split; [lia|]. intros i s Hi Hx. split; intros Hc.
      * eapply (sorted_index sha_lt); [exact Hs| | |exact Hx|exact Hm]; lia.
      * destruct (Z.eq_dec i ((lo + hi) / 2)) as [->|].
        -- assert (s = sha) as -> by congruence. apply sha_le_refl.
        -- apply sha_lt_le. eapply (sorted_index sha_lt); [exact Hs| | |exact Hm|exact Hx]; lia.
    + apply IH in H; try easy; try lia. intros i s Hi Hx. destruct (Hinv i s Hi Hx). split; [|easy].
      intros Hc. apply blt_total in E; [|easy]. destruct (Z.eq_dec i ((lo + hi) / 2)) as [->|].
      * assert (s = m) as -> by congruence. easy.
      * unfold sha_lt. eapply blt_trans; [|exact E].
        eapply (sorted_index sha_lt); [exact Hs| | |exact Hx|exact Hm]; lia.
  - injection H as <-. split; [lia|]. intros i s Hi Hx. destruct (Hinv i s Hi Hx) as [H1 H2]. split; [easy|].
    intros. apply H2. lia.
Qed.

Lemma first_index_some A (f : A -> bool) l i x : 0 <= i -> index l i = Ok x -> f x = true ->
  (forall j y, 0 <= j < i -> index l j = Ok y -> f y = false) -> first_index f l = Some i.
Proof.
  intros Hi Hx Hf Hj. apply index_ok_split in Hx as (a & b & -> & <-); [|easy]. clear Hi.
  induction a as [|z a IH].
  - cbn. now rewrite Hf.
  - cbn [app first_index]. rewrite len_cons in *. pose proof (len_nonneg _ a).
    rewrite (Hj 0 z); [|lia|now apply (index_app _ [])].
    rewrite IH; [cbn; f_equal; lia|]. intros j y Hjr Hy. apply (Hj (j + 1) y); [lia|].
    revert Hy. replace j with (Z.of_nat (Z.to_nat j)) by lia.
    replace (Z.of_nat (Z.to_nat j) + 1) with (Z.of_nat (S (Z.to_nat j))) by lia. now rewrite !nth_error_index.
Qed.
Lemma first_index_none A (f : A -> bool) l :
  (forall j y, 0 <= j -> index l j = Ok y -> f y = false) -> first_index f l = None.
Proof.
  intros Hj. induction l as [|z l IH]; [easy|]. cbn [first_index].
  rewrite (Hj 0 z); [|lia|now apply (index_app _ [])].
  rewrite IH; [easy|]. intros j y Hjr Hy. apply (Hj (j + 1) y); [lia|].
  revert Hy. replace j with (Z.of_nat (Z.to_nat j)) by lia.
  replace (Z.of_nat (Z.to_nat j) + 1) with (Z.of_nat (S (Z.to_nat j))) by lia. now rewrite !nth_error_index.
Qed.

Lemma strictly_sorted_sorted l : strictly_sorted_shas l -> sorted_shas l.
Proof.
  intros [H1 H2]. split; [easy|]. clear H1. induction H2; constructor; [easy|].
  eapply Forall_impl; [|exact H]. intros b. apply sha_lt_le.
Qed.
Lemma pad_even_bin p mtch : lower_hex p -> hex_to_bin (pad_even p) = Ok mtch ->
  is_bytes mtch /\ bin_to_hex mtch = pad_even p.
Proof.
  intros Hp Hm. assert (lower_hex (pad_even p)) as H.
  { unfold pad_even. destruct (Z.even _); [easy|]. apply Forall_app. split; [easy|]. repeat constructor; lia. }
  destruct (bin_to_hex_to_bin _ (pad_even p) (le_n _) H) as (b & H1 & H2 & H3 & _).
  - unfold pad_even. destruct (Z.even (len p)) eqn:E; [easy|].
    rewrite len_app, len_cons, len_nil. replace (len p + (0 + 1)) with (Z.succ (len p)) by lia.
    rewrite Z.even_succ, <- Z.negb_even, E. easy.
  - rewrite Hm in H1. injection H1 as ->. now split.
Qed.
Lemma bin_to_hex_zeros n : bin_to_hex (repeat 0 n) = repeat 48 (2 * n).
Proof.
  induction n as [|n IH]; [easy|]. replace (2 * S n)%nat with (S (S (2 * n)))%nat by lia.
  cbn [repeat bin_to_hex]. now rewrite IH.
Qed.
Lemma filled_hex p mtch : lower_hex p -> len p <= 40 -> hex_to_bin (pad_even p) = Ok mtch ->
  len mtch = (len p + 1) / 2 /\ is_bytes (mtch ++ brepeat NULL_BYTE (20 - len mtch)) /\
  exists n, bin_to_hex (mtch ++ brepeat NULL_BYTE (20 - len mtch)) = p ++ repeat 48 n /\ len p + Z.of_nat n = 40.
Proof.
  intros Hp Hl Hm. destruct (pad_even_bin p mtch Hp Hm) as [Hb Hh].
  assert (2 * len mtch = len (pad_even p)) as Hlen by now rewrite <- Hh, bin_to_hex_len.
  assert (exists m, pad_even p = p ++ repeat 48 m /\ (Z.of_nat m = len p mod 2)) as (m & Hpe & Hme).
  { unfold pad_even. destruct (Z.even (len p)) eqn:E.
    - exists 0%nat. rewrite app_nil_r. split; [easy|]. apply Z.even_spec in E as [k E]. lia.
    - exists 1%nat. split; [easy|]. rewrite <- Z.negb_odd in E. apply negb_false_iff in E. apply Z.odd_spec in E as [k E]. lia. }
  rewrite Hpe, len_app, len_repeat in Hlen.
  split; [lia|]. split.
  - apply is_bytes_app. split; [easy|]. unfold brepeat. apply Forall_forall. intros x Hx. apply repeat_spec in Hx as ->.
    unfold is_byte, NULL_BYTE. lia.
  - exists (m + 2 * Z.to_nat (20 - len mtch))%nat. split; [|lia].
    rewrite bin_to_hex_app, Hh, Hpe. unfold brepeat, NULL_BYTE. rewrite bin_to_hex_zeros, repeat_app. now rewrite app_assoc.
Qed.

Lemma partial_lookup ix l p mtch : opened ix l -> ix_size ix = Ok (len l) -> strictly_sorted_shas l ->
  lower_hex p -> 3 <= len p <= 40 -> hex_to_bin (pad_even p) = Ok mtch ->
  partial_sha_to_index ix mtch (len p) = Ok (first_index (fun s => startswith (bin_to_hex s) p) l).
Proof.
  intros Ho Hsz Hs Hp Hl Hm. pose proof (strictly_sorted_sorted _ Hs) as Hss.
  destruct (filled_hex p mtch Hp ltac:(lia) Hm) as (Hlm & Hfb & n & Hfh & Hn).
  set (filled := mtch ++ brepeat NULL_BYTE (20 - len mtch)) in *.
  assert (sha_ok filled) as Hfok.
  { split; [|easy]. pose proof (bin_to_hex_len filled) as H. rewrite Hfh, len_app, len_repeat in H. lia. }
  assert (0 < len mtch) as Hm0 by lia.
  assert (hd 0 mtch = hd 0 filled) as Hhd.
  { unfold filled. destruct mtch; [rewrite len_nil in Hm0; lia|easy]. }
  pose proof (sha_ok_hd _ Hfok) as Hhr.
  unfold partial_sha_to_index. replace (len mtch <? 2) with false by lia. rewrite index_hd by easy. cbn [bind].
  rewrite Hhd. fold filled.
  destruct (bounds_ok l ix (hd 0 filled) Ho Hss Hhr) as (lo & hi & -> & Hlo & Hlh & Hhi & Hb). cbn [bind].
  destruct (bisect_low_terminates (ix_sha ix) filled (bisect_fuel lo hi) lo hi (bisect_fuel_enough lo hi) ltac:(unfold bisect_fuel; lia)) as [r Hr].
  rewrite Hr. cbn [bind]. rewrite Hsz. cbn [bind].
  assert (forall i s, 0 <= i -> index l i = Ok s -> sha_ok s) as Hok.
  { intros i s Hi Hx. destruct Hs as [Hs _]. eapply Forall_index; eauto. }
  assert (0 <= r <= len l /\ forall i s, 0 <= i -> index l i = Ok s -> (i < r -> sha_lt s filled) /\ (r <= i -> sha_le filled s)) as [Hrr Hri].
  { destruct Ho as [_ Ho]. eapply bisect_low_ok; [apply Hs|exact Ho|exact Hlo|exact Hlh|exact Hhi| |exact Hr].
    intros i s Hi Hx. destruct (Hb i s Hi Hx) as [H1 H2]. pose proof (Hok i s Hi Hx) as [Hs20 _].
    destruct Hfok as [Hf20 _]. destruct s as [|a s]; [discriminate|]. destruct filled as [|b f]; [discriminate|].
    cbn [hd] in *. unfold sha_lt, sha_le. cbn [blt]. split; intros Hc.
    - replace (a <? b) with true by lia. easy.
    - replace (a <? b) with false by lia. now replace (a =? b) with false by lia. }
  assert (forall i s, 0 <= i -> index l i = Ok s -> startswith (bin_to_hex s) p = true -> sha_le filled s) as Hge.
  { intros i s Hi Hx Hsw. pose proof (Hok i s Hi Hx) as [Hs20 Hsb]. unfold sha_le. rewrite <- blt_hex by easy.
    rewrite Hfh. apply startswith_ge_filled; [easy|now apply bin_to_hex_ge|]. rewrite bin_to_hex_len. lia. }
  assert (forall i s, 0 <= i -> i < r -> index l i = Ok s -> startswith (bin_to_hex s) p = false) as Hbelow.
  { intros i s Hi Hlt Hx. destruct (startswith _ _) eqn:E; [|easy]. exfalso.
    pose proof (Hge i s Hi Hx E) as H1. destruct (Hri i s Hi Hx) as [H2 _]. specialize (H2 Hlt).
    unfold sha_le, sha_lt in *. congruence. }
  destruct (Z.ltb_spec r (len l)) as [Hlt|Hge'].
  - destruct (index_in _ l r) as [c Hc]; [lia|]. destruct Ho as [_ Ho]. rewrite (Ho r c) by (easy || lia).
    pose proof (Hok r c ltac:(lia) Hc) as [Hc20 Hcb].
    rewrite (is_equal_canonical_sha_spec p) by (easy || lia). cbn [bind].
    destruct (startswith (bin_to_hex c) p) eqn:E.
    + assert (first_index (fun s => startswith (bin_to_hex s) p) l = Some r) as ->.
      { eapply first_index_some; [|exact Hc|exact E|]; [lia|]. intros j y Hj Hy. eapply Hbelow; [| |exact Hy]; lia. }
      cbv zeta. match goal with |- (if ?b then _ else _) = _ => assert (b = false) as ->; [|easy] end.
      destruct (Z.ltb_spec (r + 1) (len l)); [|easy].
      destruct (index_in _ l (r + 1)) as [y Hy]; [lia|]. rewrite (Ho (r + 1) y) by (easy || lia).
      apply andb_false_iff. right. apply beq_neq. intros ->.
      assert (sha_lt c c) as Hcc by (eapply (sorted_index sha_lt); [apply Hs| | |exact Hc|exact Hy]; lia).
      unfold sha_lt in Hcc. rewrite blt_irrefl in Hcc. discriminate.
    + rewrite first_index_none; [easy|]. intros j y Hj Hy.
      destruct (Z.lt_ge_cases j r) as [|Hjr]; [eapply Hbelow; eauto|].
      destruct (startswith (bin_to_hex y) p) eqn:E2; [|easy]. exfalso.
      assert (startswith (bin_to_hex c) p = true); [|congruence].
      pose proof (Hok j y Hj Hy) as [Hy20 Hyb].
      eapply (startswith_between p (bin_to_hex filled) _ (bin_to_hex y)); [| | |exact E2].
      * unfold sha_le. rewrite blt_hex by easy. now apply (Hri r c).
      * unfold sha_le. rewrite blt_hex by easy. eapply (sorted_le l r j); [apply Hss| | |exact Hc|exact Hy]; lia.
      * rewrite Hfh. apply startswith_app.
  - rewrite first_index_none; [easy|]. intros j y Hj Hy. pose proof (index_ok_range _ _ _ _ Hj Hy).
    eapply Hbelow; [| |exact Hy]; lia.
Qed.

(** ** offsets() *)
Lemma collect_upto_ok get l : forall n i, 0 <= i -> i + Z.of_nat n = len l ->
  (forall j o, 0 <= j -> index l j = Ok o -> get j = Ok o) ->
  collect_upto n i get = Ok (skipn (Z.to_nat i) l).
Proof.
  induction n as [|n IH]; intros i Hi Hn Hget; cbn [collect_upto].
  - rewrite skipn_all2 by (unfold len in *; lia). easy.
  - destruct (index_in _ l i) as [o Ho]; [lia|]. rewrite (Hget i o) by easy. cbn [bind].
    rewrite IH by (easy || lia). cbn [bind]. f_equal.
    apply index_ok_split in Ho as (a & b & -> & <-); [|easy].
    replace (Z.to_nat (len a + 1)) with (length a + 1)%nat by (unfold len; lia).
    replace (Z.to_nat (len a)) with (length a) by (unfold len; lia).
    rewrite Nat.add_comm, <- skipn_skipn. rewrite skipn_app, skipn_all, Nat.sub_diag. easy.
Qed.
Lemma offsets_v1 shas offs trailer :
  Forall sha_ok shas -> length offs = length shas -> Forall (fun o => 0 <= o < 2 ^ 32) offs ->
  len shas < 4285812579 ->
  exists ix, index_open (v1_file shas offs trailer) = Ok ix /\
    reads_as ix 1 shas (map (fun _ => 0) shas) offs /\ ix_offsets ix = Ok offs.
Proof.
  intros H1 H2 H3 H4. destruct (open_v1 shas offs trailer H1 H2 H3 H4) as (ix & Hix & Hr & _).
  exists ix. split; [exact Hix|]. split; [exact Hr|]. destruct Hr as (Hv & Hsz & Hr).
  unfold ix_offsets. rewrite Hv, Hsz. cbn [Z.eqb Pos.eqb bind].
  rewrite (collect_upto_ok (ix_offset ix) offs); [easy|easy|unfold len; lia|].
  intros j o Hj Ho. pose proof (index_ok_range _ _ _ _ Hj Ho).
  destruct (index_in _ shas j) as [s Hs]; [unfold len in *; lia|].
  destruct (index_in _ (map (fun _ : bytes => 0) shas) j) as [c Hc]; [rewrite len_map; unfold len in *; lia|].
  now destruct (Hr j s c o Hj Hs Hc Ho) as (_ & _ & ? & _).
Qed.
Lemma offsets_v2_small shas crcs offs trailer :
  Forall sha_ok shas -> length crcs = length shas -> Forall (fun c => 0 <= c < 2 ^ 32) crcs ->
  length offs = length shas -> Forall (fun o => 0 <= o < 2 ^ 31) offs -> len shas < 2 ^ 32 ->
  exists ix, index_open (v2_file shas crcs offs [] trailer) = Ok ix /\
    reads_as ix 2 shas crcs offs /\ ix_offsets ix = Ok offs.
Proof.
  intros H1 H2 H3 H4 H5 H6.
  destruct (open_v2 shas crcs offs offs [] trailer) as (ix & Hix & Hr & _ & Ho & _); try easy.
  - clear - H5. induction H5; constructor; [now left|easy].
  - now exists ix.
Qed.
Lemma offsets_v2_large shas crcs offs d o : index_file 2 shas crcs offs d -> In o offs -> 2 ^ 32 <= o ->
  exists ix, index_open d = Ok ix /\ reads_as ix 2 shas crcs offs /\
    exists l, ix_offsets ix = Ok l /\ length l = length offs /\ ~ In o l.
Proof.
  intros H Hin Ho. inversion H; subst.
  destruct (open_v2 shas crcs offs raw big trailer) as (ix & Hix & Hr & _ & Hof & _); try easy.
  exists ix. split; [exact Hix|]. split; [exact Hr|]. exists raw. split; [exact Hof|].
  match goal with H : Forall2 _ raw offs |- _ => rename H into Hro end.
  split; [now apply Forall2_length in Hro|].
  intros Hin'. clear - Hro Hin' Ho.
  induction Hro as [|r o' raw offs Hx Hro IH]; [easy|]. destruct Hin' as [->|Hin']; [|now apply IH].
  apply raw_offset_range in Hx. lia.
Qed.

Lemma strict_never_ambiguous ix l p mtch : opened ix l -> ix_size ix = Ok (len l) -> strictly_sorted_shas l ->
  lower_hex p -> 3 <= len p <= 40 -> hex_to_bin (pad_even p) = Ok mtch ->
  partial_sha_to_index ix mtch (len p) <> Raise AmbiguousObjectName.
Proof. intros. rewrite (partial_lookup ix l p mtch); easy. Qed.
