(** Proofs about FunModel.v. *)
From Coq Require Import ZifyBool ZifyNat.
From Verif Require Import Py PyFacts FunModel FunSpec.
Ltac Zify.zify_post_hook ::= Z.div_mod_to_equations.

Lemma varint_len bs n : varint bs n -> 1 <= len bs.
Proof. induction 1; rewrite ?len_cons, ?len_nil in *; try lia. Qed.
Lemma varint_nonneg bs n : varint bs n -> 0 <= n.
Proof. induction 1; lia. Qed.
Lemma varint_bytes bs n : varint bs n -> is_bytes bs.
Proof. induction 1; constructor; try easy; unfold is_byte; try lia; constructor. Qed.

(** Pack object headers *)
Lemma poh_loop_varint bs n : varint bs n -> forall rest c size s i,
  128 <= c < 256 -> 0 <= s ->
  poh_loop (bs ++ rest) c size s i = Ok (size + n * 2 ^ s, i + len bs).
Proof.
  induction 1 as [b Hb|b bs n Hb Hv IH]; intros rest c size s i Hc Hs.
  - cbn [app poh_loop]. rewrite land_128_big by lia.
    assert (forall l a, poh_loop l b a (s + 7) (i + 1) = Ok (a, i + 1)) as ->.
    { intros l a. destruct l; cbn [poh_loop]; now rewrite land_128_small by lia. }
    rewrite land_127, Z.mod_small, Z.shiftl_mul_pow2 by lia.
    rewrite len_cons, len_nil. easy.
  - cbn [app poh_loop]. rewrite land_128_big by lia.
    rewrite IH by lia. rewrite land_127, Z.shiftl_mul_pow2, len_cons by lia.
    rewrite Z.pow_add_r by lia. change (2 ^ 7) with 128.
    replace (b mod 128) with (b - 128) by lia. f_equal. f_equal; [ring|lia].
Qed.

Lemma pack_header_parse t bs n rest : 0 <= t < 8 -> pack_header t bs n ->
  pack_object_header_info (bs ++ rest) = Ok (t, n, len bs).
Proof.
  intros Ht H. inversion H as [m Hm|lo vs hi Hlo Hv]; subst; cbn [app pack_object_header_info].
  - rewrite land_15, land_7, Z.shiftr_div_pow2 by lia. change (2 ^ 4) with 16.
    assert (forall l a, poh_loop l (16 * t + n) a 4 1 = Ok (a, 1)) as ->.
    { intros l a. destruct l; cbn [poh_loop]; now rewrite land_128_small by lia. }
    cbn [bind]. rewrite len_cons, len_nil. f_equal. f_equal; f_equal; lia.
  - rewrite land_15, land_7, Z.shiftr_div_pow2 by lia. change (2 ^ 4) with 16.
    rewrite (poh_loop_varint vs hi) by (easy || lia). cbn [bind].
    rewrite len_cons. change (2 ^ 4) with 16. f_equal. f_equal; [f_equal|]; lia.
Qed.

Lemma lor_128 c : 0 <= c < 128 -> Z.lor c 128 = c + 128.
Proof. intros. exact (lor_disjoint_add c 1 7 ltac:(lia) ltac:(simpl; lia)). Qed.

Lemma cph_loop_varint fuel : forall n c hdr,
  0 <= n < 2 ^ (7 * Z.of_nat fuel) -> 0 <= c < 128 ->
  exists bs, cph_loop fuel n c hdr = Ok (hdr ++ bs) /\ varint bs (c + 128 * n).
Proof.
  induction fuel as [|f IH]; intros n c hdr Hn Hc.
  - change (7 * Z.of_nat 0) with 0 in Hn. assert (n = 0) as -> by lia.
    exists [c]. cbn. unfold ba_append.
    replace ((0 <=? c) && (c <? 256)) with true by lia. split; [easy|].
    rewrite Z.add_0_r. now constructor.
  - cbn [cph_loop]. destruct (Z.eqb_spec n 0) as [->|Hn0].
    + exists [c]. unfold ba_append.
      replace ((0 <=? c) && (c <? 256)) with true by lia. split; [easy|].
      rewrite Z.add_0_r. now constructor.
    + unfold ba_append. rewrite lor_128 by lia.
      replace ((0 <=? c + 128) && (c + 128 <? 256)) with true by lia. cbn [bind].
      rewrite land_127, Z.shiftr_div_pow2 by lia. change (2 ^ 7) with 128.
      destruct (IH (n / 128) (n mod 128) (hdr ++ [c + 128])) as (bs & -> & Hv).
      * replace (7 * Z.of_nat (S f)) with (7 * Z.of_nat f + 7) in Hn by lia.
        rewrite Z.pow_add_r in Hn by lia. change (2 ^ 7) with 128 in Hn. lia.
      * lia.
      * exists (c + 128 :: bs). rewrite <- app_assoc. split; [easy|].
        replace (c + 128 * n) with ((c + 128 - 128) + 128 * (n mod 128 + 128 * (n / 128))) by lia.
        constructor; [lia|easy].
Qed.

Lemma lor_shiftl_4 t lo : 0 <= lo < 16 -> Z.lor (Z.shiftl t 4) lo = 16 * t + lo.
Proof.
  intros. rewrite Z.lor_comm, lor_disjoint_add by (simpl; lia).
  rewrite Z.shiftl_mul_pow2 by lia. change (2 ^ 4) with 16. lia.
Qed.

Lemma create_pack_object_header_ok t n : 0 <= t < 8 -> 0 <= n ->
  exists bs, create_pack_object_header t n = Ok bs /\ pack_header t bs n.
Proof.
  intros Ht Hn. unfold create_pack_object_header.
  rewrite land_15, lor_shiftl_4, Z.shiftr_div_pow2 by lia. change (2 ^ 4) with 16.
  assert (n < 2 ^ (7 * Z.of_nat (S (Z.to_nat (Z.log2 n))))) as Hb.
  { destruct (Z.eq_dec n 0) as [->|]; [reflexivity|].
    pose proof (Z.log2_nonneg n). pose proof (Z.log2_spec n ltac:(lia)) as [_ Hs].
    eapply Z.lt_le_trans; [exact Hs|]. apply Z.pow_le_mono_r; lia. }
  set (fuel := S (Z.to_nat (Z.log2 n))) in *.
  destruct (Z.eqb_spec (n / 16) 0) as [E|E].
  - exists [16 * t + n]. split; [|constructor; lia].
    rewrite E. assert (forall f c hdr, cph_loop f 0 c hdr = ba_append hdr c) as ->
      by (intros f; destruct f; reflexivity).
    unfold ba_append. replace (n mod 16) with n by lia.
    replace ((0 <=? 16 * t + n) && (16 * t + n <? 256)) with true by lia. easy.
  - destruct fuel as [|f] eqn:Ef.
    { change (2 ^ (7 * Z.of_nat 0)) with 1 in Hb. lia. }
    cbn [cph_loop]. replace (n / 16 =? 0) with false by lia.
    unfold ba_append at 1. rewrite lor_128 by lia.
    replace ((0 <=? 16 * t + n mod 16 + 128) && (16 * t + n mod 16 + 128 <? 256)) with true by lia.
    cbn [bind]. rewrite land_127, Z.shiftr_div_pow2 by lia. change (2 ^ 7) with 128.
    destruct (cph_loop_varint f (n / 16 / 128) (n / 16 mod 128) ([] ++ [16 * t + n mod 16 + 128]))
      as (bs & -> & Hv).
    + replace (7 * Z.of_nat (S f)) with (7 * Z.of_nat f + 7) in Hb by lia.
      rewrite Z.pow_add_r in Hb by lia. change (2 ^ 7) with 128 in Hb. lia.
    + lia.
    + exists ((128 + 16 * t + n mod 16) :: bs). split.
      * cbn [app]. do 2 f_equal. lia.
      * replace n with (n mod 16 + 16 * (n / 16 mod 128 + 128 * (n / 16 / 128))) at 2 by lia.
        constructor; [lia|easy].
Qed.

Lemma pack_header_bytes t bs n : 0 <= t < 8 -> pack_header t bs n -> is_bytes bs.
Proof.
  intros Ht H; inversion H as [m Hm|lo vs hi Hlo Hv]; subst.
  - constructor; [unfold is_byte; lia|constructor].
  - constructor; [unfold is_byte; lia|exact (varint_bytes _ _ Hv)].
Qed.

(** Everything the parser accepts is an encoding of what it returns. *)
Lemma poh_loop_inv rest : forall c size s i sz e,
  is_bytes rest -> 0 <= c < 256 -> 0 <= s ->
  poh_loop rest c size s i = Ok (sz, e) ->
  (c < 128 /\ sz = size /\ e = i) \/
  (128 <= c /\ exists bs tl n, rest = bs ++ tl /\ varint bs n /\ sz = size + n * 2 ^ s /\ e = i + len bs).
Proof.
  induction rest as [|b rest IH]; intros c size s i sz e Hb Hc Hs; cbn [poh_loop].
  - destruct (Z.lt_ge_cases c 128).
    + rewrite land_128_small by lia. intros H0; injection H0 as <- <-. now left.
    + rewrite land_128_big by lia. discriminate.
  - destruct (Z.lt_ge_cases c 128).
    + rewrite land_128_small by lia. intros H0; injection H0 as <- <-. now left.
    + rewrite land_128_big by lia. intros H0. right. split; [lia|].
      apply is_bytes_cons in Hb as [Hb Hbs]. unfold is_byte in Hb.
      apply IH in H0; [|easy|lia|lia].
      rewrite land_127, Z.shiftl_mul_pow2 in H0 by lia.
      destruct H0 as [(H1 & H2 & H3)|(H1 & bs & tl & n & H2 & H3 & H4 & H5)].
      * exists [b], rest, b. repeat split; [constructor; lia| |rewrite len_cons, len_nil; lia].
        rewrite H2. rewrite Z.mod_small; lia.
      * exists (b :: bs), tl, ((b - 128) + 128 * n). subst rest.
        repeat split; [now constructor| |rewrite len_cons; lia].
        rewrite H4. rewrite Z.pow_add_r by lia. change (2 ^ 7) with 128.
        replace (b mod 128) with (b - 128) by lia. ring.
Qed.
Lemma pack_object_header_info_inv data t n e : is_bytes data ->
  pack_object_header_info data = Ok (t, n, e) ->
  0 <= t < 8 /\ exists bs tl, data = bs ++ tl /\ e = len bs /\ pack_header t bs n.
Proof.
  intros Hd H. destruct data as [|c rest]; [discriminate|]. cbn [pack_object_header_info] in H.
  apply is_bytes_cons in Hd as [Hc Hr]. unfold is_byte in Hc.
  apply bind_ok_inv in H as ([sz i] & H1 & H2). injection H2 as <- <- <-.
  rewrite land_7, Z.shiftr_div_pow2 by lia. change (2 ^ 4) with 16.
  split; [lia|].
  apply poh_loop_inv in H1; [|easy|lia|lia]. rewrite land_15 in H1.
  destruct H1 as [(H1 & -> & ->)|(H1 & bs & tl & m & -> & Hv & -> & ->)].
  - exists [c], rest. repeat split.
    replace c with (16 * ((c / 16) mod 8) + c mod 16) at 2 by lia. constructor. lia.
  - exists (c :: bs), tl. repeat split; [rewrite len_cons; lia|].
    change (2 ^ 4) with 16. rewrite (Z.mul_comm m 16).
    replace c with (128 + 16 * ((c / 16) mod 8) + c mod 16) at 2 by lia.
    constructor; [lia|easy].
Qed.

(** Delta size varints *)
Lemma msb_loop_varint v n : varint v n -> forall k pre a post size,
  (length v <= k)%nat -> 0 <= size < 2 ^ (7 * len a) ->
  msb_loop k (pre ++ a ++ v ++ post) (len pre) (len a) size =
  Ok (len a + len v + len pre, size + n * 2 ^ (7 * len a)).
Proof.
  induction 1 as [b Hb|b bs n Hb Hv IH]; intros k pre a post size Hk Hs;
    (destruct k as [|k]; [simpl in Hk; lia|]); cbn [msb_loop app];
    rewrite app_assoc, (index_app _ (pre ++ a)) by (rewrite len_app; lia); cbn [bind];
    pose proof (len_nonneg _ a).
  - rewrite land_128_small, land_127, Z.mod_small by lia.
    replace (len a * 7) with (7 * len a) by lia.
    rewrite lor_disjoint_add, Z.shiftl_mul_pow2 by lia.
    rewrite len_cons, len_nil. reflexivity.
  - rewrite land_128_big, land_127 by lia.
    replace (len a * 7) with (7 * len a) by lia.
    rewrite lor_disjoint_add, Z.shiftl_mul_pow2 by lia.
    replace ((pre ++ a) ++ b :: bs ++ post) with (pre ++ (a ++ [b]) ++ bs ++ post)
      by now rewrite <- !app_assoc.
    replace (len a + 1) with (len (a ++ [b])) by (rewrite len_app, len_cons, len_nil; lia).
    rewrite IH.
    + rewrite !len_app, !len_cons, len_nil.
      replace (7 * (len a + (0 + 1))) with (7 * len a + 7) by lia.
      rewrite Z.pow_add_r by lia. change (2 ^ 7) with 128.
      replace (b mod 128) with (b - 128) by lia. f_equal. f_equal; [lia|ring].
    + simpl in Hk. lia.
    + rewrite len_app, len_cons, len_nil.
      replace (7 * (len a + (0 + 1))) with (7 * len a + 7) by lia.
      rewrite Z.pow_add_r by lia. change (2 ^ 7) with 128.
      pose proof (Z.mod_pos_bound b 128). nia.
Qed.

Lemma msb_size_ok pre v post n : varint v n ->
  msb_size (pre ++ v ++ post) (len pre) = Ok (len pre + len v, n).
Proof.
  intros H. unfold msb_size.
  change (pre ++ v ++ post) with (pre ++ [] ++ v ++ post).
  change 0 with (len (@nil Z)) at 1.
  rewrite (msb_loop_varint v n) by (easy || (rewrite ?app_length; simpl; lia)).
  rewrite len_nil. change (2 ^ (7 * 0)) with 1. f_equal. f_equal; lia.
Qed.

Lemma msb_loop_inv k : forall data off i size e n,
  is_bytes data -> 0 <= off -> 0 <= i -> 0 <= size < 2 ^ (7 * i) ->
  msb_loop k data off i size = Ok (e, n) ->
  exists a v b m, data = a ++ v ++ b /\ len a = off + i /\ e = off + i + len v /\
    varint v m /\ n = size + m * 2 ^ (7 * i).
Proof.
  induction k as [|k IH]; intros data off i size e n Hd Ho Hi Hs H; [discriminate|].
  cbn [msb_loop] in H. apply bind_ok_inv in H as (c & Hc & H).
  apply index_ok_split in Hc as (a & b & -> & Ha); [|lia].
  assert (0 <= c < 256) as Hcb.
  { apply is_bytes_app in Hd as [_ Hd]. apply is_bytes_cons in Hd as [Hd _]. easy. }
  replace (i * 7) with (7 * i) in H by lia.
  rewrite lor_disjoint_add, Z.shiftl_mul_pow2, land_127 in H by lia.
  destruct (Z.lt_ge_cases c 128).
  - rewrite land_128_small in H by lia. injection H as <- <-.
    exists a, [c], b, c. repeat split; [lia|rewrite len_cons, len_nil; lia|constructor; lia|].
    rewrite (Z.mod_small c 128) by lia. reflexivity.
  - rewrite land_128_big in H by lia.
    apply IH in H; try easy; try lia.
    + destruct H as (a' & v & b' & m & Hd' & Ha' & -> & Hv & ->).
      assert (a' = a ++ [c] /\ b = v ++ b') as [-> ->].
      { assert (len (a ++ [c]) = len a') as Hl by (rewrite len_app, len_cons, len_nil; lia).
        replace (a ++ c :: b) with ((a ++ [c]) ++ b) in Hd' by now rewrite <- app_assoc.
        apply app_inj_len in Hd' as [<- <-]; easy. }
      exists a, (c :: v), b', ((c - 128) + 128 * m).
      split; [easy|]. split; [lia|]. split; [rewrite len_cons; lia|].
      split; [constructor; [lia|easy]|].
      replace (7 * (i + 1)) with (7 * i + 7) by lia.
      rewrite Z.pow_add_r by lia. change (2 ^ 7) with 128.
      replace (c mod 128) with (c - 128) by lia. ring.
    + replace (7 * (i + 1)) with (7 * i + 7) by lia.
      rewrite Z.pow_add_r by lia. change (2 ^ 7) with 128.
      pose proof (Z.mod_pos_bound c 128). nia.
Qed.
Lemma msb_size_inv data off e n : is_bytes data -> 0 <= off ->
  msb_size data off = Ok (e, n) ->
  exists a v b, data = a ++ v ++ b /\ len a = off /\ e = off + len v /\ varint v n.
Proof.
  intros Hd Ho H. apply msb_loop_inv in H; try easy; try lia.
  destruct H as (a & v & b & m & -> & Ha & -> & Hv & ->).
  exists a, v, b. change (2 ^ (7 * 0)) with 1. rewrite Z.add_0_l, Z.mul_1_r.
  repeat split; try easy; lia.
Qed.

Lemma msb_loop_unterminated k : forall data off i size,
  0 <= off -> 0 <= i -> Forall (fun b => 128 <= b < 256) (skipn (Z.to_nat (off + i)) data) ->
  msb_loop k data off i size =
    if off + i + Z.of_nat k <=? Z.max (off + i) (len data) then Raise AssertionError else Raise IndexError.
Proof.
  induction k as [|k IH]; intros data off i size Ho Hi H; cbn [msb_loop].
  - replace (off + i + Z.of_nat 0 <=? Z.max (off + i) (len data)) with true by lia. easy.
  - destruct (Z.lt_ge_cases (i + off) (len data)) as [Hl|Hl].
    + rewrite (index_nth _ _ _ 0) by lia. cbn [bind].
      assert (128 <= nth (Z.to_nat (i + off)) data 0 < 256) as Hc.
      { replace (off + i) with (i + off) in H by lia.
        destruct (skipn (Z.to_nat (i + off)) data) as [|c l] eqn:E.
        - apply (f_equal (@length Z)) in E. rewrite skipn_length in E. simpl in E. unfold len in *. lia.
        - inversion H; subst.
          replace (nth (Z.to_nat (i + off)) data 0) with c; [easy|].
          rewrite <- (firstn_skipn (Z.to_nat (i + off)) data) at 1. rewrite E.
          rewrite app_nth2; rewrite firstn_length; [|unfold len in *; lia].
          replace (Z.to_nat (i + off) - _)%nat with O by (unfold len in *; lia). easy. }
      rewrite land_128_big by lia. rewrite IH; [|lia|lia|].
      * destruct (Z.leb_spec (off + (i + 1) + Z.of_nat k) (Z.max (off + (i + 1)) (len data))),
          (Z.leb_spec (off + i + Z.of_nat (S k)) (Z.max (off + i) (len data))); try easy; lia.
      * replace (Z.to_nat (off + (i + 1))) with (1 + Z.to_nat (off + i))%nat by lia.
        rewrite <- skipn_skipn. destruct (skipn (Z.to_nat (off + i)) data); [constructor|].
        inversion H; easy.
    + rewrite index_out by lia. cbn [bind].
      replace (off + i + Z.of_nat (S k) <=? Z.max (off + i) (len data)) with false by lia. easy.
Qed.
Lemma msb_loop_high k : forall data off i size, Forall (fun b => 128 <= b < 256) data ->
  msb_loop k data off i size = Raise AssertionError \/ msb_loop k data off i size = Raise IndexError.
Proof.
  induction k as [|k IH]; intros data off i size H; cbn [msb_loop]; [now left|].
  destruct (index data (i + off)) as [c|e|] eqn:E; cbn [bind].
  - assert (Hc : 128 <= c < 256).
    { rewrite Forall_forall in H. apply H. unfold index in E. cbv zeta in E.
      destruct (_ && _); [|discriminate]. destruct (nth_error data _) eqn:En; [|discriminate]. injection E as <-. eapply nth_error_In; eauto. }
    replace (Z.land c 128 =? 0) with false; [now apply IH|]. symmetry. apply Z.eqb_neq. intros E0.
    assert (Z.testbit c 7 = true) by (rewrite Z.testbit_true by lia; change (2 ^ 7) with 128; lia).
    apply (f_equal (fun x => Z.testbit x 7)) in E0. rewrite Z.land_spec, H0 in E0. discriminate.
  - right. f_equal. unfold index in E. cbv zeta in E. destruct (_ && _); [destruct (nth_error data _)|]; congruence.
  - unfold index in E. cbv zeta in E. destruct (_ && _); [destruct (nth_error data _)|]; congruence.
Qed.
Lemma msb_size_unterminated data off : 0 <= off ->
  Forall (fun b => 128 <= b < 256) (skipn (Z.to_nat off) data) ->
  msb_size data off = if (off =? 0) || (len data =? 0) then Raise AssertionError else Raise IndexError.
Proof.
  intros Ho H. unfold msb_size. rewrite msb_loop_unterminated; [|lia|lia|now rewrite Z.add_0_r].
  fold (len data). pose proof (len_nonneg _ data).
  destruct (Z.leb_spec (off + 0 + len data) (Z.max (off + 0) (len data))); 
  destruct (Z.eqb_spec off 0), (Z.eqb_spec (len data) 0); cbn [orb]; try easy; lia.
Qed.

(** OFS_DELTA distances *)
Lemma ofs_loop_spec init : forall last rest c acc i,
  Forall (fun b => 128 <= b < 256) init -> 0 <= last < 128 -> 128 <= c < 256 ->
  ofs_loop (init ++ last :: rest) c acc i =
  Ok (fold_left (fun a b => (a + 1) * 128 + b mod 128) (init ++ [last]) acc, i + len init + 1).
Proof.
  induction init as [|b init IH]; intros last rest c acc i Hi Hl Hc; cbn [app ofs_loop fold_left].
  - rewrite land_128_big by lia.
    assert (forall l a, ofs_loop l last a (i + 1) = Ok (a, i + 1)) as ->.
    { intros l a. destruct l; cbn [ofs_loop]; now rewrite land_128_small by lia. }
    rewrite land_127, Z.shiftl_mul_pow2, len_nil by lia. change (2 ^ 7) with 128.
    f_equal. f_equal. lia.
  - inversion Hi; subst. rewrite land_128_big by lia. rewrite IH by easy.
    rewrite land_127, Z.shiftl_mul_pow2, len_cons by lia. change (2 ^ 7) with 128.
    f_equal. f_equal. lia.
Qed.

Lemma concat7_pow bs : forall a x,
  concat7 (a + x) bs = concat7 a bs + x * 2 ^ (7 * len bs).
Proof.
  induction bs as [|b bs IH]; intros a x; cbn [concat7].
  - rewrite len_nil. change (2 ^ (7 * 0)) with 1. lia.
  - replace (128 * (a + x) + b mod 128) with (128 * a + b mod 128 + 128 * x) by lia.
    rewrite IH, len_cons. pose proof (len_nonneg _ bs).
    replace (7 * (len bs + 1)) with (7 * len bs + 7) by lia.
    rewrite Z.pow_add_r by lia. change (2 ^ 7) with 128. ring.
Qed.
Lemma geo7_S k : geo7 (S (S k)) = 2 ^ (7 * Z.of_nat (S k)) + geo7 (S k).
Proof. reflexivity. Qed.
Lemma fold_concat7 bs : forall acc,
  fold_left (fun a b => (a + 1) * 128 + b mod 128) bs acc =
  concat7 acc bs + geo7 (S (length bs)).
Proof.
  induction bs as [|b bs IH]; intros acc.
  - cbn. lia.
  - cbn [fold_left concat7 length]. rewrite IH, geo7_S.
    replace ((acc + 1) * 128 + b mod 128) with (128 * acc + b mod 128 + 128 * 1) by lia.
    rewrite concat7_pow.
    replace (7 * Z.of_nat (S (length bs))) with (7 * len bs + 7) by (unfold len; lia).
    pose proof (len_nonneg _ bs).
    rewrite Z.pow_add_r by lia. change (2 ^ 7) with 128. lia.
Qed.

Lemma ofs_decode pre bs rest n : ofs_distance bs n ->
  ofs_delta_info (pre ++ bs ++ rest) (len pre) = Ok (n, len pre + len bs).
Proof.
  intros (init & last & -> & Hi & Hl & ->). unfold ofs_delta_info.
  rewrite slice_from_app by easy. destruct init as [|c init]; cbn [app].
  - assert (forall l a, ofs_loop l last a (len pre + 1) = Ok (a, len pre + 1)) as ->.
    { intros l a. destruct l; cbn [ofs_loop]; now rewrite land_128_small by lia. }
    rewrite land_127. cbn [concat7 length geo7]. rewrite len_cons, len_nil.
    f_equal. f_equal; lia.
  - inversion Hi; subst. rewrite <- app_assoc. cbn [app].
    rewrite ofs_loop_spec by easy. rewrite land_127, fold_concat7.
    cbn [concat7 length]. rewrite Z.mul_0_r, Z.add_0_l. rewrite len_cons, len_app, len_cons, len_nil.
    f_equal. f_equal. lia.
Qed.

(** Existence: every distance has an encoding. *)
Lemma concat7_app a b acc : concat7 acc (a ++ b) = concat7 (concat7 acc a) b.
Proof. revert acc; induction a; intros; cbn; [easy|]. apply IHa. Qed.
Lemma ofs_digits (k : nat) : forall n, (0 <= n) -> n < 2 ^ (7 * Z.of_nat (S k)) ->
  forall hi, (hi = 0 \/ hi = 128) -> exists init last, length init = k /\
    Forall (fun b => 128 <= b < 256) init /\ 0 <= last < 128 /\
    concat7 0 (init ++ [last]) = n.
Proof.
  induction k as [|k IH]; intros n Hn Hlt hi _.
  - exists [], n. change (2 ^ (7 * Z.of_nat 1)) with 128 in Hlt. cbn [app concat7].
    repeat split; try easy. rewrite Z.mod_small; lia.
  - destruct (IH (n / 128)) with (hi := 0) as (init & last & Hk & Hi & Hl & Hc); [lia| |now left|].
    { replace (7 * Z.of_nat (S (S k))) with (7 * Z.of_nat (S k) + 7) in Hlt by lia.
      rewrite Z.pow_add_r in Hlt by lia. change (2 ^ 7) with 128 in Hlt. lia. }
    exists (init ++ [last + 128]), (n mod 128).
    rewrite app_length, Hk. split; [simpl; lia|].
    split; [apply Forall_app; split; [easy|constructor; [lia|constructor]]|].
    split; [lia|].
    rewrite concat7_app. rewrite concat7_app in Hc |- *. cbn [concat7] in *.
    rewrite <- Z.add_mod_idemp_r by lia.
    replace ((last + 128 mod 128) mod 128) with (last mod 128) by (f_equal; lia).
    rewrite Hc. lia.
Qed.
Lemma geo7_succ k : geo7 (S (S k)) = 128 * (geo7 (S k) + 1).
Proof.
  induction k as [|k IH]; [reflexivity|].
  rewrite geo7_S, IH.
  replace (7 * Z.of_nat (S (S k))) with (7 * Z.of_nat (S k) + 7) by lia.
  rewrite Z.pow_add_r by lia. rewrite geo7_S in IH. change (2 ^ 7) with 128. lia.
Qed.
Lemma geo7_ge k : Z.of_nat k <= geo7 (S k).
Proof.
  induction k as [|k IH]; [simpl; lia|]. rewrite geo7_succ. lia.
Qed.
Lemma ofs_encode n : 0 <= n -> exists bs, ofs_distance bs n.
Proof.
  intros Hn.
  (* the number of bytes is the largest k with geo7 k <= n *)
  assert (exists k, geo7 (S k) <= n < geo7 (S (S k))) as (k & Hk1 & Hk2).
  { assert (forall m, n < geo7 (S m) -> exists k, geo7 (S k) <= n < geo7 (S (S k))) as Hm.
    { induction m as [|m IH]; intros H; [simpl in H; lia|].
      destruct (Z.lt_ge_cases n (geo7 (S m))); [auto|]. exists m. lia. }
    apply (Hm (Z.to_nat (n + 1))). pose proof (geo7_ge (Z.to_nat (n + 1))). lia. }
  rewrite geo7_S in Hk2.
  destruct (ofs_digits k (n - geo7 (S k))) with (hi := 0) as (init & last & Hl & Hi & Hla & Hc);
    [lia|lia|now left|].
  exists (init ++ [last]), init, last. repeat split; try easy; try lia.
  rewrite Hc, app_length, Hl. cbn [length]. rewrite Nat.add_1_r. lia.
Qed.

(** Uniqueness *)
Lemma concat7_bounds bs : 0 <= concat7 0 bs < 2 ^ (7 * len bs).
Proof.
  induction bs as [|b bs IH] using rev_ind.
  - rewrite len_nil. cbn. lia.
  - rewrite concat7_app, len_app, len_cons, len_nil. cbn [concat7].
    pose proof (len_nonneg _ bs).
    replace (7 * (len bs + (0 + 1))) with (7 * len bs + 7) by lia.
    rewrite Z.pow_add_r by lia. change (2 ^ 7) with 128. lia.
Qed.
Lemma geo7_mono a b : (a <= b)%nat -> geo7 (S a) <= geo7 (S b).
Proof.
  induction 1 as [|b Hle IH]; [lia|]. rewrite geo7_S.
  pose proof (Z.pow_nonneg 2 (7 * Z.of_nat (S b))). lia.
Qed.
Lemma ofs_len_unique bs1 bs2 n : ofs_distance bs1 n -> ofs_distance bs2 n -> ~ (length bs1 < length bs2)%nat.
Proof.
  intros (i1 & l1 & E1 & _ & _ & Hn1) (i2 & l2 & E2 & _ & _ & Hn2) Hlt.
  pose proof (concat7_bounds bs1). pose proof (concat7_bounds bs2).
  rewrite E1 in Hlt at 1. rewrite app_length in Hlt. cbn [length] in Hlt.
  assert (length bs1 = S (length i1)) as L1 by (rewrite E1, app_length; simpl; lia).
  assert (length bs2 = S (length i2)) as L2 by (rewrite E2, app_length; simpl; lia).
  unfold len in *. rewrite L1 in *. rewrite L2 in *.
  pose proof (geo7_mono (S (length i1)) (length i2) ltac:(lia)) as Hm. rewrite geo7_S in Hm. lia.
Qed.
Lemma concat7_inj : forall i1 i2 l1 l2, length i1 = length i2 ->
  Forall (fun b => 128 <= b < 256) i1 -> Forall (fun b => 128 <= b < 256) i2 ->
  0 <= l1 < 128 -> 0 <= l2 < 128 ->
  concat7 0 (i1 ++ [l1]) = concat7 0 (i2 ++ [l2]) -> i1 = i2 /\ l1 = l2.
Proof.
  induction i1 as [|b1 i1 IH] using rev_ind; intros i2 l1 l2 Hl H1 H2 Hb1 Hb2 E.
  - destruct i2; [|discriminate]. cbn in E. split; [easy|lia].
  - destruct i2 as [|b2 i2 _] using rev_ind; [rewrite app_length in Hl; simpl in Hl; lia|].
    rewrite !app_length in Hl; cbn [length] in Hl.
    apply Forall_app in H1 as [H1 H1b], H2 as [H2 H2b]. inversion H1b; inversion H2b; subst.
    rewrite !concat7_app in E. cbn [concat7] in E.
    assert (l1 = l2) by lia. subst l2.
    destruct (IH i2 (b1 - 128) (b2 - 128)) as [-> ?]; try easy; try lia.
    + rewrite !concat7_app. cbn [concat7]. lia.
    + split; [|easy]. do 2 f_equal. lia.
Qed.
Lemma ofs_unique bs1 bs2 n : ofs_distance bs1 n -> ofs_distance bs2 n -> bs1 = bs2.
Proof.
  intros H1 H2.
  assert (length bs1 = length bs2) as Hl.
  { pose proof (ofs_len_unique _ _ _ H1 H2). pose proof (ofs_len_unique _ _ _ H2 H1). lia. }
  destruct H1 as (i1 & l1 & -> & Hi1 & Hl1 & Hn1), H2 as (i2 & l2 & -> & Hi2 & Hl2 & Hn2).
  rewrite Hl in Hn1.
  destruct (concat7_inj i1 i2 l1 l2) as [-> ->]; try easy.
  - rewrite !app_length in Hl. simpl in Hl. lia.
  - lia.
Qed.

(** Whatever the decoder accepts is an encoding. *)
Lemma ofs_loop_inv rest : forall c acc i d e,
  is_bytes rest -> 0 <= c < 256 -> ofs_loop rest c acc i = Ok (d, e) ->
  (c < 128 /\ d = acc /\ e = i) \/
  (128 <= c /\ exists init last tl, rest = init ++ last :: tl /\
     Forall (fun b => 128 <= b < 256) init /\ 0 <= last < 128).
Proof.
  induction rest as [|b rest IH]; intros c acc i d e Hb Hc; cbn [ofs_loop].
  - destruct (Z.lt_ge_cases c 128).
    + rewrite land_128_small by lia. intros H0; injection H0 as <- <-. now left.
    + rewrite land_128_big by lia. discriminate.
  - destruct (Z.lt_ge_cases c 128).
    + rewrite land_128_small by lia. intros H0; injection H0 as <- <-. now left.
    + rewrite land_128_big by lia. intros H0. right. split; [lia|].
      apply is_bytes_cons in Hb as [Hb Hbs]. unfold is_byte in Hb.
      apply IH in H0; [|easy|lia].
      destruct H0 as [(H1 & H2 & H3)|(H1 & init & last & tl & H2 & H3 & H4)].
      * exists [], b, rest. repeat split; try constructor; lia.
      * exists (b :: init), last, tl. subst rest. repeat split; try easy. now constructor.
Qed.
Lemma ofs_decode_inv data i n e : is_bytes data -> 0 <= i -> i <= len data ->
  ofs_delta_info data i = Ok (n, e) ->
  exists pre bs tl, data = pre ++ bs ++ tl /\ len pre = i /\ e = i + len bs /\ ofs_distance bs n.
Proof.
  intros Hd Hi Hl H. pose proof H as H0. unfold ofs_delta_info in H.
  assert (data = firstn (Z.to_nat i) data ++ slice_from data i) as E.
  { rewrite slice_from_spec by easy. symmetry. apply firstn_skipn. }
  set (pre := firstn (Z.to_nat i) data) in *.
  assert (len pre = i) as Hp by (subst pre; rewrite len_firstn; lia).
  destruct (slice_from data i) as [|c rest] eqn:Es; [discriminate|].
  assert (is_bytes (c :: rest)) as Hb by (rewrite E in Hd; now apply is_bytes_app in Hd).
  apply is_bytes_cons in Hb as [Hc Hr]. unfold is_byte in Hc.
  apply ofs_loop_inv in H as H'; [|easy|lia].
  assert (exists bs tl, c :: rest = bs ++ tl /\ exists n', ofs_distance bs n') as (bs & tl & Ebs & n' & Hn').
  { destruct H' as [(H1 & _)|(H1 & init & last & tl & -> & H3 & H4)].
    - exists [c], rest. split; [easy|]. eexists. exists [], c. repeat split; try lia; constructor.
    - exists (c :: init ++ [last]), tl. split; [cbn; now rewrite <- app_assoc|].
      eexists. exists (c :: init), last. repeat split; try lia; [now constructor]. }
  exists pre, bs, tl. rewrite Ebs in E.
  rewrite E in H0 at 1. rewrite <- Hp in H0 at 1. rewrite (ofs_decode _ _ _ _ Hn') in H0.
  injection H0 as <- <-. repeat split; try easy. lia.
Qed.

(** Loose headers *)
Lemma dec_value_fold ds : forall acc, dec_value acc ds = fold_left (fun a c => 10 * a + (c - 48)) ds acc.
Proof. induction ds; intros; cbn; [easy|]. apply IHds. Qed.
Lemma dec_fuel_lead fuel n acc : 0 < n -> n < 2 ^ Z.of_nat fuel -> exists c r,
  dec_fuel fuel n acc = c :: r /\ c <> 48.
Proof.
  revert n acc; induction fuel as [|f IH]; intros n acc Hn Hlt.
  - change (2 ^ Z.of_nat 0) with 1 in Hlt. lia.
  - cbn [dec_fuel]. destruct (Z.eqb_spec (n / 10) 0).
    + eexists _, _. split; [easy|]. lia.
    + apply IH; [lia|]. rewrite Nat2Z.inj_succ, Z.pow_succ_r in Hlt by lia. lia.
Qed.
Lemma fmt_i_decimal n : 0 <= n -> decimal (fmt_i n) n.
Proof.
  intros Hn. unfold fmt_i. replace (n <? 0) with false by lia. unfold decimal.
  repeat split.
  - apply dec_nonneg_nonnil.
  - now apply dec_nonneg_digits.
  - rewrite dec_value_fold. apply dec_fuel_value0; try lia.
    destruct (Z.eq_dec n 0) as [->|]; [reflexivity|].
    rewrite Nat2Z.inj_succ, Z2Nat.id by apply Z.log2_nonneg. apply Z.log2_spec. lia.
  - intros H. destruct (Z.eq_dec n 0) as [->|]; [reflexivity|].
    exfalso. unfold dec_nonneg in H.
    destruct (dec_fuel_lead (S (Z.to_nat (Z.log2 n))) n []) as (c & r & E & Hc); [lia| |].
    + rewrite Nat2Z.inj_succ, Z2Nat.id by apply Z.log2_nonneg. apply Z.log2_spec. lia.
    + rewrite E in H. easy.
Qed.
Lemma decimal_py_int ds n : decimal ds n -> py_int ds = Ok n.
Proof.
  intros (Hne & Hd & Hv & _). unfold py_int.
  assert (strip ds = ds) as ->.
  { unfold strip. rewrite (lstrip_digits ds) by easy.
    rewrite lstrip_digits by now apply Forall_rev. apply rev_involutive. }
  assert (parse_digits ds 0 true = Some n) as Hp.
  { rewrite <- (app_nil_r ds), parse_digits_app by easy. cbn [parse_digits].
    now rewrite <- dec_value_fold, Hv. }
  destruct ds as [|c l]; [easy|]. inversion Hd; subst.
  assert (c = 48 \/ c = 49 \/ c = 50 \/ c = 51 \/ c = 52 \/ c = 53 \/ c = 54 \/ c = 55 \/ c = 56 \/ c = 57) as Hc by lia.
  repeat (destruct Hc as [->|Hc]; [rewrite Hp; reflexivity|]). subst c. rewrite Hp. reflexivity.
Qed.
Lemma digits_no (ds : bytes) x : Forall (fun d => 48 <= d <= 57) ds -> x < 48 -> ~ In x ds.
Proof. rewrite Forall_forall. intros H Hx Hin. apply H in Hin. lia. Qed.
Lemma parse_loose_header_ok t ds n content :
  ~ In BYTE_SPACE t -> ~ In NULL_BYTE t -> decimal ds n ->
  parse_loose_header (t ++ [BYTE_SPACE] ++ ds ++ [NULL_BYTE] ++ content) = Ok (t, n).
Proof.
  intros Hs Hz Hd. unfold parse_loose_header.
  assert (Forall (fun d => 48 <= d <= 57) ds) as Hds by apply Hd.
  assert (~ In NULL_BYTE (t ++ [BYTE_SPACE] ++ ds)) as Hn.
  { rewrite !in_app_iff. intros [H|[[H|[]]|H]]; [easy|discriminate|].
    now apply (digits_no ds NULL_BYTE). }
  replace (t ++ [BYTE_SPACE] ++ ds ++ [NULL_BYTE] ++ content)
    with ((t ++ [BYTE_SPACE] ++ ds) ++ NULL_BYTE :: content) by now rewrite <- !app_assoc.
  rewrite find_app, slice_to_app by easy.
  cbn [app]. rewrite split_app, split_none by (easy || now apply digits_no).
  rewrite (decimal_py_int ds n Hd). easy.
Qed.
Lemma loose_object_header_ok t n content : 0 <= n ->
  ~ In BYTE_SPACE t -> ~ In NULL_BYTE t ->
  parse_loose_header (loose_object_header t n ++ content) = Ok (t, n).
Proof.
  intros Hn Hs Hz. unfold loose_object_header. rewrite <- !app_assoc.
  apply parse_loose_header_ok; auto using fmt_i_decimal.
Qed.

(** Copying *)
Lemma stream_copy_full {R W} (read : R -> Z -> res (bytes * R)) (write : W -> bytes -> res (Z * W)) content out :
  full_reader read content -> accepting_writer write out ->
  forall fuel r w size chunk dbw, 0 <= dbw <= size -> 1 <= chunk ->
  size - dbw < Z.of_nat fuel ->
  exists r' w', stream_copy_loop read write fuel r w size chunk dbw =
     Ok (Z.min size (dbw + len (content r)), r', w') /\
    out w' = out w ++ firstn (Z.to_nat (size - dbw)) (content r) /\
    content r' = skipn (Z.to_nat (size - dbw)) (content r).
Proof.
  intros HR HW. induction fuel as [|f IH]; intros r w size chunk dbw Hd Hc Hf; [lia|].
  cbn [stream_copy_loop].
  set (cs := Z.min chunk (size - dbw)).
  destruct (HR r cs) as (r1 & -> & Hr1); [lia|]. cbn [bind].
  destruct (HW w (firstn (Z.to_nat cs) (content r))) as (w1 & -> & Hw1). cbn [bind].
  rewrite !len_firstn.
  destruct ((_ <? cs) || _) eqn:E.
  - exists r1, w1. split; [|split].
    + f_equal. f_equal. f_equal. pose proof (len_nonneg _ (content r)). lia.
    + rewrite Hw1. f_equal.
      destruct (Z.eq_dec cs (size - dbw)) as [<-|]; [easy|].
      rewrite !firstn_all2; try easy; unfold len in *; lia.
    + rewrite Hr1. destruct (Z.eq_dec cs (size - dbw)) as [<-|]; [easy|].
      rewrite !skipn_all2; try easy; unfold len in *; lia.
  - assert (cs <= len (content r)) by lia.
    replace (dbw + Z.min (Z.of_nat (Z.to_nat cs)) (len (content r))) with (dbw + cs) in * by lia.
    destruct (IH r1 w1 size chunk (dbw + cs)) as (r' & w' & -> & Ho & Hcr); [lia|lia|lia|].
    exists r', w'. split; [|split].
    + f_equal. f_equal. f_equal. rewrite Hr1, len_skipn. lia.
    + rewrite Ho, Hw1, <- app_assoc. f_equal. rewrite Hr1.
      rewrite <- (firstn_skipn (Z.to_nat cs) (firstn (Z.to_nat (size - dbw)) (content r))).
      rewrite firstn_firstn, Nat.min_l by lia. f_equal.
      rewrite skipn_firstn_comm. f_equal. lia.
    + rewrite Hcr, Hr1, skipn_skipn. f_equal. lia.
Qed.

Lemma stream_copy_partial {R W} (read : R -> Z -> res (bytes * R)) (write : W -> bytes -> res (Z * W)) content out :
  partial_reader read content -> accepting_writer write out ->
  forall fuel r w size chunk dbw, 0 <= dbw <= size -> 1 <= chunk ->
  size - dbw < Z.of_nat fuel ->
  exists n r' w' d, stream_copy_loop read write fuel r w size chunk dbw = Ok (dbw + n, r', w') /\
    out w' = out w ++ d /\ content r = d ++ content r' /\ n = len d /\ dbw + n <= size.
Proof.
  intros HR HW. induction fuel as [|f IH]; intros r w size chunk dbw Hd Hc Hf; [lia|].
  cbn [stream_copy_loop].
  set (cs := Z.min chunk (size - dbw)).
  destruct (HR r cs) as (d & r1 & -> & Hr1 & Hlen & _); [lia|]. cbn [bind].
  destruct (HW w d) as (w1 & -> & Hw1). cbn [bind]. pose proof (len_nonneg _ d).
  destruct ((_ <? cs) || _) eqn:E.
  - exists (len d), r1, w1, d. repeat split; try easy. lia.
  - destruct (IH r1 w1 size chunk (dbw + len d)) as (n & r' & w' & d' & -> & Ho & Hcr & -> & Hle); [lia|lia|lia|].
    exists (len d + len d'), r', w', (d ++ d'). repeat split.
    + f_equal. f_equal. f_equal. lia.
    + now rewrite Ho, Hw1, <- app_assoc.
    + now rewrite Hr1, Hcr, <- app_assoc.
    + now rewrite len_app.
    + lia.
Qed.

(** Shas *)
Lemma lower_hex_app a b : lower_hex (a ++ b) <-> lower_hex a /\ lower_hex b.
Proof. apply Forall_app. Qed.
Lemma hex_digit_lhex v : 0 <= v < 16 -> is_lhex (hex_digit v).
Proof. intros. unfold hex_digit, is_lhex. destruct (Z.ltb_spec v 10); lia. Qed.
Lemma bin_to_hex_lower l : is_bytes l -> lower_hex (bin_to_hex l).
Proof.
  induction 1 as [|b l Hb _ IH]; cbn [bin_to_hex]; [constructor|]. unfold is_byte in Hb.
  constructor; [apply hex_digit_lhex; lia|]. constructor; [apply hex_digit_lhex; lia|easy].
Qed.
Lemma even_split_hex h : lower_hex h -> Z.even (len h) = true -> exists b, hex_to_bin h = Ok b /\ bin_to_hex b = h /\ is_bytes b /\ 2 * len b = len h.
Proof. intros. now apply (bin_to_hex_to_bin (length h)). Qed.

Lemma land_lxor_240 a b : 0 <= a < 256 -> 0 <= b < 256 ->
  (Z.land (Z.lxor a b) 240 =? 0) = (a / 16 =? b / 16).
Proof.
  intros Ha Hb.
  assert (Z.land (Z.lxor a b) 240 = Z.shiftl (Z.lxor (a / 16) (b / 16)) 4) as ->.
  { apply Z.bits_inj'. intros n Hn. rewrite Z.land_spec, Z.lxor_spec.
    destruct (Z.lt_ge_cases n 4) as [H4|H4].
    - rewrite Z.shiftl_spec_low by lia.
      replace (Z.testbit 240 n) with false; [apply andb_false_r|].
      assert (n = 0 \/ n = 1 \/ n = 2 \/ n = 3) as [->|[->|[->| ->]]] by lia; reflexivity.
    - rewrite Z.shiftl_spec_high, Z.lxor_spec by lia.
      rewrite <- !(Z.shiftr_div_pow2 _ 4) by lia. rewrite !Z.shiftr_spec by lia.
      replace (n - 4 + 4) with n by lia.
      destruct (Z.lt_ge_cases n 8) as [H8|H8].
      + replace (Z.testbit 240 n) with true; [apply andb_true_r|].
        assert (n = 4 \/ n = 5 \/ n = 6 \/ n = 7) as [->|[->|[->| ->]]] by lia; reflexivity.
      + replace (Z.testbit a n) with false; [replace (Z.testbit b n) with false; [easy|]|];
        symmetry; (apply Z.testbit_false; [lia|]); rewrite Z.div_small; try easy;
        (split; [lia|]); eapply Z.lt_le_trans; try apply Ha; try apply Hb;
        change 256 with (2 ^ 8); apply Z.pow_le_mono_r; lia. }
  rewrite Z.shiftl_mul_pow2 by lia. change (2 ^ 4) with 16.
  destruct (Z.eqb_spec (a / 16) (b / 16)) as [E|E].
  - rewrite E, Z.lxor_nilpotent. reflexivity.
  - apply Z.eqb_neq. intros H. assert (Z.lxor (a / 16) (b / 16) = 0) as H0 by lia.
    apply Z.lxor_eq in H0. easy.
Qed.

Lemma startswith_len_false a p : len a < len p -> startswith a p = false.
Proof.
  intros H. destruct (startswith a p) eqn:E; [|easy].
  apply startswith_iff in E as [r ->]. rewrite len_app in H. pose proof (len_nonneg _ r). lia.
Qed.
Lemma startswith_firstn a p : len p <= len a ->
  startswith a p = beq p (firstn (length p) a).
Proof.
  revert a; induction p as [|y p IH]; intros a H; [now destruct a|].
  destruct a as [|x a]; [rewrite len_cons, len_nil in H; pose proof (len_nonneg _ p); lia|].
  cbn [startswith firstn length beq]. rewrite IH by (rewrite !len_cons in H; lia).
  now rewrite Z.eqb_sym.
Qed.
Lemma hex_digit_inj a b : 0 <= a < 16 -> 0 <= b < 16 -> hex_digit a = hex_digit b -> a = b.
Proof. unfold hex_digit. destruct (Z.ltb_spec a 10), (Z.ltb_spec b 10); lia. Qed.

(** startswith on hex forms, by bytes *)
Lemma startswith_hex_even b sha : is_bytes b -> is_bytes sha ->
  startswith (bin_to_hex sha) (bin_to_hex b) = startswith sha b.
Proof.
  intros Hb. revert sha; induction Hb as [|x b Hx Hb IH]; intros sha Hs.
  - cbn. now destruct (bin_to_hex sha), sha.
  - destruct Hs as [|y sha Hy Hs]; [easy|].
    cbn [bin_to_hex startswith]. unfold is_byte in *. rewrite IH by easy.
    destruct (Z.eqb_spec y x) as [->|Hne]; [now rewrite !Z.eqb_refl|].
    destruct (Z.eqb_spec (hex_digit (y / 16)) (hex_digit (x / 16))) as [E1|]; [|easy].
    destruct (Z.eqb_spec (hex_digit (y mod 16)) (hex_digit (x mod 16))) as [E2|]; [|easy].
    apply hex_digit_inj in E1, E2; lia.
Qed.
Lemma startswith_hex_odd b v sha : is_bytes b -> is_bytes sha -> 0 <= v < 16 ->
  startswith (bin_to_hex sha) (bin_to_hex b ++ [hex_digit v]) =
  startswith sha b && match skipn (length b) sha with [] => false | y :: _ => y / 16 =? v end.
Proof.
  intros Hb. revert sha; induction Hb as [|x b Hx Hb IH]; intros sha Hs Hv.
  - destruct Hs as [|y sha Hy Hs]; [easy|]. unfold is_byte in Hy.
    cbn [bin_to_hex app startswith length skipn]. rewrite andb_true_l.
    destruct (bin_to_hex sha); cbn [startswith]; rewrite andb_true_r;
    (destruct (Z.eqb_spec (y / 16) v) as [->|Hne]; [apply Z.eqb_refl|]);
    apply Z.eqb_neq; intros E; apply hex_digit_inj in E; lia.
  - destruct Hs as [|y sha Hy Hs]; [easy|].
    cbn [bin_to_hex app startswith length skipn]. unfold is_byte in *. rewrite IH by easy.
    destruct (Z.eqb_spec y x) as [->|Hne]; [now rewrite !Z.eqb_refl|].
    destruct (Z.eqb_spec (hex_digit (y / 16)) (hex_digit (x / 16))) as [E1|]; [|easy].
    destruct (Z.eqb_spec (hex_digit (y mod 16)) (hex_digit (x mod 16))) as [E2|]; [|easy].
    apply hex_digit_inj in E1, E2; lia.
Qed.

Lemma nth_error_last_idx (b : bytes) x : index (b ++ [x]) (-1) = Ok x.
Proof.
  unfold index. replace (-1 <? 0) with true by easy.
  rewrite len_app, len_cons, len_nil. pose proof (len_nonneg _ b).
  replace ((0 <=? -1 + (len b + (0 + 1))) && (-1 + (len b + (0 + 1)) <? len b + (0 + 1))) with true by lia.
  rewrite nth_error_app2 by (unfold len; lia).
  replace (Z.to_nat (-1 + (len b + (0 + 1))) - length b)%nat with O by (unfold len; lia). easy.
Qed.
Lemma is_equal_canonical_sha_even b sha : is_bytes b -> is_bytes sha ->
  1 <= len b -> len b <= len sha ->
  is_equal_canonical_sha (2 * len b) b sha = Ok (startswith (bin_to_hex sha) (bin_to_hex b)).
Proof.
  intros Hb Hs H1 H2. unfold is_equal_canonical_sha.
  replace (2 * len b / 2) with (len b) by lia.
  rewrite !slice_to_spec by lia. rewrite (firstn_all2 b) by (unfold len; lia).
  rewrite startswith_hex_even, startswith_firstn by easy.
  replace (Z.to_nat (len b)) with (length b) by (unfold len; lia).
  destruct (beq b _) eqn:E; cbn [negb]; [|easy].
  replace (2 * len b - len b =? 0) with false by lia.
  apply beq_eq in E.
  assert (sha = b ++ skipn (length b) sha) as Es by (rewrite E at 1; symmetry; apply firstn_skipn).
  destruct (exists_last (l := b)) as (b' & x & Eb); [intros ->; rewrite len_nil in H1; lia|].
  set (tl := skipn (length b) sha) in Es. clearbody tl.
  assert (index b (-1) = Ok x) as -> by (rewrite Eb; apply nth_error_last_idx).
  assert (index sha (len b - 1) = Ok x) as ->.
  { rewrite Es, Eb, <- app_assoc. apply index_app. rewrite len_app, len_cons, len_nil. lia. }
  cbn [bind]. rewrite Z.lxor_nilpotent. reflexivity.
Qed.
Lemma is_equal_canonical_sha_odd b v sha : is_bytes b -> is_bytes sha ->
  0 <= v < 16 -> len b + 1 <= len sha ->
  is_equal_canonical_sha (2 * len b + 1) (b ++ [16 * v]) sha =
  Ok (startswith (bin_to_hex sha) (bin_to_hex b ++ [hex_digit v])).
Proof.
  intros Hb Hs H1 H2. unfold is_equal_canonical_sha.
  replace ((2 * len b + 1) / 2) with (len b) by lia. pose proof (len_nonneg _ b).
  rewrite slice_to_app by easy. rewrite slice_to_spec by lia.
  rewrite startswith_hex_odd, startswith_firstn by (easy || lia).
  replace (Z.to_nat (len b)) with (length b) by (unfold len; lia).
  destruct (beq b _) eqn:E; cbn [negb andb]; [|easy].
  replace (2 * len b + 1 - len b =? 0) with false by lia.
  rewrite nth_error_last_idx. cbn [bind].
  apply beq_eq in E.
  assert (sha = b ++ skipn (length b) sha) as Es by (rewrite E at 1; symmetry; apply firstn_skipn).
  destruct (skipn (length b) sha) as [|y tl].
  { exfalso. rewrite Es, app_nil_r in H2. lia. }
  rewrite Es, len_app, len_cons, len_nil, index_app by lia. cbn [bind].
  rewrite Es in Hs. apply is_bytes_app in Hs as [_ Hs]. apply is_bytes_cons in Hs as [Hy _].
  unfold is_byte in Hy. rewrite land_lxor_240 by lia.
  replace (16 * v / 16) with v by lia. f_equal. apply Z.eqb_sym.
Qed.

Lemma is_equal_canonical_sha_spec p mtch sha :
  lower_hex p -> 1 <= len p <= 40 -> hex_to_bin (pad_even p) = Ok mtch ->
  is_bytes sha -> len sha = 20 ->
  is_equal_canonical_sha (len p) mtch sha = Ok (startswith (bin_to_hex sha) p).
Proof.
  intros Hp Hl Hm Hs Hls. unfold pad_even in Hm. destruct (Z.even (len p)) eqn:Ev.
  - destruct (even_split_hex p) as (b & Hb1 & Hb2 & Hb3 & Hb4); try easy.
    rewrite Hb1 in Hm. injection Hm as <-. rewrite <- Hb4, <- Hb2.
    apply is_equal_canonical_sha_even; try easy; lia.
  - destruct (exists_last (l := p)) as (q & c & ->); [intros ->; discriminate|].
    apply lower_hex_app in Hp as [Hq Hc]. inversion Hc as [|? ? Hc' _]; subst.
    rewrite len_app, len_cons, len_nil in *.
    assert (Z.even (len q) = true) as Hqe.
    { replace (len q + (0 + 1)) with (Z.succ (len q)) in Ev by lia.
      rewrite Z.even_succ, <- Z.negb_even in Ev. now destruct (Z.even (len q)). }
    destruct (even_split_hex q) as (b & Hb1 & Hb2 & Hb3 & Hb4); try easy.
    destruct (is_lhex_val c Hc') as [v Hv]. destruct (hex_digit_val c v Hc' Hv) as [Hv1 Hv2].
    assert (forall q b, hex_to_bin q = Ok b -> hex_to_bin ((q ++ [c]) ++ [48]) = Ok (b ++ [16 * v])) as Hx.
    { clear - Hv. intros q. remember (length q) as n eqn:En. assert (length q <= n)%nat as Hn by lia.
      clear En. revert q Hn. induction n as [|n IH]; intros q Hn b.
      - destruct q; [|simpl in Hn; lia]. cbn [hex_to_bin app]. intros H; injection H as <-.
        rewrite Hv. change (hex_val 48) with (Some 0). cbn [bind app]. now rewrite Z.add_0_r.
      - destruct q as [|x [|y q]]; try discriminate.
        + cbn [hex_to_bin app]. intros H; injection H as <-.
          rewrite Hv. change (hex_val 48) with (Some 0). cbn [bind app]. now rewrite Z.add_0_r.
        + cbn [hex_to_bin app]. destruct (hex_val x); [|discriminate]. destruct (hex_val y); [|discriminate].
          intros H. apply bind_ok_inv in H as (r & Hr & H). injection H as <-.
          rewrite (IH q ltac:(simpl in Hn; lia) r Hr). easy. }
    rewrite (Hx q b Hb1) in Hm. injection Hm as <-.
    replace (len q + (0 + 1)) with (2 * len b + 1) by lia.
    rewrite <- Hb2, <- Hv1. apply is_equal_canonical_sha_odd; try easy; lia.
Qed.

(** Final forms used by Prop_Fun.v *)
Lemma stream_copy_loop_mono {R W} (read : R -> Z -> res (bytes * R)) (write : W -> bytes -> res (Z * W)) f :
  forall f' r w size chunk dbw, (f <= f')%nat ->
  stream_copy_loop read write f r w size chunk dbw <> Diverge ->
  stream_copy_loop read write f' r w size chunk dbw = stream_copy_loop read write f r w size chunk dbw.
Proof.
  induction f as [|f IH]; intros f' r w size chunk dbw Hf H; [now elim H|].
  destruct f' as [|f']; [lia|]. cbn [stream_copy_loop] in *.
  destruct (read r _) as [[d r1]| |]; cbn [bind] in *; try easy.
  destruct (write w d) as [[k w1]| |]; cbn [bind] in *; try easy.
  destruct (_ || _); [easy|]. apply IH; [lia|easy].
Qed.
Lemma evaluates_of_mono {A} (r : nat -> res A) f v :
  (forall f f', (f <= f')%nat -> r f <> Diverge -> r f' = r f) -> r f = v -> v <> Diverge -> evaluates r v.
Proof. intros H <- Hv. exists f. intros f' Hf. now apply H. Qed.

Lemma stream_copy_exact {R W} (read : R -> Z -> res (bytes * R)) (write : W -> bytes -> res (Z * W)) content out :
  full_reader read content -> accepting_writer write out ->
  forall r w size chunk, 0 <= size -> 1 <= chunk ->
  exists r' w',
    evaluates (fun fuel => stream_copy read write fuel r w size chunk)
              (Ok (Z.min size (len (content r)), r', w')) /\
    out w' = out w ++ firstn (Z.to_nat size) (content r) /\
    content r' = skipn (Z.to_nat size) (content r).
Proof.
  intros HR HW r w size chunk Hs Hc.
  destruct (stream_copy_full read write content out HR HW (S (Z.to_nat size)) r w size chunk 0)
    as (r' & w' & H1 & H2 & H3); [lia|lia|lia|].
  rewrite Z.sub_0_r in *. rewrite Z.add_0_l in *.
  exists r', w'. split; [|easy].
  eapply evaluates_of_mono; [|exact H1|easy].
  intros f f' Hf Hd. now apply stream_copy_loop_mono.
Qed.
Lemma stream_copy_prefix {R W} (read : R -> Z -> res (bytes * R)) (write : W -> bytes -> res (Z * W)) content out :
  partial_reader read content -> accepting_writer write out ->
  forall r w size chunk, 0 <= size -> 1 <= chunk ->
  exists r' w' d,
    evaluates (fun fuel => stream_copy read write fuel r w size chunk) (Ok (len d, r', w')) /\
    out w' = out w ++ d /\ content r = d ++ content r' /\ len d <= size.
Proof.
  intros HR HW r w size chunk Hs Hc.
  destruct (stream_copy_partial read write content out HR HW (S (Z.to_nat size)) r w size chunk 0)
    as (n & r' & w' & d & H1 & H2 & H3 & -> & H5); [lia|lia|lia|].
  rewrite Z.add_0_l in *. exists r', w', d. split; [|easy].
  eapply evaluates_of_mono; [|exact H1|easy].
  intros f f' Hf Hd. now apply stream_copy_loop_mono.
Qed.
(** write_object = header followed by the copied content. *)
Lemma write_object_exact {R W} (read : R -> Z -> res (bytes * R)) (write : W -> bytes -> res (Z * W)) content out :
  full_reader read content -> accepting_writer write out ->
  forall t r w size chunk, 0 <= size -> 1 <= chunk ->
  exists r' w',
    evaluates (fun fuel => write_object read write fuel t size r w chunk)
              (Ok (len (loose_object_header t size) + Z.min size (len (content r)), r', w')) /\
    out w' = out w ++ loose_object_header t size ++ firstn (Z.to_nat size) (content r) /\
    content r' = skipn (Z.to_nat size) (content r).
Proof.
  intros HR HW t r w size chunk Hs Hc.
  destruct (HW w (loose_object_header t size)) as (w1 & E1 & Ho1).
  destruct (stream_copy_exact read write content out HR HW r w1 size chunk Hs Hc)
    as (r' & w' & [f0 Hf0] & H2 & H3).
  exists r', w'. split; [|split; [|easy]].
  - exists f0. intros f Hf. unfold write_object. rewrite E1. cbn [bind]. rewrite Hf0 by easy. easy.
  - now rewrite H2, Ho1, <- app_assoc.
Qed.

(** A legal reader delivering one byte per call, and a plain file. *)
Definition bytewise_read (r : bytes) (n : Z) : res (bytes * bytes) :=
  if n <=? 0 then Ok ([], r)
  else match r with [] => Ok ([], []) | b :: r' => Ok ([b], r') end.
Lemma bytewise_partial : partial_reader bytewise_read (fun r => r).
Proof.
  intros r n Hn. unfold bytewise_read. destruct (Z.leb_spec n 0).
  - exists [], r. repeat split; [rewrite len_nil; lia|lia].
  - destruct r as [|b r].
    + exists [], []. repeat split. rewrite len_nil; lia.
    + exists [b], r. repeat split; [rewrite len_cons, len_nil; lia|easy].
Qed.
Definition file_read (r : bytes) (n : Z) : res (bytes * bytes) :=
  if n <? 0 then Ok (r, []) else Ok (firstn (Z.to_nat n) r, skipn (Z.to_nat n) r).
Lemma file_read_full : full_reader file_read (fun r => r).
Proof.
  intros r n Hn. exists (skipn (Z.to_nat n) r). unfold file_read.
  replace (n <? 0) with false by lia. easy.
Qed.
Definition list_write (w : bytes) (d : bytes) : res (Z * bytes) := Ok (len d, w ++ d).
Lemma list_write_accepts : accepting_writer list_write (fun w => w).
Proof. intros w d. exists (w ++ d). easy. Qed.

Lemma stream_copy_short_refuted :
  exists (read : bytes -> Z -> res (bytes * bytes)) (src : bytes) size,
    partial_reader read (fun r => r) /\ size <= len src /\ 0 <= size /\
    evaluates (fun fuel => stream_copy read list_write fuel src [] size 4096) (Ok (1, [98], [97])) /\
    size = 2.
Proof.
  exists bytewise_read, [97; 98], 2. split; [apply bytewise_partial|].
  split; [cbn; lia|]. split; [lia|]. split; [|easy].
  exists 1%nat. intros f Hf. destruct f; [lia|]. reflexivity.
Qed.

Lemma to_sha_roundtrip b : is_bytes b -> len b = 20 ->
  to_bin_sha (to_hex_sha b) = Ok b /\ len (to_hex_sha b) = 40 /\ lower_hex (to_hex_sha b) /\
  to_bin_sha b = Ok b.
Proof.
  intros Hb Hl. unfold to_bin_sha, to_hex_sha. rewrite Hl. cbn [Z.eqb Pos.eqb].
  rewrite bin_to_hex_len, Hl. cbn [Z.mul Pos.mul Z.eqb Pos.eqb].
  repeat split; [now apply hex_to_bin_to_hex|now apply bin_to_hex_lower].
Qed.
Lemma to_sha_roundtrip' h : lower_hex h -> len h = 40 ->
  exists b, to_bin_sha h = Ok b /\ is_bytes b /\ len b = 20 /\ to_hex_sha b = h /\ to_hex_sha h = h.
Proof.
  intros Hh Hl. destruct (even_split_hex h) as (b & H1 & H2 & H3 & H4); [easy|now rewrite Hl|].
  exists b. unfold to_bin_sha, to_hex_sha. rewrite Hl.
  replace (len b) with 20 by lia. cbn [Z.eqb Pos.eqb]. easy.
Qed.

Lemma type_ids_inverse i : In i [1; 2; 3; 4; 6; 7] ->
  exists t, type_id_to_type i = Ok t /\ type_to_type_id t = Ok i.
Proof.
  intros [<-|[<-|[<-|[<-|[<-|[<-|[]]]]]]]; eexists; split; reflexivity.
Qed.
Lemma type_names_inverse t i : type_to_type_id t = Ok i -> type_id_to_type i = Ok t.
Proof.
  unfold type_to_type_id, type_to_type_id_map. cbn [assoc_type].
  assert (forall a b, pystr_eqb a b = true -> b = a) as Hx.
  { intros [x|x] [y|y]; simpl; try easy; intros H; apply beq_eq in H; now subst. }
  repeat (match goal with |- (if pystr_eqb ?k t then _ else _) = _ -> _ =>
    let E := fresh "E" in destruct (pystr_eqb k t) eqn:E; [intros H0; injection H0 as <-; apply Hx in E; subst t; reflexivity|clear E] end).
  discriminate.
Qed.

Lemma is_loose_object_py2 m : is_bytes m -> 2 <= len m ->
  exists b, is_loose_object Py2 m = Ok b /\
    (b = true <-> exists x y r, m = x :: y :: r /\ x = 120 /\ (256 * x + y) mod 31 = 0).
Proof.
  intros Hm Hl. destruct m as [|x [|y m]]; rewrite ?len_cons, ?len_nil in Hl; try lia.
  unfold is_loose_object. rewrite slice_to_spec by lia. change (Z.to_nat 2) with 2%nat.
  cbn [firstn ord_item bind]. eexists. split; [reflexivity|].
  rewrite Z.shiftl_mul_pow2 by lia. change (2 ^ 8) with 256.
  rewrite andb_true_iff, !Z.eqb_eq, (Z.mul_comm x 256). split.
  - intros [H1 H2]. exists x, y, m. easy.
  - intros (x' & y' & r & E & H1 & H2). injection E as -> -> ->. easy.
Qed.
Lemma is_loose_object_py3 m : 1 <= len m -> is_loose_object Py3 m = Raise TypeError.
Proof.
  intros Hl. destruct m as [|x m]; [rewrite len_nil in Hl; lia|].
  unfold is_loose_object. rewrite slice_to_spec by lia. change (Z.to_nat 2) with 2%nat.
  cbn [firstn]. destruct m; reflexivity.
Qed.

(** ** Headers that do not end *)
Lemma high_bit c : 128 <= c < 256 -> Z.land c 128 =? 0 = false.
Proof.
  intros H. apply Z.eqb_neq. intros E. assert (Z.testbit (Z.land c 128) 7 = false) as E2 by now rewrite E.
  rewrite Z.land_spec in E2. change (Z.testbit 128 7) with true in E2. rewrite andb_true_r in E2.
  rewrite Z.testbit_false in E2 by lia. change (2 ^ 7) with 128 in E2. lia.
Qed.
Lemma poh_unterminated rest : Forall (fun b => 128 <= b < 256) rest -> forall c s sh i, 128 <= c < 256 -> poh_loop rest c s sh i = Raise IndexError.
Proof. induction 1 as [|b l Hb Hl IH]; intros c s sh i Hc; cbn [poh_loop]; rewrite (high_bit c Hc); [easy|]. now apply IH. Qed.
Lemma pack_header_unterminated data : Forall (fun b => 128 <= b < 256) data -> pack_object_header_info data = Raise IndexError.
Proof. intros [|c l Hc Hl]; [easy|]. cbn [pack_object_header_info]. now rewrite poh_unterminated. Qed.
Lemma ofs_loop_unterminated rest : Forall (fun b => 128 <= b < 256) rest -> forall c s i, 128 <= c < 256 -> ofs_loop rest c s i = Raise IndexError.
Proof. induction 1 as [|b l Hb Hl IH]; intros c s i Hc; cbn [ofs_loop]; rewrite (high_bit c Hc); [easy|]. now apply IH. Qed.
Lemma ofs_unterminated data i : 0 <= i -> Forall (fun b => 128 <= b < 256) (skipn (Z.to_nat i) data) -> ofs_delta_info data i = Raise IndexError.
Proof.
  intros Hi H. unfold ofs_delta_info. assert (slice_from data i = skipn (Z.to_nat i) data) as ->.
  { now apply slice_from_spec. }
  destruct H as [|c l Hc Hl]; [easy|]. now apply ofs_loop_unterminated.
Qed.

(** A read that gives less than asked for ends the copy. *)
Lemma stream_copy_ends {R W} (read : R -> Z -> res (bytes * R)) (write : W -> bytes -> res (Z * W)) (out : W -> bytes) :
  accepting_writer write out -> forall r w size chunk d r', read r (Z.min chunk size) = Ok (d, r') -> len d < Z.min chunk size ->
  exists w', evaluates (fun fuel => stream_copy read write fuel r w size chunk) (Ok (len d, r', w')) /\ out w' = out w ++ d.
Proof.
  intros Hw r w size chunk d r' Hr Hl. destruct (Hw w d) as (w' & Ew & Eo). exists w'. split; [|exact Eo].
  exists 1%nat. intros [|f] Hf; [lia|]. unfold stream_copy. cbn [stream_copy_loop]. rewrite Z.sub_0_r, Hr. cbn [bind]. rewrite Ew. cbn [bind].
  replace (len d <? Z.min chunk size) with true by lia. reflexivity.
Qed.
