(** Proofs about delta application (DeltaModel.v, apply_delta_data). *)
From Coq Require Import ZifyBool ZifyNat.
From Verif Require Import Py PyFacts FunModel FunSpec FunProofs DeltaModel DeltaSpec.
Ltac Zify.zify_post_hook ::= Z.div_mod_to_equations.

(** [get] delivers the bytes [l] from position [i] on. *)
Fixpoint gets (get : Z -> res Z) (i : Z) (l : bytes) : Prop :=
  match l with [] => True | b :: l' => get i = Ok b /\ gets get (i + 1) l' end.
Lemma gets_app get l1 : forall i l2, gets get i (l1 ++ l2) <-> gets get i l1 /\ gets get (i + len l1) l2.
Proof.
  induction l1 as [|b l1 IH]; intros i l2; cbn [app gets].
  - rewrite len_nil, Z.add_0_r. tauto.
  - rewrite IH, len_cons. replace (i + (len l1 + 1)) with (i + 1 + len l1) by lia. tauto.
Qed.
Lemma gets_index pre l post : gets (index (pre ++ l ++ post)) (len pre) l.
Proof.
  revert pre; induction l as [|b l IH]; intros pre; [easy|]. cbn [gets app]. split.
  - now apply index_app.
  - specialize (IH (pre ++ [b])). rewrite <- app_assoc in IH. cbn [app] in IH.
    rewrite len_app, len_cons, len_nil in IH. now replace (len pre + (0 + 1)) with (len pre + 1) in IH by lia.
Qed.

Definition opcode (f0 f1 f2 f3 f4 f5 f6 : bool) : Z :=
  128 + flag f0 1 + flag f1 2 + flag f2 4 + flag f3 8 + flag f4 16 + flag f5 32 + flag f6 64.
Lemma opcode_bits f0 f1 f2 f3 f4 f5 f6 : let c := opcode f0 f1 f2 f3 f4 f5 f6 in
  (Z.land c 1 =? 0) = negb f0 /\ (Z.land c 2 =? 0) = negb f1 /\ (Z.land c 4 =? 0) = negb f2 /\
  (Z.land c 8 =? 0) = negb f3 /\ (Z.land c 16 =? 0) = negb f4 /\ (Z.land c 32 =? 0) = negb f5 /\
  (Z.land c 64 =? 0) = negb f6 /\ (Z.land c 128 =? 0) = false /\ 128 <= c < 256.
Proof. destruct f0, f1, f2, f3, f4, f5, f6; cbn; repeat split; lia. Qed.

Lemma opt_arg_ok get c fl sh acc i f b :
  gets get i (arg f b) -> (Z.land c fl =? 0) = negb f -> absent_zero f b -> is_byte b ->
  0 <= sh -> 0 <= acc < 2 ^ sh ->
  opt_arg get c fl sh acc i = Ok (acc + b * 2 ^ sh, i + len (arg f b)).
Proof.
  intros Hg Hf Ha Hb Hs Hacc. unfold opt_arg. rewrite Hf. destruct f; cbn [negb arg] in *.
  - destruct Hg as [-> _]. cbn [bind]. rewrite lor_disjoint_add, Z.shiftl_mul_pow2 by lia. easy.
  - rewrite (Ha eq_refl), len_nil. f_equal. f_equal; lia.
Qed.

Lemma parse_copy_ok get i f0 f1 f2 f3 f4 f5 f6 o0 o1 o2 o3 s0 s1 s2 :
  is_bytes [o0; o1; o2; o3; s0; s1; s2] ->
  absent_zero f0 o0 -> absent_zero f1 o1 -> absent_zero f2 o2 -> absent_zero f3 o3 ->
  absent_zero f4 s0 -> absent_zero f5 s1 -> absent_zero f6 s2 ->
  let args := arg f0 o0 ++ arg f1 o1 ++ arg f2 o2 ++ arg f3 o3 ++ arg f4 s0 ++ arg f5 s1 ++ arg f6 s2 in
  gets get i args ->
  parse_copy get (opcode f0 f1 f2 f3 f4 f5 f6) i =
  Ok (o0 + 256 * o1 + 65536 * o2 + 16777216 * o3,
      (if s0 + 256 * s1 + 65536 * s2 =? 0 then 65536 else s0 + 256 * s1 + 65536 * s2),
      i + len args).
Proof.
  intros Hb A0 A1 A2 A3 A4 A5 A6 args Hg. subst args.
  destruct (opcode_bits f0 f1 f2 f3 f4 f5 f6) as (B0 & B1 & B2 & B3 & B4 & B5 & B6 & _).
  rewrite !gets_app in Hg. destruct Hg as (G0 & G1 & G2 & G3 & G4 & G5 & G6).
  unfold is_bytes in Hb. repeat rewrite Forall_cons_iff in Hb. unfold is_byte in Hb.
  destruct Hb as (H0 & H1 & H2 & H3 & H4 & H5 & H6 & _).
  unfold parse_copy.
  rewrite (opt_arg_ok get _ 1 0 0 i f0 o0) by (easy || lia). cbn [bind]. change (2 ^ 0) with 1.
  rewrite (opt_arg_ok get _ 2 8 _ _ f1 o1) by (easy || change (2 ^ 8) with 256; lia). cbn [bind].
  rewrite (opt_arg_ok get _ 4 16 _ _ f2 o2) by (easy || change (2 ^ 16) with 65536; change (2 ^ 8) with 256; lia). cbn [bind].
  rewrite (opt_arg_ok get _ 8 24 _ _ f3 o3) by (easy || change (2 ^ 24) with 16777216; change (2 ^ 16) with 65536; change (2 ^ 8) with 256; lia). cbn [bind].
  rewrite (opt_arg_ok get _ 16 0 0 _ f4 s0) by (easy || lia). cbn [bind].
  rewrite (opt_arg_ok get _ 32 8 _ _ f5 s1) by (easy || change (2 ^ 0) with 1; change (2 ^ 8) with 256; lia). cbn [bind].
  rewrite (opt_arg_ok get _ 64 16 _ _ f6 s2) by (easy || change (2 ^ 0) with 1; change (2 ^ 16) with 65536; change (2 ^ 8) with 256; lia). cbn [bind].
  change (2 ^ 0) with 1; change (2 ^ 24) with 16777216; change (2 ^ 16) with 65536; change (2 ^ 8) with 256.
  rewrite !len_app.
  f_equal. f_equal. f_equal.
  all: try lia.
  now replace (0 + s0 * 1 + s1 * 256 + s2 * 65536) with (s0 + 256 * s1 + 65536 * s2) by ring.
Qed.

(** Sequential writes *)
Fixpoint write_seq {W} (write : W -> bytes -> res W) (w : W) (l : list bytes) : res W :=
  match l with [] => Ok w | d :: l' => let! w := write w d in write_seq write w l' end.

Lemma op_enc_nonempty op b : op_enc op b -> 1 <= len b.
Proof. intros H; destruct H; rewrite len_cons; match goal with |- 1 <= len ?l + 1 => pose proof (len_nonneg _ l) end; lia. Qed.
Lemma ops_enc_app ops1 e1 ops2 e2 : ops_enc ops1 e1 -> ops_enc ops2 e2 -> ops_enc (ops1 ++ ops2) (e1 ++ e2).
Proof. induction 1; intros H2; cbn [app]; [easy|]. rewrite <- app_assoc. constructor; auto. Qed.

Lemma slice_op_bytes src off size : 0 <= off -> 0 <= size ->
  slice src off (off + size) = op_bytes src (Copy off size).
Proof. intros. cbn [op_bytes]. rewrite slice_spec by lia. f_equal. lia. Qed.

Lemma copy_size_pos s0 s1 s2 : is_byte s0 -> is_byte s1 -> is_byte s2 ->
  1 <= (if s0 + 256 * s1 + 65536 * s2 =? 0 then 65536 else s0 + 256 * s1 + 65536 * s2).
Proof. unfold is_byte. intros. destruct (Z.eqb_spec (s0 + 256 * s1 + 65536 * s2) 0); lia. Qed.

Lemma apply_loop_ok {W} (write : W -> bytes -> res W) src n ops e : ops_enc ops e ->
  Forall (op_inside n) ops -> forall fuel pre w, (length e <= fuel)%nat ->
  apply_loop write fuel src n (pre ++ e) (len (pre ++ e)) (len pre) w =
  let! w' := write_seq write w (map (op_bytes src) ops) in Ok (len (pre ++ e), w').
Proof.
  induction 1 as [|op ops b bs Hop Hops IH]; intros Hin fuel pre w Hf.
  - rewrite app_nil_r. destruct fuel; cbn [apply_loop map write_seq bind];
    rewrite Z.ltb_irrefl; easy.
  - inversion Hin as [|? ? Hi Hin']; subst.
    pose proof (op_enc_nonempty _ _ Hop) as Hb1.
    assert (len pre <? len (pre ++ b ++ bs) = true) as Hlt
      by (rewrite !len_app; pose proof (len_nonneg _ bs); lia).
    destruct fuel as [|f].
    { destruct b; [rewrite len_nil in Hb1; lia|simpl in Hf; lia]. }
    cbn [apply_loop]. rewrite Hlt.
    destruct Hop as [d Hd Hdb|f0 f1 f2 f3 f4 f5 f6 o0 o1 o2 o3 s0 s1 s2 Hb A0 A1 A2 A3 A4 A5 A6].
    + cbn [app]. rewrite index_app by easy. cbn [bind].
      rewrite land_128_small by lia. cbn [negb].
      replace (len d =? 0) with false by lia. cbn [negb].
      rewrite (app_assoc pre [len d] (d ++ bs) : pre ++ len d :: d ++ bs = (pre ++ [len d]) ++ d ++ bs).
      rewrite slice_mid by (rewrite len_app, len_cons, len_nil; lia).
      cbn [map write_seq op_bytes]. destruct (write w d) as [w1| |]; cbn [bind]; try easy.
      replace (len pre + 1 + len d) with (len ((pre ++ [len d]) ++ d))
        by (rewrite !len_app, len_cons, len_nil; lia).
      rewrite (app_assoc (pre ++ [len d]) d bs). apply IH; [easy|].
      rewrite app_length in Hf. simpl in Hf. lia.
    + set (args := arg f0 o0 ++ arg f1 o1 ++ arg f2 o2 ++ arg f3 o3 ++ arg f4 s0 ++ arg f5 s1 ++ arg f6 s2) in *.
      fold (opcode f0 f1 f2 f3 f4 f5 f6). fold (opcode f0 f1 f2 f3 f4 f5 f6) in Hlt.
      cbn [app]. rewrite index_app by easy. cbn [bind].
      destruct (opcode_bits f0 f1 f2 f3 f4 f5 f6) as (_ & _ & _ & _ & _ & _ & _ & -> & _).
      cbn [negb].
      set (c := opcode f0 f1 f2 f3 f4 f5 f6).
      rewrite (app_assoc pre [c] (args ++ bs) : pre ++ c :: args ++ bs = (pre ++ [c]) ++ args ++ bs).
      replace (len pre + 1) with (len (pre ++ [c])) by (rewrite len_app, len_cons, len_nil; lia).
      unfold c at 3. rewrite (parse_copy_ok _ _ f0 f1 f2 f3 f4 f5 f6 o0 o1 o2 o3 s0 s1 s2) by (easy || apply gets_index).
      cbn [bind]. fold args. fold c.
      cbn [op_inside] in Hi.
      set (off := o0 + 256 * o1 + 65536 * o2 + 16777216 * o3) in *.
      assert (1 <= (if s0 + 256 * s1 + 65536 * s2 =? 0 then 65536 else s0 + 256 * s1 + 65536 * s2)) as Hsz.
      { unfold is_bytes in Hb. repeat rewrite Forall_cons_iff in Hb. apply copy_size_pos; tauto. }
      set (sz := if s0 + 256 * s1 + 65536 * s2 =? 0 then 65536 else s0 + 256 * s1 + 65536 * s2) in *.
      replace ((off + sz <? sz) || (n <? off + sz)) with false by lia.
      rewrite slice_op_bytes by lia. cbn [map write_seq].
      destruct (write w (op_bytes src (Copy off sz))) as [w1| |]; cbn [bind]; try easy.
      replace (len (pre ++ [c]) + len args) with (len ((pre ++ [c]) ++ args)) by now rewrite !len_app.
      rewrite (app_assoc (pre ++ [c]) args bs). apply IH; [easy|].
      rewrite app_length in Hf. simpl in Hf. lia.
Qed.

Lemma apply_delta_data_seq {W} (write : W -> bytes -> res W) src n ops e w : ops_enc ops e ->
  Forall (op_inside n) ops ->
  apply_delta_data write src n e (len e) w = write_seq write w (map (op_bytes src) ops).
Proof.
  intros He Hin. unfold apply_delta_data.
  pose proof (apply_loop_ok write src n ops e He Hin (Z.to_nat (len e)) [] w) as H.
  cbn [app] in H. rewrite len_nil in H. rewrite H by (unfold len; lia).
  destruct (write_seq write w _); cbn [bind]; [|easy|easy].
  unfold py_assert. now rewrite Z.eqb_refl.
Qed.

(** ** Writers that accept everything *)
Lemma write_seq_accepting {W} (write : W -> bytes -> res W) out : accepting write out ->
  forall l w, exists w', write_seq write w l = Ok w' /\ out w' = out w ++ concat l.
Proof.
  intros HW. induction l as [|d l IH]; intros w; cbn [write_seq concat].
  - exists w. now rewrite app_nil_r.
  - destruct (HW w d) as (w1 & -> & H1). cbn [bind].
    destruct (IH w1) as (w2 & -> & H2). exists w2. now rewrite H2, H1, <- app_assoc.
Qed.
Lemma apply_delta_data_meaning {W} (write : W -> bytes -> res W) out : accepting write out ->
  forall src ops e w, ops_enc ops e -> Forall (op_inside (len src)) ops ->
  exists w', apply_delta_data write src (len src) e (len e) w = Ok w' /\
    out w' = out w ++ ops_bytes src ops.
Proof.
  intros HW src ops e w He Hin. rewrite (apply_delta_data_seq _ _ _ ops) by easy.
  apply (write_seq_accepting write out HW).
Qed.

(** ** What a normal return implies *)
Lemma skipn_index (db : bytes) i b : 0 <= i -> index db i = Ok b ->
  skipn (Z.to_nat i) db = b :: skipn (Z.to_nat (i + 1)) db /\ i < len db.
Proof.
  intros Hi H. apply index_ok_split in H as (a & r & -> & Ha); [|easy].
  split.
  - replace (Z.to_nat i) with (length a) by (unfold len in *; lia).
    replace (Z.to_nat (i + 1)) with (length (a ++ [b])) by (rewrite app_length; simpl; unfold len in *; lia).
    rewrite skipn_app, skipn_all, Nat.sub_diag. cbn [app skipn].
    replace (a ++ b :: r) with ((a ++ [b]) ++ r) by now rewrite <- app_assoc.
    rewrite skipn_app, skipn_all, Nat.sub_diag. easy.
  - rewrite len_app, len_cons. pose proof (len_nonneg _ r). lia.
Qed.

Lemma opt_arg_inv db c fl sh acc i acc' i' : is_bytes db -> 0 <= i <= len db ->
  0 <= sh -> 0 <= acc < 2 ^ sh ->
  opt_arg (index db) c fl sh acc i = Ok (acc', i') ->
  exists b, let f := negb (Z.land c fl =? 0) in
    absent_zero f b /\ is_byte b /\ acc' = acc + b * 2 ^ sh /\ i' = i + len (arg f b) /\
    skipn (Z.to_nat i) db = arg f b ++ skipn (Z.to_nat i') db /\ i' <= len db.
Proof.
  intros Hd Hi Hs Ha. unfold opt_arg. destruct (Z.land c fl =? 0) eqn:E; cbn [negb arg].
  - intros H; injection H as <- <-. exists 0. rewrite len_nil, Z.add_0_r.
    repeat split; try easy; lia.
  - intros H. apply bind_ok_inv in H as (b & Hb & H). injection H as <- <-.
    apply skipn_index in Hb as [Hb Hl]; [|lia].
    exists b. assert (is_byte b) as Hbb.
    { apply (is_bytes_skipn (Z.to_nat i)) in Hd. rewrite Hb in Hd. now apply is_bytes_cons in Hd. }
    rewrite lor_disjoint_add, Z.shiftl_mul_pow2 by lia.
    repeat split; try easy; try (unfold is_byte in Hbb; lia); rewrite ?len_cons, ?len_nil; lia.
Qed.

Lemma opcode_decompose c : 128 <= c < 256 ->
  c = opcode (negb (Z.land c 1 =? 0)) (negb (Z.land c 2 =? 0)) (negb (Z.land c 4 =? 0))
        (negb (Z.land c 8 =? 0)) (negb (Z.land c 16 =? 0)) (negb (Z.land c 32 =? 0))
        (negb (Z.land c 64 =? 0)).
Proof.
  intros Hc.
  assert (forallb (fun k => let c := Z.of_nat k in
    c =? opcode (negb (Z.land c 1 =? 0)) (negb (Z.land c 2 =? 0)) (negb (Z.land c 4 =? 0))
        (negb (Z.land c 8 =? 0)) (negb (Z.land c 16 =? 0)) (negb (Z.land c 32 =? 0))
        (negb (Z.land c 64 =? 0))) (seq 128 128) = true) as H by (vm_compute; reflexivity).
  rewrite forallb_forall in H. specialize (H (Z.to_nat c)). cbv zeta in H.
  rewrite Z2Nat.id in H by lia. apply Z.eqb_eq, H. apply in_seq. lia.
Qed.

Lemma parse_copy_inv db c i off size i' : is_bytes db -> 0 <= i <= len db -> 128 <= c < 256 ->
  parse_copy (index db) c i = Ok (off, size, i') ->
  exists args, op_enc (Copy off size) (c :: args) /\ i' = i + len args /\
    skipn (Z.to_nat i) db = args ++ skipn (Z.to_nat i') db /\ i' <= len db /\ 0 <= off /\ 1 <= size.
Proof.
  intros Hd Hi Hc H. unfold parse_copy in H.
  apply bind_ok_inv in H as ([a0 i0] & E0 & H).
  apply opt_arg_inv in E0 as (o0 & A0 & B0 & V0 & I0 & S0 & L0); try easy; try lia.
  apply bind_ok_inv in H as ([a1 i1] & E1 & H). change (2 ^ 0) with 1 in *.
  unfold is_byte in B0.
  assert (0 <= i0) by (pose proof (len_nonneg _ (arg (negb (Z.land c 1 =? 0)) o0)); lia).
  apply opt_arg_inv in E1 as (o1 & A1 & B1 & V1 & I1 & S1 & L1); try easy; try (change (2 ^ 8) with 256; lia).
  apply bind_ok_inv in H as ([a2 i2] & E2 & H). change (2 ^ 8) with 256 in *. unfold is_byte in B1.
  assert (0 <= i1) by (pose proof (len_nonneg _ (arg (negb (Z.land c 2 =? 0)) o1)); lia).
  apply opt_arg_inv in E2 as (o2 & A2 & B2 & V2 & I2 & S2 & L2); try easy; try (change (2 ^ 16) with 65536; lia).
  apply bind_ok_inv in H as ([a3 i3] & E3 & H). change (2 ^ 16) with 65536 in *. unfold is_byte in B2.
  assert (0 <= i2) by (pose proof (len_nonneg _ (arg (negb (Z.land c 4 =? 0)) o2)); lia).
  apply opt_arg_inv in E3 as (o3 & A3 & B3 & V3 & I3 & S3 & L3); try easy; try (change (2 ^ 24) with 16777216; lia).
  apply bind_ok_inv in H as ([a4 i4] & E4 & H). change (2 ^ 24) with 16777216 in *. unfold is_byte in B3.
  assert (0 <= i3) by (pose proof (len_nonneg _ (arg (negb (Z.land c 8 =? 0)) o3)); lia).
  apply opt_arg_inv in E4 as (s0 & A4 & B4 & V4 & I4 & S4 & L4); try easy; try lia.
  apply bind_ok_inv in H as ([a5 i5] & E5 & H). change (2 ^ 0) with 1 in *. unfold is_byte in B4.
  assert (0 <= i4) by (pose proof (len_nonneg _ (arg (negb (Z.land c 16 =? 0)) s0)); lia).
  apply opt_arg_inv in E5 as (s1 & A5 & B5 & V5 & I5 & S5 & L5); try easy; try (change (2 ^ 8) with 256; lia).
  apply bind_ok_inv in H as ([a6 i6] & E6 & H). change (2 ^ 8) with 256 in *. unfold is_byte in B5.
  assert (0 <= i5) by (pose proof (len_nonneg _ (arg (negb (Z.land c 32 =? 0)) s1)); lia).
  apply opt_arg_inv in E6 as (s2 & A6 & B6 & V6 & I6 & S6 & L6); try easy; try (change (2 ^ 16) with 65536; lia).
  change (2 ^ 16) with 65536 in *. unfold is_byte in B6.
  injection H as Hoff Hsize Hi'.
  set (f0 := negb (Z.land c 1 =? 0)) in *. set (f1 := negb (Z.land c 2 =? 0)) in *.
  set (f2 := negb (Z.land c 4 =? 0)) in *. set (f3 := negb (Z.land c 8 =? 0)) in *.
  set (f4 := negb (Z.land c 16 =? 0)) in *. set (f5 := negb (Z.land c 32 =? 0)) in *.
  set (f6 := negb (Z.land c 64 =? 0)) in *.
  exists (arg f0 o0 ++ arg f1 o1 ++ arg f2 o2 ++ arg f3 o3 ++ arg f4 s0 ++ arg f5 s1 ++ arg f6 s2).
  assert (off = o0 + 256 * o1 + 65536 * o2 + 16777216 * o3) as -> by lia.
  assert (a6 = s0 + 256 * s1 + 65536 * s2) as Ha6 by lia.
  rewrite Ha6 in Hsize. subst size.
  split; [|split; [|split; [|split; [|split]]]].
  - rewrite (opcode_decompose c Hc) at 1. fold f0 f1 f2 f3 f4 f5 f6.
    apply enc_copy; try easy.
    repeat (constructor; [easy|]). constructor.
  - rewrite !len_app. lia.
  - rewrite <- !app_assoc. rewrite S0, S1, S2, S3, S4, S5, S6. now rewrite Hi'.
  - lia.
  - lia.
  - apply copy_size_pos; easy.
Qed.


Lemma apply_loop_inv src n db : is_bytes db -> forall fuel i w i' w',
  0 <= i <= len db ->
  apply_loop collect fuel src n db (len db) i w = Ok (i', w') -> i' = len db ->
  exists ops, w' = w ++ ops_bytes src ops /\ Forall (op_inside n) ops /\
    (ops_enc ops (skipn (Z.to_nat i) db) \/
     exists off size, ops_enc (ops ++ [Copy off size]) (skipn (Z.to_nat i) db) /\
       ~ op_inside n (Copy off size)).
Proof.
  intros Hd. induction fuel as [|f IH]; intros i w i' w' Hi H He; cbn [apply_loop] in H.
  - destruct (Z.ltb_spec i (len db)); [discriminate|]. injection H as <- <-.
    exists []. cbn. rewrite app_nil_r. repeat split; [constructor|].
    left. rewrite skipn_all2 by (unfold len in *; lia). constructor.
  - destruct (Z.ltb_spec i (len db)) as [Hlt|Hge].
    2:{ injection H as <- <-.
        exists []. cbn. rewrite app_nil_r. repeat split; [constructor|].
        left. rewrite skipn_all2 by (unfold len in *; lia). constructor. }
    apply bind_ok_inv in H as (c & Hc & H).
    apply skipn_index in Hc as [Hsk _]; [|lia].
    assert (0 <= c < 256) as Hcb.
    { pose proof (is_bytes_skipn (Z.to_nat i) db Hd) as Hb. rewrite Hsk in Hb.
      apply is_bytes_cons in Hb as [Hb _]. exact Hb. }
    destruct (Z.lt_ge_cases c 128) as [Hc1|Hc1].
    + rewrite land_128_small in H by lia. cbn [negb] in H.
      destruct (Z.eqb_spec c 0) as [->|Hc0]; cbn [negb] in H; [discriminate|].
      cbn [collect bind] in H.
      destruct (Z.lt_ge_cases (len db) (i + 1 + c)) as [Hover|Hin].
      * (* truncated insert: the position ends up past the end *)
        exfalso. destruct f; cbn [apply_loop] in H;
        (replace (i + 1 + c <? len db) with false in H by lia); injection H as H1 _; lia.
      * assert (slice db (i + 1) (i + 1 + c) = firstn (Z.to_nat c) (skipn (Z.to_nat (i + 1)) db)) as Hs.
        { rewrite slice_spec by lia. f_equal. lia. }
        apply IH in H as (ops & -> & Hops & Henc); [|lia|easy].
        set (d := slice db (i + 1) (i + 1 + c)) in *.
        assert (len d = c) as Hld by (subst d; rewrite len_slice; lia).
        assert (skipn (Z.to_nat i) db = (len d :: d) ++ skipn (Z.to_nat (i + 1 + c)) db) as Hspl.
        { rewrite Hsk, Hld. cbn [app]. f_equal. rewrite Hs.
          replace (Z.to_nat (i + 1 + c)) with (Z.to_nat c + Z.to_nat (i + 1))%nat by lia.
          rewrite <- skipn_skipn. symmetry. apply firstn_skipn. }
        assert (op_enc (Insert d) (len d :: d)) as Hop.
        { constructor; [lia|]. subst d. rewrite Hs. apply is_bytes_firstn, is_bytes_skipn, Hd. }
        exists (Insert d :: ops). split; [|split].
        -- cbn [ops_bytes map concat op_bytes]. now rewrite <- app_assoc.
        -- now constructor.
        -- rewrite Hspl. destruct Henc as [Henc|(off & size & Henc & Hbad)].
           ++ left. now constructor.
           ++ right. exists off, size. split; [|easy]. now constructor.
    + rewrite land_128_big in H by lia. cbn [negb] in H.
      apply bind_ok_inv in H as ([[off size] j] & Hp & H).
      apply parse_copy_inv in Hp as (args & Hop & Hj & Hsk2 & Hjl & Hoff & Hsize); try easy; try lia.
      pose proof (len_nonneg _ args).
      destruct ((off + size <? size) || (n <? off + size)) eqn:Eb.
      * injection H as <- <-. subst j.
        exists []. cbn [ops_bytes map concat]. rewrite app_nil_r. repeat split; [constructor|].
        right. exists off, size. split.
        -- rewrite Hsk, Hsk2. rewrite He, (skipn_all2 db) by (unfold len; lia).
           cbn [app]. rewrite app_nil_r. rewrite <- (app_nil_r (c :: args)). repeat constructor. easy.
        -- cbn [op_inside]. lia.
      * cbn [collect bind] in H. rewrite slice_op_bytes in H by lia.
        apply IH in H as (ops & -> & Hops & Henc); [|lia|easy].
        exists (Copy off size :: ops). split; [|split].
        -- cbn [ops_bytes map concat]. now rewrite <- app_assoc.
        -- constructor; [|easy]. cbn [op_inside]. lia.
        -- rewrite Hsk, Hsk2.
           change (c :: args ++ skipn (Z.to_nat j) db) with ((c :: args) ++ skipn (Z.to_nat j) db).
           destruct Henc as [Henc|(off' & size' & Henc & Hbad)].
           ++ left. now constructor.
           ++ right. exists off', size'. split; [|easy]. now apply (enc_cons _ (ops ++ [Copy off' size'])).
Qed.

Lemma apply_delta_data_inv src n db w' : is_bytes db ->
  apply_delta_data collect src n db (len db) [] = Ok w' ->
  exists ops, w' = ops_bytes src ops /\ Forall (op_inside n) ops /\
    (ops_enc ops db \/
     exists off size, ops_enc (ops ++ [Copy off size]) db /\ ~ op_inside n (Copy off size)).
Proof.
  intros Hd H. unfold apply_delta_data in H. apply bind_ok_inv in H as ([i w] & H1 & H2).
  unfold py_assert in H2. destruct (Z.eqb_spec i (len db)) as [->|]; [|discriminate].
  injection H2 as <-.
  apply apply_loop_inv in H1; try easy; pose proof (len_nonneg _ db); lia.
Qed.
(** The whole accepted set, exactly. *)
Lemma apply_loop_never_diverges {W} (write : W -> bytes -> res W) src n db :
  (forall w d, write w d <> Diverge) ->
  forall fuel i w, len db - i <= Z.of_nat fuel -> 0 <= i -> is_bytes db ->
  apply_loop write fuel src n db (len db) i w <> Diverge.
Proof.
  intros Hw. induction fuel as [|f IH]; intros i w Hf Hi Hd; cbn [apply_loop].
  - replace (i <? len db) with false by lia. easy.
  - destruct (Z.ltb_spec i (len db)); [|easy].
    destruct (index db i) as [c| |] eqn:Ec; cbn [bind]; try easy.
    2:{ unfold index in Ec. destruct (_ && _); [|easy]. now destruct (nth_error _ _). }
    destruct (negb (Z.land c 128 =? 0)).
    + destruct (parse_copy (index db) c (i + 1)) as [[[off sz] j]| |] eqn:Ep; cbn [bind]; try easy.
      * destruct (_ || _); [easy|].
        destruct (write w _) as [w1| |] eqn:Ew; cbn [bind]; [|easy|now elim (Hw _ _ Ew)].
        apply IH; try easy; [|].
        -- assert (i + 1 <= j); [|lia].
           clear - Ep. unfold parse_copy in Ep.
           assert (forall fl sh acc i a j, opt_arg (index db) c fl sh acc i = Ok (a, j) -> i <= j) as Hm.
           { intros fl sh acc i0 a j0. unfold opt_arg. destruct (_ =? 0).
             - intros H; injection H as <- <-; lia.
             - destruct (index db i0); cbn [bind]; try discriminate. intros H; injection H as <- <-; lia. }
           repeat (apply bind_ok_inv in Ep as ([? ?] & ?E & Ep)).
           injection Ep as _ _ <-.
           repeat match goal with H : opt_arg _ _ _ _ _ _ = Ok _ |- _ => apply Hm in H end. lia.
        -- assert (i + 1 <= j); [|lia].
           clear - Ep. unfold parse_copy in Ep.
           assert (forall fl sh acc i a j, opt_arg (index db) c fl sh acc i = Ok (a, j) -> i <= j) as Hm.
           { intros fl sh acc i0 a j0. unfold opt_arg. destruct (_ =? 0).
             - intros H; injection H as <- <-; lia.
             - destruct (index db i0); cbn [bind]; try discriminate. intros H; injection H as <- <-; lia. }
           repeat (apply bind_ok_inv in Ep as ([? ?] & ?E & Ep)).
           injection Ep as _ _ <-.
           repeat match goal with H : opt_arg _ _ _ _ _ _ = Ok _ |- _ => apply Hm in H end. lia.
      * exfalso. clear - Ep. unfold parse_copy in Ep.
        assert (forall fl sh acc i, opt_arg (index db) c fl sh acc i <> Diverge) as Hm.
        { intros fl sh acc i0. unfold opt_arg. destruct (_ =? 0); [easy|].
          unfold index. destruct (_ && _); [|easy]. now destruct (nth_error _ _). }
        repeat match type of Ep with
        | context [opt_arg ?g ?c ?fl ?sh ?acc ?i] =>
            destruct (opt_arg g c fl sh acc i) as [[? ?]| |] eqn:?E; cbn [bind] in Ep;
            [|discriminate|now elim (Hm fl sh acc i)] end.
        discriminate.
    + destruct (Z.eqb_spec c 0); cbn [negb]; [easy|].
      destruct (write w _) as [w1| |] eqn:Ew; cbn [bind]; [|easy|now elim (Hw _ _ Ew)].
      assert (0 <= c).
      { apply skipn_index in Ec as [E _]; [|lia].
        apply (is_bytes_skipn (Z.to_nat i)) in Hd. rewrite E in Hd.
        apply is_bytes_cons in Hd as [Hd _]. unfold is_byte in Hd. lia. }
      apply IH; try easy; lia.
Qed.
Lemma apply_delta_data_terminates {W} (write : W -> bytes -> res W) src n db w :
  (forall w d, write w d <> Diverge) -> is_bytes db ->
  apply_delta_data write src n db (len db) w <> Diverge.
Proof.
  intros Hw Hd. unfold apply_delta_data.
  pose proof (apply_loop_never_diverges write src n db Hw (Z.to_nat (len db)) 0 w) as H.
  destruct (apply_loop _ _ _ _ _ _ _ _) as [[i w1]| |]; cbn [bind]; try easy.
  - unfold py_assert. now destruct (_ =? _).
  - exfalso. apply H; try easy. pose proof (len_nonneg _ db). lia.
Qed.

Lemma op_bytes_pos src op b : op_enc op b -> op_inside (len src) op -> 1 <= len (op_bytes src op).
Proof.
  intros Hop Hin. destruct Hop; cbn [op_bytes op_inside] in *; [lia|].
  unfold is_bytes in H. repeat rewrite Forall_cons_iff in H.
  assert (1 <= (if s0 + 256 * s1 + 65536 * s2 =? 0 then 65536 else s0 + 256 * s1 + 65536 * s2)) as Hp
    by (apply copy_size_pos; tauto).
  set (sz := if s0 + 256 * s1 + 65536 * s2 =? 0 then 65536 else s0 + 256 * s1 + 65536 * s2) in *.
  rewrite len_firstn, len_skipn. lia.
Qed.
Lemma ops_bytes_nil src ops e : ops_enc ops e -> Forall (op_inside (len src)) ops ->
  ops_bytes src ops = [] -> e = [].
Proof.
  intros He Hin H. destruct He as [|op ops b bs Hop Hops]; [easy|]. inversion Hin; subst.
  pose proof (op_bytes_pos src op b Hop) as Hp. unfold ops_bytes in H. cbn [map concat] in H.
  apply app_eq_nil in H as [H _]. rewrite H, len_nil in Hp. specialize (Hp H2). lia.
Qed.
Lemma last_copy_out_of_range_accepted :
  exists (src delta out : bytes),
    is_bytes src /\ is_bytes delta /\
    apply_delta_data collect src (len src) delta (len delta) [] = Ok out /\
    ~ exists ops, ops_enc ops delta /\ Forall (op_inside (len src)) ops.
Proof.
  exists [97; 98], [144; 5], [].
  split; [repeat constructor; unfold is_byte; lia|].
  split; [repeat constructor; unfold is_byte; lia|].
  split; [vm_compute; reflexivity|].
  intros (ops & He & Hin).
  destruct (apply_delta_data_meaning collect (fun w => w) (fun w d => ex_intro _ (w ++ d) (conj eq_refl eq_refl))
     [97; 98] ops _ [] He Hin) as (w & H2 & H3).
  assert (apply_delta_data collect [97; 98] (len [97; 98]) [144; 5] (len [144; 5]) [] = Ok []) as H1 by (vm_compute; reflexivity).
  rewrite H1 in H2. injection H2 as <-. symmetry in H3.
  pose proof (ops_bytes_nil _ _ _ He Hin H3). discriminate.
Qed.
