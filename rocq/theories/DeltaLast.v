(** A copy that is outside the source, as the last instruction: it is dropped (C07). *)
From Coq Require Import ZifyBool ZifyNat.
From Verif Require Import Py PyFacts FunModel FunSpec FunProofs DeltaModel DeltaSpec DeltaProofs.

Lemma apply_loop_last {W} (write : W -> bytes -> res W) src n off size e0 ops e : op_enc (Copy off size) e0 -> ~ op_inside n (Copy off size) -> ops_enc ops e ->
  Forall (op_inside n) ops -> forall fuel pre w, (length (e ++ e0) <= fuel)%nat ->
  apply_loop write fuel src n (pre ++ e ++ e0) (len (pre ++ e ++ e0)) (len pre) w =
  let! w' := write_seq write w (map (op_bytes src) ops) in Ok (len (pre ++ e ++ e0), w').
Proof.
  intros H0 Hout. induction 1 as [|op ops b bs Hop Hops IH]; intros Hin fuel pre w Hf.
  - cbn [app map write_seq bind] in *. pose proof (op_enc_nonempty _ _ H0) as Hb1. destruct fuel as [|f]; [unfold len in *; lia|]. cbn [apply_loop].
    replace (len pre <? len (pre ++ e0)) with true by (rewrite len_app; lia).
    remember (Copy off size) as op eqn:Eop. destruct H0 as [d Hd Hdb|f0 f1 f2 f3 f4 f5 f6 o0 o1 o2 o3 s0 s1 s2 Hb A0 A1 A2 A3 A4 A5 A6]; [discriminate|]. clear Eop.
    set (args := arg f0 o0 ++ arg f1 o1 ++ arg f2 o2 ++ arg f3 o3 ++ arg f4 s0 ++ arg f5 s1 ++ arg f6 s2) in *.
    fold (opcode f0 f1 f2 f3 f4 f5 f6). rewrite index_app by easy. cbn [bind].
    destruct (opcode_bits f0 f1 f2 f3 f4 f5 f6) as (_ & _ & _ & _ & _ & _ & _ & -> & _). cbn [negb]. set (c := opcode f0 f1 f2 f3 f4 f5 f6).
    replace (pre ++ c :: args) with ((pre ++ [c]) ++ args ++ []) by (now rewrite app_nil_r, <- app_assoc).
    replace (len pre + 1) with (len (pre ++ [c])) by (rewrite len_app, len_cons, len_nil; lia).
    unfold c at 2. rewrite (parse_copy_ok _ _ f0 f1 f2 f3 f4 f5 f6 o0 o1 o2 o3 s0 s1 s2) by (easy || apply gets_index).
    cbn [bind]. fold args. cbn [op_inside] in Hout.
    unfold is_bytes in Hb. repeat rewrite Forall_cons_iff in Hb. unfold is_byte in Hb.
    set (sz := if s0 + 256 * s1 + 65536 * s2 =? 0 then 65536 else s0 + 256 * s1 + 65536 * s2) in *.
    set (o := o0 + 256 * o1 + 65536 * o2 + 16777216 * o3) in *. assert (0 <= o) by (subst o; lia).
    replace ((o + sz <? sz) || (n <? o + sz)) with true by lia. rewrite !app_nil_r. f_equal. f_equal. rewrite !len_app, !len_cons, !len_nil. lia.
  - inversion Hin as [|? ? Hi Hin']; subst.
    pose proof (op_enc_nonempty _ _ Hop) as Hb1.
    rewrite <- (app_assoc b bs e0) in *.
    assert (len pre <? len (pre ++ b ++ bs ++ e0) = true) as Hlt
      by (rewrite !len_app; pose proof (len_nonneg _ bs); pose proof (len_nonneg _ e0); lia).
    destruct fuel as [|f].
    { destruct b; [rewrite len_nil in Hb1; lia|simpl in Hf; lia]. }
    cbn [apply_loop]. rewrite Hlt.
    destruct Hop as [d Hd Hdb|f0 f1 f2 f3 f4 f5 f6 o0 o1 o2 o3 s0 s1 s2 Hb A0 A1 A2 A3 A4 A5 A6].
    + cbn [app]. rewrite index_app by easy. cbn [bind].
      rewrite land_128_small by lia. cbn [negb].
      replace (len d =? 0) with false by lia. cbn [negb].
      rewrite (app_assoc pre [len d] (d ++ bs ++ e0) : pre ++ len d :: d ++ bs ++ e0 = (pre ++ [len d]) ++ d ++ bs ++ e0).
      rewrite slice_mid by (rewrite len_app, len_cons, len_nil; lia).
      cbn [map write_seq op_bytes]. destruct (write w d) as [w1| |]; cbn [bind]; try easy.
      replace (len pre + 1 + len d) with (len ((pre ++ [len d]) ++ d))
        by (rewrite !len_app, len_cons, len_nil; lia).
      rewrite (app_assoc (pre ++ [len d]) d (bs ++ e0)). apply IH; [easy|].
      rewrite app_length in Hf. simpl in Hf. lia.
    + set (args := arg f0 o0 ++ arg f1 o1 ++ arg f2 o2 ++ arg f3 o3 ++ arg f4 s0 ++ arg f5 s1 ++ arg f6 s2) in *.
      fold (opcode f0 f1 f2 f3 f4 f5 f6). fold (opcode f0 f1 f2 f3 f4 f5 f6) in Hlt.
      cbn [app]. rewrite index_app by easy. cbn [bind].
      destruct (opcode_bits f0 f1 f2 f3 f4 f5 f6) as (_ & _ & _ & _ & _ & _ & _ & -> & _).
      cbn [negb].
      set (c := opcode f0 f1 f2 f3 f4 f5 f6).
      rewrite (app_assoc pre [c] (args ++ bs ++ e0) : pre ++ c :: args ++ bs ++ e0 = (pre ++ [c]) ++ args ++ bs ++ e0).
      replace (len pre + 1) with (len (pre ++ [c])) by (rewrite len_app, len_cons, len_nil; lia).
      unfold c at 3. rewrite (parse_copy_ok _ _ f0 f1 f2 f3 f4 f5 f6 o0 o1 o2 o3 s0 s1 s2) by (easy || apply gets_index).
      cbn [bind]. fold args. fold c.
      cbn [op_inside] in Hi.
      set (o := o0 + 256 * o1 + 65536 * o2 + 16777216 * o3) in *.
      assert (1 <= (if s0 + 256 * s1 + 65536 * s2 =? 0 then 65536 else s0 + 256 * s1 + 65536 * s2)) as Hsz.
      { unfold is_bytes in Hb. repeat rewrite Forall_cons_iff in Hb. apply copy_size_pos; tauto. }
      set (sz := if s0 + 256 * s1 + 65536 * s2 =? 0 then 65536 else s0 + 256 * s1 + 65536 * s2) in *.
      replace ((o + sz <? sz) || (n <? o + sz)) with false by lia.
      rewrite slice_op_bytes by lia. cbn [map write_seq].
      destruct (write w (op_bytes src (Copy o sz))) as [w1| |]; cbn [bind]; try easy.
      replace (len (pre ++ [c]) + len args) with (len ((pre ++ [c]) ++ args)) by now rewrite !len_app.
      rewrite (app_assoc (pre ++ [c]) args (bs ++ e0)). apply IH; [easy|].
      rewrite app_length in Hf. simpl in Hf. lia.
Qed.

Lemma apply_delta_data_last {W} (write : W -> bytes -> res W) out : accepting write out ->
  forall src n ops off size e w, ops_enc (ops ++ [Copy off size]) e -> Forall (op_inside n) ops -> ~ op_inside n (Copy off size) ->
  exists w', apply_delta_data write src n e (len e) w = Ok w' /\ out w' = out w ++ ops_bytes src ops.
Proof.
  intros HW src n ops off size e w He Hin Hout.
  assert (Hsplit : exists e1 e0, e = e1 ++ e0 /\ ops_enc ops e1 /\ op_enc (Copy off size) e0).
  { clear - He. revert e He. induction ops as [|op ops IH]; intros e He; inversion He as [|? ? b bs Hop Hops]; subst.
    - inversion Hops; subst. exists [], b. rewrite app_nil_r. now repeat constructor.
    - destruct (IH bs Hops) as (e1 & e0 & -> & H1 & H2). exists (b ++ e1), e0. rewrite <- app_assoc. split; [easy|]. split; [now constructor|easy]. }
  destruct Hsplit as (e1 & e0 & -> & H1 & H0). unfold apply_delta_data.
  pose proof (apply_loop_last write src n off size e0 ops e1 H0 Hout H1 Hin (Z.to_nat (len (e1 ++ e0))) [] w) as H.
  cbn [app] in H. rewrite len_nil in H. rewrite H by (unfold len; lia).
  destruct (write_seq_accepting write out HW (map (op_bytes src) ops) w) as (w' & -> & Hw). cbn [bind].
  exists w'. unfold py_assert. rewrite Z.eqb_refl. now split.
Qed.
