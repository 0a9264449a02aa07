(** Zlib streams of stored blocks, as zlib makes them of data that cannot be compressed. *)
From Coq Require Import ZifyBool ZifyNat.
From Verif Require Import Py PyFacts FunModel FunSpec FunProofs ZlibModel ZlibProofs ReaderModel StreamSpec ReaderProofs CrossProofs DeflateModel DeflateProofs DeflateDense CompressModel CutProofs.
Ltac Zify.zify_post_hook ::= Z.div_mod_to_equations.

Fixpoint stored_blocks (blocks : list bytes) : bytes :=
  match blocks with
  | [] => s_block true []
  | [b] => s_block true b
  | b :: l => s_block false b ++ stored_blocks l
  end.
Definition stored_stream (blocks : list bytes) : bytes := [120; 1] ++ stored_blocks blocks ++ adler_bytes (adler (concat blocks)).
Definition block_ok (b : bytes) : Prop := 0 < len b <= 65535.

Definition no_comp (_ : Z) (d : bytes) : bytes := d.
Lemma blocks_fed blocks : Forall block_ok blocks -> forall out,
  fed (stt (collect GBlock 3) false out) (stored_blocks blocks) (stt (PTrail []) true (out ++ concat blocks)) (concat blocks).
Proof.
  induction 1 as [|b l Hb Hl IH]; intros out; [apply (fed_block true); cbn; lia|]. destruct l as [|b2 l].
  - cbn [stored_blocks concat]. rewrite app_nil_r. apply (fed_block true). apply Hb.
  - change (stored_blocks (b :: b2 :: l)) with (s_block false b ++ stored_blocks (b2 :: l)). change (concat (b :: b2 :: l)) with (b ++ concat (b2 :: l)).
    rewrite app_assoc. eapply fed_app; [apply (fed_block false), Hb|]. apply IH.
Qed.
Lemma stored_stream_run blocks : Forall block_ok blocks -> i_run inflate_start (stored_stream blocks) = Some (concat blocks).
Proof.
  intros H. apply (fed_run _ _ _ _ _ (stt PDone true (concat blocks))); [|reflexivity]. unfold stored_stream. apply fed_head.
  rewrite <- (app_nil_r (concat blocks)) at 3. eapply fed_app; [apply (blocks_fed _ H [])|]. apply fed_trailer.
Qed.
Lemma s_block_len fin b : len (s_block fin b) = len b + 5.
Proof. unfold s_block. cbn zeta. rewrite len_app. change (len [_; _; _; _; _]) with 5. lia. Qed.
(** Six bytes of a block that is not empty are not silent. *)
Lemma block_silent6 fin f0 b out a x y w st1 o1 st2 : block_ok b -> s_block fin b ++ y = a ++ x ++ w -> len a < len (s_block fin b) -> 6 <= len x ->
  fed (stt (collect GBlock 3) f0 out) a st1 o1 -> fed st1 x st2 [] -> False.
Proof.
  intros Hb E Hl Hx Fa Fx. rewrite s_block_len in Hl. rewrite block_form in E.
  (* the bytes before the one that gives output, and that byte *)
  destruct (Z.le_gt_cases 5 (len a)) as [H5|H5].
  - assert (exists a2, a = block_head fin (len b) ++ a2) as (a2 & ->).
    { rewrite <- app_assoc in E. eapply app_prefix; [exact E|]. unfold len in H5. cbn [length block_head]. lia. }
    rewrite <- !app_assoc in E. apply app_inv_head in E. rewrite len_app in Hl. change (len (block_head fin (len b))) with 5 in Hl.
    destruct (app_prefix a2 (x ++ w) b y (eq_sym E)) as (e & ->); [unfold len in *; lia|].
    destruct (fed_split _ _ _ _ _ Fa) as (s1 & p1 & p2 & F1 & F2 & ->). destruct (fed_det _ _ _ _ _ _ _ F1 _ _ (fed_block_head no_comp fin f0 out (len (a2 ++ e)) Hb)) as [-> ->].
    destruct (fed_det _ _ _ _ _ _ _ F2 _ _ (fed_part no_comp a2 (len (a2 ++ e)) fin out ltac:(lia))) as [-> ->].
    rewrite <- app_assoc in E. apply app_inv_head in E. destruct x as [|v x]; [rewrite len_nil in Hx; lia|].
    inversion Fx as [|q0 q1 q2 q3 q4 q5 q6 Hd Hf Hr E0 E1 E2 Eo]. subst. unfold inflate_feed in Hf. cbn [c_ph stt] in Hf. injection Hf as <- <-. discriminate Eo.
  - assert (exists x2, block_head fin (len b) = a ++ x2) as (x2 & Eh).
    { rewrite <- app_assoc in E. eapply app_prefix; [symmetry; exact E|]. unfold len in H5. cbn [length block_head]. lia. }
    assert (Hx2 : len x2 = 5 - len a) by (apply (f_equal len) in Eh; rewrite len_app in Eh; change (len (block_head fin (len b))) with 5 in Eh; lia).
    destruct b as [|v b]; [unfold block_ok in Hb; rewrite len_nil in Hb; lia|]. rewrite Eh, <- !app_assoc in E. apply app_inv_head in E.
    assert (exists x3, x = (x2 ++ [v]) ++ x3) as (x3 & ->).
    { change ((v :: b) ++ y) with ([v] ++ b ++ y) in E. rewrite app_assoc in E. eapply app_prefix; [exact E|]. rewrite app_length. pose proof (len_nonneg _ a). unfold len in *. cbn [length]. lia. }
    destruct (fed_split _ _ _ _ _ Fx) as (s1 & p1 & p2 & F1 & F2 & Ep). symmetry in Ep. apply app_eq_nil in Ep as [-> ->].
    pose proof (fed_app _ _ _ _ _ _ _ Fa _ _ _ F1) as F. rewrite app_assoc, <- Eh, app_nil_r in F.
    destruct (fed_split _ _ _ _ _ F) as (s2 & p1 & p2 & G1 & G2 & ->). destruct (fed_det _ _ _ _ _ _ _ G1 _ _ (fed_block_head no_comp fin f0 out (len (v :: b)) Hb)) as [-> ->].
    assert (len p2 = 1) as Hp2. { inversion G2 as [|q0 q1 q2 q3 q4 q5 q6 Hd Hf Hr]; subst. unfold inflate_feed in Hf. cbn [c_ph stt] in Hf. injection Hf as <- <-. inversion Hr; subst. reflexivity. }
    (* but the head alone gives nothing *)
    assert (o1e : p2 = []).
    { clear - Fa F1 G1 G2 Eh Hx2. rewrite Eh in G1. destruct (fed_split _ _ _ _ _ G1) as (s3 & p3 & p4 & K1 & K2 & Ep). symmetry in Ep. apply app_eq_nil in Ep as [-> ->].
      destruct (fed_det _ _ _ _ _ _ _ K1 _ _ Fa) as [_ E]. now symmetry in E. }
    rewrite o1e, len_nil in Hp2. lia.
Qed.

(** So as long as there is output to come. *)
Lemma blocks_silent blocks : Forall block_ok blocks -> forall out a x w st1 o1 st2 tr, stored_blocks blocks ++ tr = a ++ x ++ w -> 6 <= len x ->
  fed (stt (collect GBlock 3) false out) a st1 o1 -> fed st1 x st2 [] -> ending (c_ph st2).
Proof.
  assert (Hlast : forall b out a x w st1 o1 st2 tr, len b <= 65535 -> (b = [] \/ block_ok b) -> s_block true b ++ tr = a ++ x ++ w -> 6 <= len x ->
    fed (stt (collect GBlock 3) false out) a st1 o1 -> fed st1 x st2 [] -> ending (c_ph st2)).
  { intros b out a x w st1 o1 st2 tr Hl Hb E Hx Fa Fx. pose proof (fed_app _ _ _ _ _ _ _ Fa _ _ _ Fx) as F. rewrite app_assoc in E.
    destruct (Z.le_gt_cases (len (s_block true b)) (len (a ++ x))) as [H|H].
    - destruct (app_prefix _ _ _ _ E ltac:(unfold len in H; lia)) as (e & Ea). rewrite Ea in F. destruct (fed_split _ _ _ _ _ F) as (s1 & p1 & p2 & F1 & F2 & _).
      destruct (fed_det _ _ _ _ _ _ _ F1 _ _ (fed_block true false b out Hl)) as [-> _]. now destruct (ending_fed _ _ _ _ F2 I).
    - destruct Hb as [-> |Hb]; [rewrite len_app in H; pose proof (len_nonneg _ a); cbn in H; lia|]. exfalso. rewrite <- app_assoc in E.
      refine (block_silent6 true false b out a x tr w st1 o1 st2 Hb E _ Hx Fa Fx). rewrite len_app in H. pose proof (len_nonneg _ x). lia. }
  induction 1 as [|b l Hb Hl IH]; intros out a x w st1 o1 st2 tr E Hx Fa Fx.
  - apply (Hlast [] out a x w st1 o1 st2 tr); auto. cbn. lia.
  - destruct l as [|b2 l]; [apply (Hlast b out a x w st1 o1 st2 tr); auto; apply Hb|].
    change (stored_blocks (b :: b2 :: l)) with (s_block false b ++ stored_blocks (b2 :: l)) in E. rewrite <- app_assoc in E.
    destruct (Z.le_gt_cases (len (s_block false b)) (len a)) as [H|H].
    + destruct (app_prefix _ _ _ _ E ltac:(unfold len in H; lia)) as (a2 & ->). rewrite <- app_assoc in E. apply app_inv_head in E.
      destruct (fed_split _ _ _ _ _ Fa) as (s1 & p1 & p2 & F1 & F2 & _). destruct (fed_det _ _ _ _ _ _ _ F1 _ _ (fed_block false false b out (proj2 Hb))) as [-> _].
      exact (IH _ a2 x w st1 p2 st2 tr E Hx F2 Fx).
    + exfalso. exact (block_silent6 false false b out a x _ w st1 o1 st2 Hb E H Hx Fa Fx).
Qed.
Lemma stored_lively blocks : Forall block_ok blocks -> lively (stored_stream blocks).
Proof.
  intros Hb pre zr st o1 o used rest st' E Hf Hr -> Hl Hs.
  enough (He : ending (c_ph st')). { destruct (fed_run_rest _ _ _ _ _ _ _ _ _ Hs Hr) as (o' & Hr' & ->). now rewrite (ending_run _ _ _ He Hr'). }
  unfold stored_stream in E.
  assert (exists a x o2 s, pre ++ used = [120; 1] ++ a ++ x /\ 6 <= len x /\ fed inflate_start ([120; 1] ++ a) s o2 /\ fed s x st' []) as (a & x & o2 & s & E2 & Hx & F1 & F2).
  { destruct (Z.le_gt_cases 2 (len pre)) as [H|H].
    - destruct (app_prefix _ _ _ _ E ltac:(unfold len in H; cbn [length]; lia)) as (a & ->). exists a, used, o1, st. split; [now rewrite app_assoc|]. split; [lia|]. now split.
    - destruct (split_at used (2 - len pre)) as (u1 & u2 & Eu & L1); [pose proof (len_nonneg Z pre); lia|]. rewrite Eu in Hs.
      destruct (fed_split _ _ _ _ _ Hs) as (s1 & p1 & p2 & F1 & F2 & Ep). symmetry in Ep. apply app_eq_nil in Ep as [-> ->].
      assert (pre ++ u1 = [120; 1]) as Eh.
      { rewrite Eu, <- (app_assoc u1), (app_assoc pre u1) in E. assert (length [120; 1] = length (pre ++ u1)) as HL by (rewrite app_length; unfold len in *; cbn [length]; lia).
        destruct (app_prefix _ _ _ _ E ltac:(lia)) as (e & Ee). rewrite Ee, app_length in HL. destruct e; [now rewrite app_nil_r in Ee|cbn [length] in HL; lia]. }
      exists [], u2, o1, s1. split; [rewrite Eu, app_assoc, Eh; reflexivity|]. split; [rewrite Eu, len_app in Hl; pose proof (len_nonneg Z pre); lia|].
      rewrite app_nil_r, <- Eh. split; [|exact F2]. rewrite <- (app_nil_r o1). exact (fed_app _ _ _ _ _ _ _ Hf _ _ _ F1). }
  rewrite (app_assoc pre), E2, <- !app_assoc in E. apply app_inv_head in E.
  inversion F1 as [|q0 q1 q2 q3 q4 q5 q6 Hd Hf1 G1 E3 E4 E5 E6]. subst. injection Hf1 as <- <-.
  inversion G1 as [|k0 k1 k2 k3 k4 k5 k6 Hd2 Hf2 G2 E3 E4 E5 E6]. subst. vm_compute in Hf2. injection Hf2 as <- <-.
  exact (blocks_silent blocks Hb [] a x rest s k6 st' _ E Hx G2 F2).
Qed.
Lemma stored_dense blocks : Forall block_ok blocks -> dense deflate_laws (stored_stream blocks) (concat blocks).
Proof. intros H. apply lively_dense; [now apply stored_stream_run|now apply stored_lively]. Qed.
