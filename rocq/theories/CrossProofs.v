(** Reads across the end of the header buffer of an object. *)
From Coq Require Import ZifyBool ZifyNat.
From Verif Require Import Py PyFacts FunModel FunSpec FunProofs ZlibModel ReaderModel StreamSpec ReaderProofs.
Ltac Zify.zify_post_hook ::= Z.div_mod_to_equations.

Section Cross.
  Context {K : zlib} (L : zlib_laws K) (t c z rest : bytes).
  Notation hdr := (loose_object_header t (len c)).
  Context (Hz : zl_stream L z (hdr ++ c)) (Ht1 : ~ In BYTE_SPACE t) (Ht2 : ~ In NULL_BYTE t) (Hd : dense L z (hdr ++ c)).
  Notation P := (P L t c z rest).
  Notation GG := (G L z (hdr ++ c) rest false).

  (** What comes is decided by what the first call of zlib gives. *)
  Lemma P_cross B r pos n fuel b q : P B r pos -> (2 * length c + 8 <= fuel)%nat -> r_buf r = Some b ->
    q = (if n <? 1 then len c - r_br r else Z.min n (len c - r_br r)) -> len b < q ->
    exists o1 r2, inflate_some (with_buf r None 0 (r_br r + len b)) (q - len b) = Ok (o1, r2) /\
    exists out r', read fuel r n = Ok (out, r') /\ P B r' (pos + length out) /\ out = firstn (length out) (skipn pos c) /\
      len out = if len o1 =? q - len b then q else if 2 * len b + len o1 <? q then q - len b else len c - r_br r.
  Proof.
    intros HP Hf Hb Hq Hlt. destruct (P_read L t c z rest Hz B r pos n fuel HP Hf) as (out & r' & R1 & R2 & R3 & _).
    destruct HP as (Hp & Hs & Hbr & Hphi & [(Hb' & _)|(b' & dr & Hb' & Hbl & HB & Hcc & HG)]); [congruence|]. assert (b' = b) as -> by congruence. clear Hb'.
    assert (Hls : len (skipn pos c) = len c - Z.of_nat pos) by (rewrite len_skipn; unfold len; lia).
    set (r1 := with_buf r None 0 (r_br r + len b)). pose proof (len_nonneg _ b) as Hlb.
    assert (HG1 : GG r1 dr) by now apply (G_same L t c z rest r).
    assert (Hldr : len dr = len c - r_br r - len b) by (rewrite Hcc, len_app in Hls; unfold bytes in *; lia).
    assert (Hqs : q <= len c - r_br r) by (rewrite Hq; destruct (Z.ltb_spec n 1); lia).
    destruct (inflate_G L z (hdr ++ c) rest Hz false r1 dr (q - len b) HG1 ltac:(lia) ltac:(easy)) as (o1 & r2 & dr2 & I1 & I2 & I3 & I4 & I5 & I6 & _).
    exists o1, r2. split; [exact I1|]. exists out, r'. split; [exact R1|]. split; [exact R2|]. split; [exact R3|]. clear R2 R3.
    assert (o1 <> []) as Ho1 by (apply I6; [exact Hd|intros ->; rewrite len_nil in Hldr; lia]).
    assert (0 < len o1) as Hlo1 by (destruct o1 as [|x o1]; [easy|rewrite len_cons; pose proof (len_nonneg _ o1); lia]).
    assert (Hl2 : len dr2 = len dr - len o1) by (rewrite I4, len_app; unfold bytes in *; lia).
    unfold read, get_s in R1. rewrite Hs in R1. cbn [bind] in R1. do 2 (destruct fuel as [|fuel]; [lia|]).
    rewrite read_s_S in R1. cbv zeta in R1. rewrite <- Hq, Hb, Hbl in R1. replace (q =? 0) with false in R1 by lia. replace (q <=? len b) with false in R1 by lia.
    fold r1 in R1. rewrite read_rest_S in R1. rewrite I1 in R1. cbn [bind] in R1. rewrite len_app in R1.
    destruct I2 as (S1 & S2 & S3 & S4 & S5 & S6). assert (Hbr2 : r_br r2 = r_br r + len b + len o1) by (rewrite S6; reflexivity).
    replace (negb (len b + len o1 =? 0)) with true in R1 by lia. replace (len b + len o1 - len b) with (len o1) in R1 by lia. cbn [andb] in R1.
    destruct (len o1 =? q - len b) eqn:E1.
    { replace (len o1 <? q - len b) with false in R1 by lia. cbn [andb] in R1. injection R1 as <- _. rewrite len_app. lia. }
    replace (len o1 <? q - len b) with true in R1 by lia. replace (r_br r2 <? len c) with true in R1 by lia. cbn [andb] in R1.
    set (arg := q - len b - (len b + len o1)) in R1.
    destruct (read_s_None L z (hdr ++ c) rest Hz false (len c) fuel r2 dr2 arg (if arg <? 1 then len c - r_br r2 else Z.min arg (len c - r_br r2)))
      as (o3 & r3 & dr3 & J1 & J2 & J3 & J4 & J5 & J6 & _); try easy.
    { unfold len in *. lia. } { destruct (Z.ltb_spec arg 1); lia. }
    rewrite J1 in R1. cbn [bind] in R1. injection R1 as <- _. rewrite !len_app. apply (f_equal len) in J6; [|now left]. rewrite len_firstn in J6.
    destruct (2 * len b + len o1 <? q) eqn:E2.
    - replace (arg <? 1) with false in J6 by lia. unfold bytes in *. lia.
    - replace (arg <? 1) with true in J6 by lia. unfold bytes in *. lia.
  Qed.
  Lemma P_law fuel : (2 * length c + 8 <= fuel)%nat -> forall ns B r pos, P B r pos ->
    exists outs, run_stream (read fuel) rew0 r (map Read ns) = Ok outs /\ reads_like (Z.of_nat B) c (Z.of_nat pos) ns outs.
  Proof.
    intros Hf. induction ns as [|n ns IH]; intros B r pos HP; [now exists []|].
    assert (exists out r', read fuel r n = Ok (out, r') /\ P B r' (pos + length out) /\ out = firstn (length out) (skipn pos c) /\
      crossing_length (Z.of_nat B) (len c) (Z.of_nat pos) (asked n (len c - Z.of_nat pos)) (len out)) as (out & r' & R1 & R2 & R3 & R4).
    { pose proof HP as (Hp & Hs & Hbr & Hphi & Hc). set (q := asked n (len c - Z.of_nat pos)).
      assert (Hq : 0 <= q <= len c - Z.of_nat pos) by (unfold q, asked; destruct (Z.ltb_spec n 1); unfold len in *; lia).
      assert (Hq2 : q = if n <? 1 then len c - r_br r else Z.min n (len c - r_br r)) by (rewrite Hbr; reflexivity).
      unfold crossing_length. destruct ((Z.of_nat pos <? Z.of_nat B) && (Z.of_nat B <? Z.of_nat pos + q)) eqn:E.
      - destruct Hc as [(_ & _ & HB & _)|(b & dr & Hb & Hbl & HB & _)]; [lia|]. assert (Hlb : len b = Z.of_nat B - Z.of_nat pos) by (unfold len; lia).
        destruct (P_cross B r pos n fuel b q HP Hf Hb Hq2 ltac:(lia)) as (o1 & r2 & _ & out & r' & R1 & R2 & R3 & R4).
        exists out, r'. split; [exact R1|]. split; [exact R2|]. split; [exact R3|]. rewrite R4, Hbr, Hlb. clear. clearbody q. destruct (len o1 =? _); [auto|]. destruct (_ <? q); auto.
      - destruct (P_read L t c z rest Hz B r pos n fuel HP Hf) as (out & r' & R1 & R2 & R3 & R4).
        exists out, r'. split; [exact R1|]. split; [exact R2|]. split; [exact R3|]. cbv zeta in R4.
        set (e := if n <? 1 then _ else _) in R4. assert (He : len e = q).
        { unfold e, q, asked. destruct (Z.ltb_spec n 1); rewrite ?len_firstn, len_skipn; unfold len in *; lia. }
        rewrite R4; [exact He|]. unfold allowed. unfold len in He. destruct (Nat.le_gt_cases B pos); [now right; right|left; lia]. }
    destruct (IH B r' _ R2) as (outs & Ho & Hl). exists (out :: outs). cbn [map run_stream reads_like]. rewrite R1. cbn [bind]. rewrite Ho. cbn [bind].
    split; [reflexivity|]. rewrite Nat2Z.id. split; [exact R3|]. split; [exact R4|]. rewrite Nat2Z.inj_add in Hl. exact Hl.
  Qed.
  Lemma object_law ns : len hdr <= 8192 -> exists outs, reads_like (Z.min (len c) (8192 - len hdr)) c 0 ns outs /\
    evaluates (fun f => read_object (K := K) (z ++ rest) f (map Read ns)) (Ok (t, len c, outs)).
  Proof.
    intros Hl. set (f0 := (2 * length (hdr ++ c) + 8)%nat).
    destruct (parse_dense L t c z rest Hz Ht1 Ht2 _ f0 (or_introl Hd) Hl (N_init L t c z rest Hz (Some 0)) ltac:(lia)) as (r & R1 & R2).
    destruct (P_law f0 ltac:(unfold f0; rewrite app_length; lia) ns _ _ _ R2) as (outs & H1 & H2).
    exists outs. split.
    { replace (Z.min (len c) (8192 - len hdr)) with (Z.of_nat (bufpos t c)); [exact H2|]. unfold bufpos. rewrite <- bufpos_gen by exact Hl. pose proof (len_nonneg _ c). lia. }
    exists f0. intros f Hf. unfold read_object, reader_new. rewrite (parse_mono f0 f _ _ Hf R1). cbn [bind].
    change (fun r0 : reader K => seek r0 0 0) with (@rew0 K). erewrite run_stream_mono; [reflexivity| |exact H1]. intros s m v. now apply read_mono.
  Qed.
End Cross.
