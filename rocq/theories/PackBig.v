(** Objects that are read in several pieces by PackFile.stream_iter. *)
From Coq Require Import ZifyBool ZifyNat.
From Verif Require Import Py PyFacts FunModel FunSpec FunProofs ZlibModel ZlibProofs ReaderModel StreamSpec PackModel PackSpec PackProofs.
Ltac Zify.zify_post_hook ::= Z.div_mod_to_equations.

Section Big.
  Context {K : zlib} (L : zlib_laws K) (z d rest : bytes) (Hrest : rest <> []).
  (** In the middle of the stream, nothing behind it used yet. *)
  Definition midway (r : reader K) : Prop :=
    exists used zr dr, z = used ++ zr /\ zr <> [] /\ zl_at L (r_zip r) zr dr /\ len d = r_br r + len dr /\ r_m r = z ++ rest /\ r_buf r = None /\ r_s r = Some (len d) /\
      zs_unused K (r_zip r) = [] /\ r_cbr r = len used /\ r_cwe r - len (zs_tail K (r_zip r)) = len used /\ (zs_tail K (r_zip r) = [] -> r_cws r = r_cwe r).
  Definition finished (r : reader K) : Prop :=
    r_br r = len d /\ r_s r = Some (len d) /\ zs_unused K (r_zip r) <> [] /\ r_cbr r = len z - len (zs_unused K (r_zip r)).
  Lemma read_piece f r n : midway r -> 0 < n -> len z < n -> n <= len d - r_br r ->
    exists out r', read (S (S f)) r n = Ok (out, r') /\ len out = n /\ r_br r' = r_br r + n /\
      (r_br r + n < len d -> midway r' /\ zs_tail K (r_zip r') <> []) /\
      (r_br r + n = len d -> zs_tail K (r_zip r) <> [] -> finished r').
  Proof.
    intros (used & zr & dr & Ez & Hzr & Hat & Hd & Hm & Hb & Hs & Hu & Hcbr & Hcwe & Hcws) Hn Hz Hle.
    unfold read, get_s. rewrite Hs. cbn [bind read_s]. replace (n <? 1) with false by lia. replace (Z.min n (len d - r_br r)) with n by lia. replace (n =? 0) with false by lia. rewrite Hb.
    cbn [read_rest]. set (w := Z.max n 8). assert (Hwin : window (r_cws r) (r_cwe r) (zs_tail K (r_zip r)) n = (len used, len used + w)).
    { unfold window. destruct (zs_tail K (r_zip r)) as [|b t] eqn:Et.
      - rewrite len_nil in *. specialize (Hcws eq_refl). cbn [Z.eqb negb]. replace (r_cws r + n - r_cwe r) with n by lia. destruct (n <? 8) eqn:E8; f_equal; lia.
      - replace (len (b :: t) =? 0) with false by (rewrite len_cons; pose proof (len_nonneg _ t); lia). cbn [negb]. rewrite Hcwe. replace (len used + n - len used) with n by lia. destruct (n <? 8) eqn:E8; f_equal; lia. }
    unfold inflate_some. rewrite Hwin. set (y := firstn (Z.to_nat (w - len zr)) rest).
    assert (Hlzr : len zr <= len z) by (rewrite Ez, len_app; pose proof (len_nonneg _ used); lia).
    assert (Hin : slice (r_m r) (len used) (len used + w) = zr ++ y).
    { rewrite Hm, Ez, <- app_assoc. rewrite slice_app_r by lia. replace (len used - len used) with 0 by lia. replace (len used + w - len used) with w by lia. rewrite slice_spec by lia. cbn [Z.to_nat skipn].
      rewrite firstn_app. unfold y. rewrite firstn_all2 by (unfold len in *; lia). do 2 f_equal. unfold len in *. lia. }
    rewrite Hin. replace (n <? 0) with false by lia.
    destruct (zl_step K L (r_zip r) zr dr (zr ++ y) n Hat Hzr Hn ltac:(right; now exists y)) as (zr' & dr' & out & st' & Estep & used2 & over & E1 & E2 & E3 & Hlen & Hat' & Hgo & Hend).
    assert (Hover : over = zr' ++ y) by (rewrite E2, <- app_assoc in E1; now apply app_inv_head in E1). rewrite Estep. cbn [bind].
    assert (Hy : y <> []). { unfold y. destruct rest as [|b rest']; [easy|]. destruct (Z.to_nat (w - len zr)) eqn:E; [lia|easy]. }
    assert (Hout : len out = n /\ (n < len dr <-> zr' <> [])).
    { destruct zr' as [|b zr'].
      - destruct (Hend eq_refl) as (-> & _). rewrite app_nil_r in E3. subst dr. split; [lia|]. split; [lia|easy].
      - destruct (Hgo ltac:(easy)) as (_ & _ & H). destruct H as [H1 H2]; [now subst over|]. split; [easy|]. split; [easy|]. intros _. rewrite E3, len_app. destruct dr' as [|b' dr']; [easy|]. rewrite len_cons. pose proof (len_nonneg _ dr'). lia. }
    destruct Hout as [Hout Hmore]. cbn [app]. rewrite Hout, len_nil. replace (n - 0 <? n) with false by lia. rewrite andb_false_r. cbn [andb].
    eexists out, _. split; [reflexivity|]. split; [easy|]. cbn [r_br]. split; [easy|]. split.
    - intros Hlt. assert (Hne : zr' <> []) by (apply Hmore; lia). destruct (Hgo Hne) as (Ht & Hun & _). assert (Hone : over <> []) by (rewrite Hover; now destruct zr').
      split; [|cbn [r_zip]; now rewrite Ht]. exists (used ++ used2), zr', dr'. cbn [r_zip r_br r_m r_buf r_s r_cbr r_cwe r_cws]. rewrite Ht, Hun, Hu, Hcbr, E1, !len_app, len_nil. split; [now rewrite Ez, E2, app_assoc|]. split; [easy|]. split; [easy|].
      split; [rewrite E3, len_app in Hd; lia|]. split; [easy|]. split; [easy|]. split; [easy|]. split; [easy|]. split; [lia|]. split; [lia|easy].
    - intros Heq Htl. assert (Hnil : zr' = []) by (destruct zr'; [easy|]; assert (n < len dr) by (now apply Hmore); lia). destruct (Hend Hnil) as (_ & Hun & Ht). subst zr'. cbn [app] in Hover. subst over. rewrite Hu in Hun. cbn [app] in Hun.
      unfold finished. cbn [r_zip r_br r_s r_cbr]. rewrite Hun. split; [lia|]. split; [easy|]. split; [easy|]. destruct (zs_tail K (r_zip r)) as [|b t]; [easy|]. rewrite Ht, Hcbr, Ez, !len_app. lia.
  Qed.
  Lemma copy_pieces f c : 0 < c -> forall g q k r, midway r -> len d - r_br r = Z.of_nat q * c + k -> len z < k <= c -> (0 < q)%nat \/ zs_tail K (r_zip r) <> [] ->
    let x := stream_copy_loop (read (S (S f))) null_write g r tt (len d) c (r_br r) in x = Diverge \/ exists r', x = Ok (len d, r', tt) /\ finished r'.
  Proof.
    intros Hc. induction g as [|g IH]; intros q k r Hr Hq Hk Ht; cbn zeta; cbn [stream_copy_loop]; [now left|]. pose proof (len_nonneg _ z).
    set (n := Z.min c (len d - r_br r)). assert (Hn : len z < n <= len d - r_br r) by (destruct q; lia).
    destruct (read_piece f r n Hr ltac:(lia) ltac:(lia) ltac:(lia)) as (out & r' & -> & Hout & Hbr & Hmid & Hfin). cbn [bind null_write]. rewrite Hout. replace (n <? n) with false by lia. cbn [orb].
    destruct (r_br r + n =? len d) eqn:E.
    - right. exists r'. split; [f_equal; f_equal; f_equal; lia|]. destruct q as [|q]; [|lia]. apply Hfin; [lia|]. now destruct Ht.
    - destruct q as [|q]; [lia|]. destruct (Hmid ltac:(lia)) as [Hm Htl]. rewrite <- Hbr. apply (IH q k r' Hm); [lia|easy|now right].
  Qed.
  Lemma copy_big f g c q k : 0 < c -> zl_stream L z d -> len d = Z.of_nat (S q) * c + k -> len z < k <= c ->
    let x := stream_copy (read (S (S f))) null_write g (reader_init K (z ++ rest) (Some (len d))) tt (len d) c in x = Diverge \/ exists r', x = Ok (len d, r', tt) /\ finished r'.
  Proof.
    intros Hc Hs Hq Hk. destruct (zl_start K L z d Hs) as (Hz & Hat & Ht & Hu). unfold stream_copy. apply (copy_pieces f c Hc g (S q) k (reader_init K (z ++ rest) (Some (len d)))); [|cbn [r_br reader_init]; lia|easy|left; lia].
    exists [], z, d. unfold reader_init. cbn [r_zip r_br r_m r_buf r_s r_cbr r_cwe r_cws]. rewrite Ht, Hu, !len_nil. repeat (split; [easy || lia|]). easy.
  Qed.
End Big.

Section Iter.
  Context {K : zlib} (L : zlib_laws K) (sha1 : bytes -> bytes) (Hsha : forall d, len (sha1 d) = 20) (pagesize : Z) (Hps : 0 < pagesize).
  Lemma iter_step_offset fuel data off o next : iter_step K pagesize fuel data off = Ok (o, next) -> po_offset o = off.
  Proof.
    unfold iter_step. intros H. apply bind_ok_inv in H as ([n o'] & H1 & H). apply bind_ok_inv in H as ([[w r] u] & _ & H).
    unfold py_assert in H. destruct (_ =? _); [|discriminate]. apply bind_ok_inv in H as ([n' r'] & _ & H). apply bind_ok_inv in H as (r'' & _ & H). injection H as <- _. cbn [po_offset].
    unfold pack_object_at in H1. apply bind_ok_inv in H1 as (x & _ & H1). apply bind_ok_inv in H1 as ([[t us] k] & _ & H1). apply bind_ok_inv in H1 as ([kd dl] & _ & H1). injection H1 as _ <-. reflexivity.
  Qed.
  Lemma iter_step_big e hdr z pre post q k f o next : entry_bytes L e hdr z -> post <> [] -> len (pn_data e) = Z.of_nat (S q) * chunk_size pagesize + k -> len z < k <= chunk_size pagesize ->
    iter_step K pagesize (S (S f)) (pre ++ hdr ++ z ++ post) (len pre) = Ok (o, next) -> next < len pre + len hdr + len z.
  Proof.
    intros He Hpost Hq Hk H. unfold iter_step in H. rewrite (pack_object_at_bytes L e hdr z pre post He) in H. cbn [bind po_stream po_size po_offset] in H.
    destruct (entry_fields L _ _ _ He) as (Hz & _). assert (Hc : 0 < chunk_size pagesize) by (unfold chunk_size; lia).
    destruct (copy_big L z (pn_data e) post Hpost f (S (S f)) (chunk_size pagesize) q k Hc Hz Hq Hk) as [E|(r & E & Hbr & Hs & Hu & Hcbr)]; rewrite E in H; [discriminate|]. cbn [bind] in H.
    rewrite Hbr, Z.eqb_refl in H. unfold py_assert, compressed_bytes_read, get_s in H. rewrite Hs in H. cbn [bind] in H. rewrite Hbr, Z.eqb_refl in H.
    destruct (zs_unused K (r_zip r)) as [|b u] eqn:Eu; [easy|]. replace (len (b :: u) =? 0) with false in H by (rewrite len_cons; pose proof (len_nonneg _ u); lia). cbn [andb bind] in H.
    apply bind_ok_inv in H as (r' & _ & H). injection H as _ <-. rewrite Hcbr, len_cons. pose proof (len_nonneg _ u). lia.
  Qed.
  Lemma iter_big e es pack q k : pack_file L sha1 ((12, e) :: es) pack -> len (pn_data e) = q * chunk_size pagesize + k -> 1 <= q -> len (pn_z e) < k <= chunk_size pagesize ->
    forall f os, stream_iter K pagesize f pack 0 = Ok os -> ~ Forall2 yields ((12, e) :: es) os.
  Proof.
    intros (body & fin & Hes & _ & ->) Hd Hq Hk f os H HF. inversion Hes as [|off e' hdr z es' b fin' Hb Hrest]; subst.
    set (h := pack_head (len ((12, e) :: es))) in *. assert (Hh : len h = 12) by reflexivity. destruct (entry_fields L _ _ _ Hb) as (Hz & Ez & Hl & _). pose proof (len_nonneg _ z). pose proof (len_nonneg _ b). rewrite Ez in Hk.
    unfold stream_iter, footer_size, first_object_offset in H. cbn [Z.eqb] in H. set (tr := sha1 (h ++ hdr ++ z ++ b)) in *. assert (Htr : len tr = 20) by apply Hsha.
    replace ((h ++ hdr ++ z ++ b) ++ tr) with (h ++ hdr ++ z ++ (b ++ tr)) in H by now rewrite <- !app_assoc.
    assert (Hsz : len (h ++ hdr ++ z ++ b ++ tr) - 20 = 12 + len hdr + len z + len b) by (rewrite !len_app, Hh, Htr; lia). rewrite Hsz in H.
    destruct f as [|[|f]]; [discriminate| |].
    - cbn [iter_loop] in H. replace (12 <? _) with true in H by lia. apply bind_ok_inv in H as ([o n] & _ & H). discriminate.
    - remember (S (S f)) as g eqn:Eg in H at 2. remember (S f) as g' eqn:Eg'. cbn [iter_loop] in H. replace (12 <? _) with true in H by lia. apply bind_ok_inv in H as ([o n] & G1 & H). apply bind_ok_inv in H as (l & G2 & H). injection H as <-.
      assert (Hn : n < 12 + len hdr + len z).
      { rewrite Eg, Eg' in G1. rewrite <- Hh. refine (iter_step_big e hdr z h (b ++ tr) (Z.to_nat (q - 1)) k f o n Hb _ _ Hk ltac:(rewrite Hh; exact G1)).
        - intros E. apply app_eq_nil in E as [_ E]. rewrite E in Htr. discriminate.
        - rewrite Hd. do 2 f_equal. lia. }
      subst g'. cbn [iter_loop] in G2. replace (n <? _) with true in G2 by lia. apply bind_ok_inv in G2 as ([o2 n2] & G2 & G3). apply bind_ok_inv in G3 as (l2 & _ & G3). injection G3 as <-.
      apply iter_step_offset in G2. assert (HF2 : Forall2 yields es (o2 :: l2)) by (now inversion HF). clear - HF2 Hrest G2 Hn. destruct es as [|[a e2] es]; [inversion HF2|].
      assert (Ho : po_offset o2 = a) by (inversion HF2 as [|? ? ? ? Hy]; now destruct Hy). assert (a = 12 + len hdr + len z) by (now inversion Hrest). lia.
  Qed.
End Iter.
