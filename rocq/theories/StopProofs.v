(** Termination of reading, for all bytes. *)
From Coq Require Import ZifyBool ZifyNat.
From Verif Require Import Py PyFacts FunModel FunSpec FunProofs ZlibModel ReaderModel StreamSpec StopSpec.
Ltac Zify.zify_post_hook ::= Z.div_mod_to_equations.

(** [stops] with what is known of the result. *)
Definition ends {A} (r : nat -> res A) (Q : A -> Prop) : Prop :=
  exists v f0, v <> Diverge /\ (forall f, (f0 <= f)%nat -> r f = v) /\ forall a, v = Ok a -> Q a.
Lemma ends_stops {A} (r : nat -> res A) Q : ends r Q -> stops r.
Proof. intros (v & f0 & H1 & H2 & _). exists v. split; [exact H1|now exists f0]. Qed.
Lemma ends_weak {A} (r : nat -> res A) (P Q : A -> Prop) : ends r P -> (forall a, P a -> Q a) -> ends r Q.
Proof. intros (v & f0 & H1 & H2 & H3) H. exists v, f0. split; [exact H1|]. split; [exact H2|]. intros a Ha. now apply H, H3. Qed.
Lemma ends_const {A} (v : res A) (Q : A -> Prop) : v <> Diverge -> (forall a, v = Ok a -> Q a) -> ends (fun _ => v) Q.
Proof. intros H1 H2. exists v, 0%nat. now split. Qed.
Lemma ends_bind {A B} (r : nat -> res A) (P : A -> Prop) (k : A -> nat -> res B) (Q : B -> Prop) :
  ends r P -> (forall a, P a -> ends (k a) Q) -> ends (fun f => let! a := r f in k a f) Q.
Proof.
  intros (v & f0 & H1 & H2 & H3) Hk. destruct v as [a|e|]; [|exists (Raise e), f0; split; [easy|split; [intros f Hf; now rewrite H2|easy]]|easy].
  destruct (Hk a (H3 a eq_refl)) as (w & f1 & W1 & W2 & W3). exists w, (Nat.max f0 f1). split; [exact W1|]. split; [|exact W3].
  intros f Hf. rewrite H2 by lia. cbn [bind]. apply W2. lia.
Qed.
Lemma ends_ext {A} (r r' : nat -> res A) Q : (forall f, r f = r' f) -> ends r Q -> ends r' Q.
Proof. intros E (v & f0 & H1 & H2 & H3). exists v, f0. split; [exact H1|]. split; [|exact H3]. intros f Hf. now rewrite <- E, H2. Qed.

Lemma slice_bytes' l a b : is_bytes l -> is_bytes (slice l a b).
Proof. intros H. unfold slice. now apply is_bytes_firstn, is_bytes_skipn. Qed.
Lemma slice_from_bytes l a : is_bytes l -> is_bytes (slice_from l a).
Proof. intros H. unfold slice_from. now apply is_bytes_skipn. Qed.
Lemma find_loose_ends hdr : parse_loose_header hdr <> Diverge.
Proof.
  unfold parse_loose_header. destruct (split _ _) as [|a [|b [|c l]]]; try easy.
  assert (py_int b <> Diverge); [|now destruct (py_int b)]. unfold py_int. now match goal with |- context [match ?x with Some n => Ok n | None => _ end] => destruct x end.
Qed.

Section Reader.
  Context (K : zlib) (ok : zs K -> Prop) (HK : inflater K ok).
  Notation reader := (reader K).
  Definition fine (r : reader) : Prop := ok (r_zip r) /\ is_bytes (r_m r) /\ forall b, r_buf r = Some b -> is_bytes b.
  Lemma fine_init m size : is_bytes m -> fine (reader_init K m size).
  Proof. intros H. split; [apply HK|now split]. Qed.

  Lemma inflate_ends r size : fine r -> size <> 0 ->
    inflate_some r size <> Diverge /\
    forall out r', inflate_some r size = Ok (out, r') -> fine r' /\ is_bytes out /\ len out <= size /\ r_br r' = r_br r + len out /\ r_buf r' = r_buf r /\ r_s r' = r_s r.
  Proof.
    intros (H1 & H2 & H3) Hs. unfold inflate_some. destruct (window _ _ _ _) as [ws we]. destruct (size <? 0) eqn:E; [easy|].
    destruct (proj2 HK (r_zip r) (slice (r_m r) ws we) size H1) as (D1 & D2); [now apply slice_bytes'|lia|].
    destruct (zs_decompress K (r_zip r) (slice (r_m r) ws we) size) as [[out zip]| |]; cbn [bind]; [|easy|easy].
    split; [easy|]. intros out' r' [= <- <-]. destruct (D2 out zip eq_refl) as (A & B & C). cbn. repeat split; try easy; cbn; lia.
  Qed.
  Definition asked (s : Z) (r : reader) (size : Z) : Z := if size <? 1 then s - r_br r else Z.min size (s - r_br r).
  Lemma plain_ends s : forall k r size, fine r -> r_buf r = None -> (Z.to_nat (s - r_br r) <= k)%nat ->
    exists v, v <> Diverge /\ (forall f, (2 * k + 3 <= f)%nat -> read_s f s r size = v) /\
      forall out r', v = Ok (out, r') -> fine r' /\ is_bytes out /\ r_buf r' = None /\ r_s r' = r_s r /\ r_br r' = r_br r + len out /\ len out <= asked s r size.
  Proof.
    induction k as [|k IH]; intros r size Hr Hb Hk.
    all: destruct (asked s r size =? 0) eqn:E0;
      [exists (Ok ([], r)); split; [easy|]; split;
        [intros [|f] Hf; [lia|]; cbn [read_s]; fold (asked s r size); now rewrite E0
        |intros out r' [= <- <-]; split; [exact Hr|]; split; [constructor|]; split; [exact Hb|]; split; [reflexivity|]; change (len (@nil Z)) with 0; lia]|].
    all: destruct (inflate_ends r (asked s r size) Hr) as (I1 & I2); [lia|].
    all: assert (Step : forall f, read_s (S (S f)) s r size = let! (out, r1) := inflate_some r (asked s r size) in
          if negb (len out =? 0) && (len out <? asked s r size) && (r_br r1 <? s) then let! (more, r2) := read_s f s r1 (asked s r size - len out) in Ok (out ++ more, r2) else Ok (out, r1))
      by (intros f; cbn [read_s read_rest]; fold (asked s r size); rewrite E0, Hb; cbn [app]; destruct (inflate_some r (asked s r size)) as [[? ?]| |]; cbn [bind]; [|easy|easy];
          change (len (@nil Z)) with 0; now rewrite Z.sub_0_r).
    all: destruct (inflate_some r (asked s r size)) as [[out r1]|e|] eqn:Ei; cbn [bind] in Step; [|exists (Raise e); split; [easy|]; split; [intros [|[|f]] Hf; [lia|lia|apply Step]|easy]|easy].
    all: destruct (I2 out r1 eq_refl) as (F1 & F2 & F3 & F4 & F5 & F6).
    all: destruct (negb (len out =? 0) && (len out <? asked s r size) && (r_br r1 <? s)) eqn:Ec;
      [|exists (Ok (out, r1)); split; [easy|]; split; [intros [|[|f]] Hf; [lia|lia|apply Step]|]; intros o' r' [= <- <-]; split; [exact F1|]; split; [exact F2|]; split; [congruence|]; split; [exact F6|]; lia].
    - exfalso. pose proof (len_nonneg _ out). unfold bytes in *. lia.
    - pose proof (len_nonneg _ out). destruct (IH r1 (asked s r size - len out)) as (v & V1 & V2 & V3); [exact F1|congruence|unfold bytes in *; lia|].
      exists (let! (more, r2) := v in Ok (out ++ more, r2)). split; [destruct v as [[? ?]| |]; easy|]. split.
      + intros [|[|f]] Hf; [lia|lia|]. rewrite Step, V2 by lia. easy.
      + intros o' r' Ho. destruct v as [[more r2]| |]; cbn [bind] in Ho; [|easy|easy]. assert (o' = out ++ more /\ r' = r2) as [-> ->] by (split; congruence). destruct (V3 more r2 eq_refl) as (G1 & G2 & G3 & G4 & G5 & G6).
        assert (len more <= asked s r size - len out) by (unfold asked in G6 at 1; destruct (_ <? 1) eqn:E1 in G6; unfold bytes in *; lia).
        rewrite len_app. split; [exact G1|]; split; [now apply Forall_app|]; split; [exact G3|]; split; [congruence|]; unfold bytes in *; lia.
  Qed.
  Lemma read_s_ends s r size : fine r -> ends (fun f => read_s f s r size) (fun p => fine (snd p) /\ is_bytes (fst p)).
  Proof.
    intros Hr. destruct (r_buf r) as [b|] eqn:Eb.
    2:{ destruct (plain_ends s _ r size Hr Eb (le_n _)) as (v & V1 & V2 & V3). eexists v, _. split; [exact V1|]. split; [exact V2|]. intros [out r'] Ho. destruct (V3 out r' Ho) as (A & B & _). now split. }
    destruct (asked s r size =? 0) eqn:E0.
    { exists (Ok ([], r)), 1%nat. split; [easy|]. split; [intros [|f] Hf; [lia|]; cbn [read_s]; fold (asked s r size); now rewrite E0|]. intros a [= <-]. split; [exact Hr|constructor]. }
    destruct (asked s r size <=? r_buflen r) eqn:E1.
    { destruct (bio_read b (asked s r size)) as [dat b'] eqn:Ebio. eexists (Ok (dat, _)), 1%nat. split; [easy|]. split.
      - intros [|f] Hf; [lia|]. cbn [read_s]. fold (asked s r size). rewrite E0, Eb, E1, Ebio. reflexivity.
      - intros a [= <-]. destruct Hr as (H1 & H2 & H3). specialize (H3 b Eb). unfold bio_read in Ebio. cbn [fst snd]. assert (is_bytes dat /\ is_bytes b') as [Hd Hb'].
        { destruct (asked s r size <? 0) in Ebio; injection Ebio as <- <-; split; try easy; [constructor|now apply is_bytes_firstn|now apply is_bytes_skipn]. }
        split; [|exact Hd]. split; [exact H1|]. split; [exact H2|]. cbn. now intros ? [= <-]. }
    set (r0 := with_buf r None 0 (r_br r + r_buflen r)). set (sz := asked s r size - r_buflen r).
    assert (Hr0 : fine r0) by (destruct Hr as (H1 & H2 & H3); now repeat split).
    assert (Step : forall f, read_s (S (S f)) s r size = let! (out, r1) := inflate_some r0 sz in
      if negb (len (b ++ out) =? 0) && (len (b ++ out) - len b <? sz) && (r_br r1 <? s) then let! (more, r2) := read_s f s r1 (sz - len (b ++ out)) in Ok ((b ++ out) ++ more, r2) else Ok (b ++ out, r1)).
    { intros f. cbn [read_s read_rest]. fold (asked s r size). rewrite E0, Eb, E1. reflexivity. }
    destruct (inflate_ends r0 sz Hr0) as (I1 & I2); [unfold sz; lia|]. destruct Hr as (_ & _ & Hbb). specialize (Hbb b Eb).
    destruct (inflate_some r0 sz) as [[out r1]|e|] eqn:Ei; cbn [bind] in Step; [|exists (Raise e), 2%nat; split; [easy|]; split; [intros [|[|f]] Hf; [lia|lia|apply Step]|easy]|easy].
    destruct (I2 out r1 eq_refl) as (F1 & F2 & F3 & F4 & F5 & F6). assert (is_bytes (b ++ out)) as Hbo by now apply Forall_app.
    destruct (negb _ && _ && _) eqn:Ec; [|exists (Ok (b ++ out, r1)), 2%nat; split; [easy|]; split; [intros [|[|f]] Hf; [lia|lia|apply Step]|]; intros a [= <-]; now split].
    destruct (plain_ends s _ r1 (sz - len (b ++ out)) F1 F5 (le_n _)) as (v & V1 & V2 & V3).
    eexists (let! (more, r2) := v in Ok ((b ++ out) ++ more, r2)), (S (S _)). split; [destruct v as [[? ?]| |]; easy|]. split.
    - intros [|[|f]] Hf; [lia|lia|]. rewrite Step, V2; [reflexivity|]. apply le_S_n, le_S_n in Hf. exact Hf.
    - intros a Ha. destruct v as [[more r2]| |]; cbn [bind] in Ha; [|easy|easy]. assert (a = ((b ++ out) ++ more, r2)) as -> by congruence. destruct (V3 more r2 eq_refl) as (A & B & _). split; [exact A|now apply Forall_app].
  Qed.
  Lemma parse_ends r : fine r -> ends (fun f => parse_header_info f r) (fun p => fine (snd p)).
  Proof.
    intros Hr. unfold parse_header_info. set (r0 := mk_reader _ _ _ _ _ _ _ _ _ _). assert (Hr0 : fine r0) by (destruct Hr as (H1 & H2 & H3); now repeat split).
    apply (ends_bind _ (fun p => fine (snd p) /\ is_bytes (fst p)) (fun a f => _)); [exact (read_s_ends 8192 r0 8192 Hr0)|]. intros [hdr r1] [(A1 & A2 & A3) B]. cbn [fst snd] in *.
    apply ends_const; [pose proof (find_loose_ends hdr); destruct (parse_loose_header hdr) as [[? ?]| |]; easy|].
    intros a Ha. apply bind_ok_inv in Ha as ([typ size] & _ & Ha). assert (snd a = snd (typ, size, mk_reader (r_m r1) (r_zip r1) (Some (slice_from hdr (find NULL_BYTE hdr + 1))) (len hdr - (find NULL_BYTE hdr + 1)) (Some size) 0 (r_cws r1) (r_cwe r1) (r_cbr r1) true)) as -> by (injection Ha as <-; reflexivity).
    cbn [snd]. split; [exact A1|]. split; [exact A2|]. cbn. intros ? [= <-]. now apply slice_from_bytes.
  Qed.
  Lemma read_ends r size : fine r -> ends (fun f => read f r size) (fun p => fine (snd p) /\ is_bytes (fst p)).
  Proof.
    intros Hr. unfold read. apply (ends_bind _ (fun p => fine (snd p)) (fun a f => _)); [|intros [s r1] H1; exact (read_s_ends s r1 size H1)].
    unfold get_s. destruct (r_s r) as [s|]; [now apply ends_const; [|intros ? [= <-]]|].
    apply (ends_bind _ (fun p => fine (snd p)) (fun a f => _)); [exact (parse_ends r Hr)|]. intros [[t s] r1] H1. apply ends_const; [easy|]. now intros ? [= <-].
  Qed.
  Lemma seek_ends r : fine r -> exists r', seek r 0 0 = Ok r' /\ fine r'.
  Proof. intros (H1 & H2 & H3). eexists. split; [reflexivity|]. split; [apply HK|]. now split. Qed.
  Lemma run_ends : forall ops r, fine r -> ends (fun f => run_stream (read f) (fun r => seek r 0 0) r ops) (fun _ => True).
  Proof.
    induction ops as [|[n|] ops IH]; intros r Hr; cbn [run_stream]; [now apply ends_const| |].
    - apply (ends_bind _ (fun p => fine (snd p) /\ is_bytes (fst p)) (fun a f => _)); [exact (read_ends r n Hr)|]. intros [d r1] [H1 _].
      apply (ends_bind _ (fun _ => True) (fun a f => _)); [exact (IH r1 H1)|]. intros l _. now apply ends_const.
    - destruct (seek_ends r Hr) as (r' & -> & Hr'). cbn [bind]. apply (ends_bind _ (fun _ => True) (fun a f => _)); [exact (IH r' Hr')|]. intros l _. now apply ends_const.
  Qed.
  Lemma object_ends m ops : is_bytes m -> ends (fun f => let! (t, n, r) := reader_new K f m in let! outs := run_stream (read f) (fun r => seek r 0 0) r ops in Ok (t, n, outs)) (fun _ => True).
  Proof.
    intros Hm. unfold reader_new. apply (ends_bind _ (fun p => fine (snd p)) (fun a f => _)); [apply parse_ends; now apply fine_init|]. intros [[t n] r] Hr.
    apply (ends_bind _ (fun _ => True) (fun a f => _)); [exact (run_ends ops r Hr)|]. intros l _. now apply ends_const.
  Qed.
End Reader.
Lemma header_info_ends K ok (HK : inflater K ok) m : is_bytes m -> loose_object_header_info K m <> Diverge.
Proof.
  intros Hm. unfold loose_object_header_info. destruct (proj2 HK (zs_new K) m 8192 (proj1 HK) Hm) as (H & _); [lia|].
  destruct (zs_decompress K (zs_new K) m 8192) as [[hdr st]| |]; cbn [bind]; [apply find_loose_ends|easy|easy].
Qed.
