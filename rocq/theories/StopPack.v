(** Queries of packs end, whatever is in the pack, if the ways from objects to their bases do. *)
From Coq Require Import ZifyBool ZifyNat Sorting.Sorted.
From Verif Require Import Py PyFacts FunModel FunSpec FunProofs ZlibModel ReaderModel StreamSpec
  DeltaModel DeltaProofs DeltaReaderModel IndexModel IndexSpec IndexProofs IndexSearch Crc32 PackModel PackSpec PackChainProofs StopSpec StopProofs.
Ltac Zify.zify_post_hook ::= Z.div_mod_to_equations.

(** ** Copying *)
Definition ends2 {A} (r : nat -> nat -> res A) (Q : A -> Prop) : Prop :=
  exists v f0, v <> Diverge /\ (forall f n, (f0 <= f)%nat -> (f0 <= n)%nat -> r f n = v) /\ forall a, v = Ok a -> Q a.
Lemma ends2_ends {A} (r : nat -> nat -> res A) Q : ends2 r Q -> ends (fun f => r f f) Q.
Proof. intros (v & f0 & H1 & H2 & H3). exists v, f0. split; [exact H1|]. split; [|exact H3]. intros f Hf. now apply H2. Qed.

Section Copy.
  Context {R W : Type} (rd : nat -> R -> Z -> res (bytes * R)) (wr : W -> bytes -> res (Z * W)) (G : R -> Prop) (P : W -> Prop) (D : bytes -> Prop) (HD : D []).
  Context (Hrd : forall r n, G r -> 1 <= n -> ends (fun f => rd f r n) (fun p => G (snd p) /\ D (fst p) /\ len (fst p) <= n)).
  Context (Hwr : forall w d, P w -> D d -> wr w d <> Diverge /\ forall m w', wr w d = Ok (m, w') -> P w').
  Lemma copy_loop_ends size cs : 1 <= cs -> forall k r w dbw, G r -> P w -> 0 <= dbw < size -> (Z.to_nat (size - dbw) <= k)%nat ->
    ends2 (fun f n => stream_copy_loop (rd f) wr n r w size cs dbw) (fun p => G (snd (fst p)) /\ P (snd p)).
  Proof.
    intros Hcs. induction k as [|k IH]; intros r w dbw Hr Hw Hd Hk; [lia|].
    set (c := Z.min cs (size - dbw)). destruct (Hrd r c Hr) as (v & f0 & V1 & V2 & V3); [unfold c; lia|].
    assert (Step : forall f n, (f0 <= f)%nat -> stream_copy_loop (rd f) wr (S n) r w size cs dbw =
      let! (data, r) := v in let! (_, w) := wr w data in
      if (len data <? c) || (dbw + len data =? size) then Ok (dbw + len data, r, w) else stream_copy_loop (rd f) wr n r w size cs (dbw + len data)).
    { intros f n Hf. cbn [stream_copy_loop]. fold c. now rewrite V2. }
    destruct v as [[data r1]|e|]; cbn [bind] in Step; [|exists (Raise e), (S f0); split; [easy|]; split; [intros f [|n] Hf Hn; [lia|]; apply Step; lia|easy]|easy].
    destruct (V3 _ eq_refl) as (A & B & C). cbn [fst snd] in *. destruct (Hwr w data Hw B) as (W1 & W2).
    destruct (wr w data) as [[m w1]|e|]; cbn [bind] in Step; [|exists (Raise e), (S f0); split; [easy|]; split; [intros f [|n] Hf Hn; [lia|]; apply Step; lia|easy]|easy].
    specialize (W2 _ _ eq_refl). destruct (_ || _) eqn:Ec.
    { exists (Ok (dbw + len data, r1, w1)), (S f0). split; [easy|]. split; [intros f [|n] Hf Hn; [lia|]; apply Step; lia|]. intros a [= <-]. now split. }
    destruct (IH r1 w1 (dbw + len data) A W2) as (u & f1 & U1 & U2 & U3); [unfold c in *; lia|unfold c in *; lia|].
    exists u, (S (Nat.max f0 f1)). split; [exact U1|]. split; [|exact U3]. intros f [|n] Hf Hn; [lia|]. rewrite Step by lia. apply U2; lia.
  Qed.
  (** Of an object without content nothing is copied. *)
  Lemma copy_ends size cs r w : 1 <= cs -> G r -> P w -> 0 <= size ->
    (size = 0 -> ends (fun f => rd f r 0) (fun p => G (snd p) /\ fst p = [])) ->
    ends (fun f => stream_copy (rd f) wr f r w size cs) (fun p => G (snd (fst p)) /\ P (snd p)).
  Proof.
    intros Hcs Hr Hw Hs H0. apply (ends2_ends (fun f n => stream_copy (rd f) wr n r w size cs)). destruct (Z.eq_dec size 0) as [->|Hn].
    2:{ apply (copy_loop_ends size cs Hcs (Z.to_nat size) r w 0 Hr Hw); lia. }
    destruct (H0 eq_refl) as (v & f0 & V1 & V2 & V3).
    assert (Step : forall f n, (f0 <= f)%nat -> stream_copy (rd f) wr (S n) r w 0 cs =
      let! (data, r) := v in let! (_, w) := wr w data in
      if (len data <? 0) || (0 + len data =? 0) then Ok (0 + len data, r, w) else stream_copy_loop (rd f) wr n r w 0 cs (0 + len data)).
    { intros f n Hf. unfold stream_copy. cbn [stream_copy_loop]. replace (Z.min cs (0 - 0)) with 0 by lia. now rewrite V2. }
    destruct v as [[data r1]|e|]; cbn [bind] in Step; [|exists (Raise e), (S f0); split; [easy|]; split; [intros f [|n] Hf Hn; [lia|]; apply Step; lia|easy]|easy].
    destruct (V3 _ eq_refl) as (A & B). cbn [fst snd] in *. subst data. destruct (Hwr w [] Hw HD) as (W1 & W2).
    destruct (wr w []) as [[m w1]|e|]; cbn [bind] in Step; [|exists (Raise e), (S f0); split; [easy|]; split; [intros f [|n] Hf Hn; [lia|]; apply Step; lia|easy]|easy].
    specialize (W2 _ _ eq_refl). cbn [len length Z.of_nat Z.ltb Z.compare orb Z.add Z.eqb] in Step.
    exists (Ok (0, r1, w1)), (S f0). split; [easy|]. split; [intros f [|n] Hf Hn; [lia|]; apply Step; lia|]. intros a [= <-]. now split.
  Qed.
End Copy.

(** ** Deltas *)
Lemma alloc_ends n : allocate_memory n <> Diverge /\ forall b, allocate_memory n = Ok b -> is_bytes (mb_data b).
Proof.
  unfold allocate_memory. destruct (_ =? _); [split; [easy|]; intros b [= <-]; constructor|]. destruct (_ <? _); [easy|]. split; [easy|]. intros b [= <-]. cbn [mb_data].
  apply Forall_forall. intros x Hx. apply repeat_spec in Hx as ->. unfold is_byte. lia.
Qed.
Lemma slice_to_bytes l a : is_bytes l -> is_bytes (slice_to l a).
Proof. intros H. unfold slice_to. now apply is_bytes_firstn. Qed.
Lemma mb_write_ends b d : is_bytes (mb_data b) -> is_bytes d -> mb_write b d <> Diverge /\ forall m b', mb_write b d = Ok (m, b') -> is_bytes (mb_data b').
Proof.
  intros H1 H2. unfold mb_write. destruct (_ && _); [easy|]. split; [easy|]. intros m b' [= <- <-]. cbn [mb_data].
  apply Forall_app. split; [now apply slice_to_bytes|]. apply Forall_app. split; [exact H2|now apply slice_from_bytes].
Qed.
Lemma mb_write_any b d : mb_write b d <> Diverge.
Proof. unfold mb_write. now destruct (_ && _). Qed.
Lemma msb_ends data o : msb_size data o <> Diverge /\ forall i n, msb_size data o = Ok (i, n) -> 0 <= n.
Proof.
  unfold msb_size. assert (W : forall k i size, 0 <= size -> msb_loop k data o i size <> Diverge /\ forall j n, msb_loop k data o i size = Ok (j, n) -> 0 <= n).
  { induction k as [|k IH]; intros i size Hs; cbn [msb_loop]; [easy|]. pose proof (index_no_diverge _ data (i + o)). destruct (index data (i + o)) as [c| |]; cbn [bind]; [|easy|easy].
    assert (0 <= Z.lor size (Z.shiftl (Z.land c 127) (i * 7))).
    { apply Z.lor_nonneg. split; [exact Hs|]. apply Z.shiftl_nonneg, Z.land_nonneg. right. lia. }
    destruct (_ =? _); [split; [easy|]; now intros j n [= <- <-]|]. now apply IH. }
  apply W. lia.
Qed.

Section Plain.
  Context (K : zlib) (ok : zs K -> Prop) (HK : inflater K ok).
  Notation reader := (reader K).
  (** A reader of known size. *)
  Definition plain (s : Z) (r : reader) : Prop := fine K ok r /\ r_buf r = None /\ r_s r = Some s /\ 0 <= r_br r <= s.
  Lemma plain_init m s : is_bytes m -> 0 <= s -> plain s (reader_init K m (Some s)).
  Proof. intros H1 H2. split; [now apply fine_init|]. cbn. repeat split; lia. Qed.
  Lemma plain_read s r n : plain s r -> ends (fun f => read f r n) (fun p => plain s (snd p) /\ is_bytes (fst p) /\ len (fst p) <= asked K s r n).
  Proof.
    intros (H1 & H2 & H3 & H4). destruct (plain_ends K ok HK s _ r n H1 H2 (le_n _)) as (v & V1 & V2 & V3).
    eexists v, _. split; [exact V1|]. split; [intros f Hf; unfold read, get_s; rewrite H3; cbn [bind]; apply V2; exact Hf|].
    intros [out r'] Ho. destruct (V3 _ _ Ho) as (A & B & C & D & E & F). cbn [fst snd]. split; [|now split]. split; [exact A|]. split; [exact C|]. split; [congruence|].
    pose proof (len_nonneg _ out). unfold asked in F. destruct (n <? 1); unfold bytes in *; lia.
  Qed.
  Lemma plain_read1 s r n : plain s r -> 1 <= n -> ends (fun f => read f r n) (fun p => plain s (snd p) /\ is_bytes (fst p) /\ len (fst p) <= n).
  Proof.
    intros Hr Hn. eapply ends_weak; [apply plain_read; exact Hr|]. intros [d r'] (A & B & C). split; [exact A|]. split; [exact B|]. cbn [fst] in *.
    unfold asked in C. destruct (n <? 1) eqn:E; lia.
  Qed.
  Lemma plain_read0 r : plain 0 r -> ends (fun f => read f r 0) (fun p => plain 0 (snd p) /\ fst p = []).
  Proof.
    intros Hr. eapply ends_weak; [apply plain_read; exact Hr|]. intros [d r'] (A & B & C). split; [exact A|]. cbn [fst] in *. unfold asked in C. cbn [Z.ltb Z.compare] in C.
    destruct Hr as (_ & _ & _ & Hr). destruct d as [|x d]; [easy|]. rewrite len_cons in C. pose proof (len_nonneg _ d). lia.
  Qed.
  Lemma plain_copy {W} (wr : W -> bytes -> res (Z * W)) (P : W -> Prop) s r w size cs :
    (forall w d, P w -> is_bytes d -> wr w d <> Diverge /\ forall m w', wr w d = Ok (m, w') -> P w') ->
    1 <= cs -> plain s r -> P w -> s <= size ->
    ends (fun f => stream_copy (read f) wr f r w size cs) (fun p => plain s (snd (fst p)) /\ P (snd p)).
  Proof.
    intros Hw Hcs Hr Hp Hs. pose proof Hr as (_ & _ & _ & H). apply (copy_ends (read (K:=K)) wr (plain s) P is_bytes (Forall_nil _)); try easy; [intros; now apply plain_read1|lia|].
    intros ->. assert (s = 0) as -> by lia. now apply plain_read0.
  Qed.

  Definition info_fine (i : dinfo (R := reader)) : Prop := is_bytes (di_buf i) /\ plain (di_size i) (di_r i) /\ 0 <= di_tgt i.
  Lemma peek_ends r s : plain s r -> ends (fun f => peek (read f) (r, s)) info_fine.
  Proof.
    intros Hr. unfold peek. apply (ends_bind _ (fun p => plain s (snd p) /\ is_bytes (fst p) /\ len (fst p) <= asked K s r 512) (fun a f => _)); [now apply plain_read|].
    intros [buf r1] (A & B & _). cbn [fst snd] in *. destruct (msb_ends buf 0) as (M1 & M2). destruct (msb_size buf 0) as [[o n]| |]; cbn [bind]; [|now apply ends_const|easy].
    destruct (msb_ends buf o) as (N1 & N2). destruct (msb_size buf o) as [[o' n']| |]; cbn [bind]; [|now apply ends_const|easy].
    apply ends_const; [easy|]. intros a [= <-]. split; [now apply slice_from_bytes|]. split; [exact A|]. exact (N2 _ _ eq_refl).
  Qed.
  Lemma peek_all_ends : forall ds, Forall (fun p => plain (snd p) (fst p)) ds -> ends (fun f => peek_all (read f) ds) (fun l => Forall info_fine l /\ length l = length ds).
  Proof.
    induction ds as [|[r s] ds IH]; intros H; cbn [peek_all]; [apply ends_const; [easy|]; intros a [= <-]; now split|].
    inversion H as [|? ? H1 H2]; subst. apply (ends_bind _ info_fine (fun a f => _)); [now apply peek_ends|]. intros i Hi.
    apply (ends_bind _ (fun l => Forall info_fine l /\ length l = length ds) (fun a f => _)); [now apply IH|]. intros l [L1 L2]. apply ends_const; [easy|]. intros a [= <-]. split; [now constructor|]. cbn. now rewrite L2.
  Qed.
  Lemma brute_step_ends i bbuf tbuf : info_fine i -> ends (fun f => brute_step (read f) f i bbuf tbuf) (fun p => mb_pos (fst p) = 0).
  Proof.
    intros (H1 & H2 & H3). unfold brute_step. destruct (alloc_ends (di_size i - di_offset i)) as (A1 & A2). destruct (allocate_memory _) as [dd| |]; cbn [bind]; [|now apply ends_const|easy].
    destruct (mb_write_ends dd (di_buf i) (A2 _ eq_refl) H1) as (B1 & B2). destruct (mb_write dd (di_buf i)) as [[m dd1]| |]; cbn [bind]; [|now apply ends_const|easy].
    apply (ends_bind _ (fun p => plain (di_size i) (snd (fst p)) /\ is_bytes (mb_data (snd p))) (fun a f => _)).
    { apply (plain_copy mb_write (fun w => is_bytes (mb_data w))); [intros w d; now apply mb_write_ends|unfold copy_chunk; lia|exact H2|now apply (B2 m)|lia]. }
    intros [[n r] dd2] [_ C]. cbn [fst snd] in *. apply ends_const; [|intros a Ha; apply bind_ok_inv in Ha as (t & _ & [= <-]); reflexivity].
    assert (M : forall w d, (let! (_, w) := mb_write w d in Ok w) <> Diverge) by (intros w d; pose proof (mb_write_any w d) as M; destruct (mb_write w d) as [[? ?]| |]; cbn [bind]; congruence).
    pose proof (apply_delta_data_terminates (fun w d => let! (_, w) := mb_write w d in Ok w) (mb_data bbuf) (di_src i) (mb_data dd2) tbuf M C) as T.
    destruct (apply_delta_data _ _ _ _ _ _); cbn [bind]; congruence.
  Qed.
  Lemma brute_loop_ends : forall l bbuf tbuf fts, Forall info_fine l -> 0 <= fts -> ends (fun f => brute_loop (read f) f l bbuf tbuf fts) (fun p => 0 <= snd p /\ (l <> [] \/ mb_pos bbuf = 0 -> mb_pos (fst (fst p)) = 0)).
  Proof.
    induction l as [|i l IH]; intros bbuf tbuf fts H Hf; cbn [brute_loop]; [apply ends_const; [easy|]; intros a [= <-]; split; [exact Hf|now intros [?|?]]|].
    inversion H as [|? ? H1 H2]; subst. apply (ends_bind _ (fun p => mb_pos (fst p) = 0) (fun a f => _)); [now apply brute_step_ends|]. intros [b t] Hb. cbn [fst] in Hb.
    eapply ends_weak; [apply (IH b t (di_tgt i)); [exact H2|apply H1]|]. intros p [P1 P2]. split; [exact P1|]. intros _. apply P2. now right.
  Qed.
  Lemma dar_new_ends ds b bsize t : Forall (fun p => plain (snd p) (fst p)) ds -> plain bsize b -> ends (fun f => dar_new (read f) f ds b bsize t) (fun st => 0 <= dr_size st /\ dr_br st = 0 /\ mb_pos (dr_target st) = 0).
  Proof.
    intros H1 H2. unfold dar_new. destruct (len ds + 1 <? 2) eqn:Elen; [now apply ends_const|]. destruct (_ || _); [now apply ends_const|]. unfold dar_init, py_assert. destruct (negb _); [|now apply ends_const].
    unfold set_cache_brute.
    apply (ends_ext (fun f => let! infos := peek_all (read f) ds in
       (let max_target_size := max_target infos in let m := Z.max bsize max_target_size in
        let base_size := if 1 <? len ds then m else bsize in let target_size := if 1 <? len ds then m else max_target_size in
        let! bbuf := allocate_memory base_size in
        let! (_, _, bbuf) := stream_copy (read f) mb_write f b bbuf base_size copy_chunk in
        let! tbuf := allocate_memory target_size in
        let! (bbuf, tbuf, fts) := brute_loop (read f) f (rev infos) bbuf tbuf 0 in Ok (mk_dar bbuf fts 0)))).
    { intros f. destruct (peek_all (read f) ds) as [infos| |]; cbn [bind]; [|easy|easy]. destruct (allocate_memory _) as [bb| |]; cbn [bind]; [|easy|easy].
      destruct (stream_copy _ _ _ _ _ _ _) as [[[? ?] ?]| |]; cbn [bind]; [|easy|easy]. destruct (allocate_memory _) as [tb| |]; cbn [bind]; [|easy|easy]. destruct (brute_loop _ _ _ _ _ _) as [[[? ?] ?]| |]; easy. }
    apply (ends_bind _ (fun l => Forall info_fine l /\ length l = length ds) (fun a f => _)); [now apply peek_all_ends|]. intros infos [I1 I2]. cbn zeta.
    destruct (alloc_ends (if 1 <? len ds then Z.max bsize (max_target infos) else bsize)) as (A1 & A2).
    destruct (allocate_memory _) as [bb| |]; cbn [bind]; [|now apply ends_const|easy].
    apply (ends_bind _ (fun p => plain bsize (snd (fst p)) /\ is_bytes (mb_data (snd p))) (fun a f => _)).
    { apply (plain_copy mb_write (fun w => is_bytes (mb_data w))); [intros w d; now apply mb_write_ends|unfold copy_chunk; lia|exact H2|now apply A2|destruct (1 <? len ds); lia]. }
    intros [[n r] bb2] _. destruct (alloc_ends (if 1 <? len ds then Z.max bsize (max_target infos) else max_target infos)) as (T1 & _).
    destruct (allocate_memory _) as [tb| |]; cbn [bind]; [|now apply ends_const|easy].
    eapply (ends_bind _ (fun p => 0 <= snd p /\ (rev infos <> [] \/ mb_pos bb2 = 0 -> mb_pos (fst (fst p)) = 0)) (fun a f => _)); [apply brute_loop_ends; [now apply Forall_rev|lia]|]. intros [[b1 t1] fts] [Hf1 Hf2]. apply ends_const; [easy|]. intros a [= <-].
    split; [exact Hf1|]. split; [reflexivity|]. apply Hf2. left. intros E. apply (f_equal (@length _)) in E. rewrite rev_length in E. cbn in E. unfold len in Elen. lia.
  Qed.

  (** ** Packs *)
  Definition good (pack : bytes) (o : pobj K) : Prop := exists off n, pack_object_at K pack off = Ok (n, o).
  Lemma pack_header_nonneg t bs n : pack_header t bs n -> 0 <= n.
  Proof.
    intros [m Hm|lo l hi H1 H2]; [lia|]. enough (0 <= hi) by lia. induction H2; lia.
  Qed.
  Lemma object_at_ends pack off : is_bytes pack -> pack_object_at K pack off <> Diverge.
  Proof.
    intros Hp E. unfold pack_object_at in E. destruct (region pack off) as [r| |] eqn:Er; cbn [bind] in E; try discriminate.
    2:{ unfold region in Er. destruct (_ && _) in Er; discriminate. }
    destruct (pack_object_header_info r) as [[[t s] k]| |] eqn:E1; cbn [bind] in E; try discriminate.
    2:{ unfold pack_object_header_info in E1. destruct r as [|c rest]; [discriminate|].
        assert (W : forall rest c sz s i, poh_loop rest c sz s i <> Diverge).
        { clear. induction rest as [|c' rest IH]; intros c sz s i; cbn [poh_loop]; destruct (Z.land c 128 =? 0); try discriminate. apply IH. }
        specialize (W rest c (Z.land c 15) 4 1). destruct (poh_loop rest c (Z.land c 15) 4 1) as [[]| |]; cbn [bind] in E1; congruence. }
    destruct (t =? OFS_DELTA).
    - unfold ofs_delta_info in E. destruct (slice_from r k) as [|c rest]; [discriminate|].
      assert (W : forall rest c d i, ofs_loop rest c d i <> Diverge).
      { clear. induction rest as [|c' rest IH]; intros c d i; cbn [ofs_loop]; destruct (Z.land c 128 =? 0); try discriminate. apply IH. }
      specialize (W rest c (Z.land c 127) (k + 1)). destruct (ofs_loop rest c (Z.land c 127) (k + 1)) as [[]| |]; cbn [bind] in E; congruence.
    - destruct (t =? REF_DELTA); discriminate.
  Qed.
  Lemma object_at_inv pack off n o : is_bytes pack -> pack_object_at K pack off = Ok (n, o) ->
    0 <= off /\ po_offset o = off /\ plain (po_size o) (po_stream o) /\
    match po_delta o with NoDelta => True | RefDelta s => ref_at pack off s /\ is_bytes s | OfsDelta d => ofs_at pack off d end.
  Proof.
    intros Hp E. unfold pack_object_at, region in E. destruct ((0 <=? off) && (off <? len pack)) eqn:Er; [|discriminate]. cbn [bind] in E.
    assert (pack = firstn (Z.to_nat off) pack ++ slice_from pack off) as Hsplit by (rewrite slice_from_spec by lia; symmetry; apply firstn_skipn).
    assert (is_bytes (slice_from pack off)) as Hb by now apply slice_from_bytes. set (data := slice_from pack off) in *.
    assert (len (firstn (Z.to_nat off) pack) = off) as Hpre by (rewrite len_firstn; lia). set (pre := firstn (Z.to_nat off) pack) in *.
    apply bind_ok_inv in E as ([[t sz] k] & E1 & E). apply bind_ok_inv in E as ([dl k2] & E2 & E). injection E as <- <-. cbn [po_offset po_size po_stream po_delta].
    destruct (pack_object_header_info_inv data t sz k Hb E1) as (Ht & hdr & tl & D1 & D2 & D3).
    split; [lia|]. split; [reflexivity|]. split; [apply plain_init; [apply slice_from_bytes; exact Hb|exact (pack_header_nonneg _ _ _ D3)]|].
    destruct (t =? OFS_DELTA) eqn:Et.
    - apply bind_ok_inv in E2 as ([d i] & E2 & E3). injection E3 as <- <-. pose proof (len_nonneg _ hdr). pose proof (len_nonneg _ tl).
      assert (len data = len hdr + len tl) as Hl by now rewrite D1, len_app.
      destruct (ofs_decode_inv data k d i Hb) as (pre2 & bs & tl2 & F1 & F2 & F3 & F4); [unfold bytes in *; lia|unfold bytes in *; lia|exact E2|].
      assert (pre2 = hdr /\ tl = bs ++ tl2) as [-> ->].
      { rewrite D1 in F1. apply app_inj_len in F1; [|unfold bytes in *; lia]. destruct F1; now split. }
      exists pre, hdr, sz, bs, tl2. split; [rewrite Hsplit at 1; now rewrite D1|]. split; [exact Hpre|]. split; [|exact F4]. apply Z.eqb_eq in Et. now rewrite Et in D3.
    - destruct (t =? REF_DELTA) eqn:Er2; injection E2 as <- <-; [|easy]. apply Z.eqb_eq in Er2.
      assert (slice data k (k + 20) = firstn (Z.to_nat 20) tl) as ->.
      { pose proof (len_nonneg _ hdr). rewrite D1, D2. rewrite slice_spec by (unfold bytes in *; lia). rewrite skipn_app, skipn_all2 by (unfold len; lia). cbn [app].
        replace (Z.to_nat (len hdr) - length hdr)%nat with 0%nat by (unfold len; lia). cbn [skipn]. f_equal. lia. }
      split; [|]. 2:{ rewrite D1 in Hb. apply Forall_app in Hb as [_ Hb]. now apply is_bytes_firstn. }
      exists pre, hdr, sz, (skipn (Z.to_nat 20) tl). rewrite firstn_skipn. split; [rewrite Hsplit at 1; now rewrite D1|]. split; [exact Hpre|]. now rewrite Er2 in D3.
  Qed.
  Lemma ofs_at_nonneg pack off d : ofs_at pack off d -> 0 <= d.
  Proof.
    intros (pre & hdr & sz & bs & more & _ & _ & _ & (init & last & -> & _ & _ & ->)).
    assert (W : forall bs acc, 0 <= acc -> 0 <= concat7 acc bs).
    { clear. induction bs as [|b bs IH]; intros acc Ha; cbn [concat7]; [exact Ha|]. apply IH. lia. }
    assert (W2 : forall k, 0 <= geo7 k).
    { clear. induction k as [|[|k] IH]; cbn [geo7]; try lia. cbn [geo7] in IH. pose proof (Z.pow_nonneg 2 (7 * Z.of_nat (S k)) ltac:(lia)). lia. }
    pose proof (W (init ++ [last]) 0 ltac:(lia)). pose proof (W2 (length (init ++ [last]))). lia.
  Qed.
  Lemma at_split pack pre more off : pack = pre ++ more -> len pre = off -> more <> [] -> region pack off = Ok more.
  Proof.
    intros -> <- Hm. pose proof (len_nonneg _ pre). unfold region. rewrite len_app. destruct more as [|c more]; [easy|]. rewrite len_cons. pose proof (len_nonneg _ more).
    replace ((0 <=? len pre) && (len pre <? len pre + (len more + 1))) with true by lia. now rewrite slice_from_app.
  Qed.
  Lemma header_nonempty t bs n : pack_header t bs n -> bs <> [].
  Proof. now intros []. Qed.
  Lemma ofs_object pack off d : ofs_at pack off d -> exists n o, pack_object_at K pack off = Ok (n, o) /\ po_delta o = OfsDelta d /\ po_offset o = off.
  Proof.
    intros (pre & hdr & sz & bs & more & E & L & H1 & H2). unfold pack_object_at. rewrite (at_split pack pre (hdr ++ bs ++ more) off E L) by (pose proof (header_nonempty _ _ _ H1); now destruct hdr). cbn [bind].
    rewrite (pack_header_parse 6 hdr sz (bs ++ more)) by (lia || easy). cbn [bind Z.eqb]. change (6 =? OFS_DELTA) with true. cbn iota. rewrite (ofs_decode hdr bs more d H2). cbn [bind].
    eexists _, _. split; [reflexivity|]. now split.
  Qed.
  Lemma ref_object pack off s : ref_at pack off s -> len s = 20 -> exists n o, pack_object_at K pack off = Ok (n, o) /\ po_delta o = RefDelta s /\ po_offset o = off.
  Proof.
    intros (pre & hdr & sz & more & E & L & H1) Hs. unfold pack_object_at. rewrite (at_split pack pre (hdr ++ s ++ more) off E L) by (pose proof (header_nonempty _ _ _ H1); now destruct hdr). cbn [bind].
    rewrite (pack_header_parse 7 hdr sz (s ++ more)) by (lia || easy). cbn [bind]. change (7 =? OFS_DELTA) with false. change (7 =? REF_DELTA) with true. cbn iota. cbn [bind].
    rewrite slice_mid by lia. eexists _, _. split; [reflexivity|]. now split.
  Qed.

  Section Query.
    Context (sha1 : bytes -> bytes) (pagesize : Z) (Hpage : 1 <= pagesize) (pack : bytes) (Hp : is_bytes pack).
    Context (v : Z) (shas : list bytes) (crcs offs : list Z) (idx : bytes) (ix : pidx).
    Context (Hf : index_file v shas crcs offs idx) (Hs : strictly_sorted_shas shas) (Ho : index_open idx = Ok ix).
    Let e := mk_entity ix pack.

    Lemma offset_ends i : ix_offset ix i <> Diverge.
    Proof.
      clear. assert (W : forall n d o, unpack_be n d o <> Diverge) by (intros n d o; unfold unpack_be; now destruct (_ && _)).
      unfold ix_offset. destruct (_ =? _); [|apply W]. pose proof (W 4%nat (ix_map ix) (ix_pack_offset ix + i * 4)). destruct (unpack_be 4 _ _); cbn [bind]; [|easy|easy]. destruct (negb _); [apply W|easy].
    Qed.
    Lemma lookup s i : is_bytes s -> sha_to_index ix s = Ok (Some i) -> exists p, found_at shas offs s p /\ ix_offset ix i = Ok p.
    Proof.
      clear Hp e Hpage. intros Hb H. destruct (open_file _ _ _ _ _ Hf) as (ix' & H1 & (_ & _ & Hr) & Hop & _). assert (ix' = ix) as -> by congruence.
      pose proof (strict_sorted _ Hs) as Hs'. assert (length crcs = length shas /\ length offs = length shas) as [Hl1 Hl2] by (clear - Hf; destruct Hf; [split; [now rewrite map_length|easy]|easy]).
      clear H1 Ho. unfold sha_to_index in H. destruct s as [|b s]; [discriminate H|]. change (index (b :: s) 0) with (Ok b) in H || (rewrite index_hd in H by (rewrite len_cons; pose proof (len_nonneg _ s); lia)). cbn [bind hd] in H.
      inversion Hb as [|? ? Hb1 _]; subst. unfold is_byte in Hb1. destruct (bounds_ok shas ix b Hop Hs') as (lo & hi & B1 & B2 & B3 & B4 & _); [lia|]. rewrite B1 in H. cbn [bind] in H.
      apply bisect_sound in H as [S1 S2]. destruct (index_in _ shas i) as (s' & Hi); [lia|]. destruct (index_in _ crcs i) as (c & Hci); [unfold len in *; lia|]. destruct (index_in _ offs i) as (p & Hpi); [unfold len in *; lia|].
      destruct (Hr i s' c p) as (_ & _ & R & _); [lia|easy|easy|easy|]. assert (s' = b :: s) as -> by (rewrite <- S1; symmetry; apply Hop; [lia|exact Hi]).
      exists p. split; [|exact R]. exists i. split; [exact Hi|]. split; [exact Hpi|lia].
    Qed.
    Lemma stream_place off : pack_stream K pack off = (let! (_, o) := pack_object_at K pack (place off) in Ok o).
    Proof. reflexivity. Qed.
    Definition resolvable (off : Z) : Prop := forall n o, pack_object_at K pack off = Ok (n, o) -> ends (fun f => resolve_loop K f e o) (Forall (good pack)).
    Lemma resolve_step off n o : pack_object_at K pack off = Ok (n, o) ->
      (forall d, ofs_at pack off d -> resolvable (place d)) -> (forall s p, ref_at pack off s -> found_at shas offs s p -> resolvable (place p)) ->
      ends (fun f => resolve_loop K f e o) (Forall (good pack)).
    Proof.
      intros E Hofs Href. destruct (object_at_inv pack off n o Hp E) as (O1 & O2 & O3 & O4).
      assert (Next : forall p, resolvable (place p) -> exists w f0, w <> Diverge /\ (forall f, (f0 <= f)%nat -> (let! s := pack_stream K pack p in let! l := resolve_loop K f e s in Ok (s :: l)) = w) /\ forall a, w = Ok a -> Forall (good pack) a).
      { intros p Hg. rewrite stream_place. pose proof (object_at_ends pack (place p) Hp). destruct (pack_object_at K pack (place p)) as [[n1 o1]|x|] eqn:E1; cbn [bind]; [|exists (Raise x), 0%nat; now split|easy].
        destruct (Hg n1 o1 E1) as (w & f0 & W1 & W2 & W3). exists (let! l := w in Ok (o1 :: l)), f0. split; [now destruct w|]. split; [intros f Hf0; now rewrite W2|].
        intros a Ha. apply bind_ok_inv in Ha as (l & -> & [= <-]). constructor; [now exists (place p), n1|now apply W3]. }
      destruct (po_delta o) as [|d|s] eqn:Ed.
      - exists (Ok []), 1%nat. split; [easy|]. split; [intros [|f] Hf0; [lia|]; cbn [resolve_loop]; now rewrite Ed|]. intros a [= <-]. constructor.
      - destruct (Next d (Hofs d O4)) as (w & f0 & W1 & W2 & W3). exists w, (S f0). split; [exact W1|]. split; [|exact W3].
        intros [|f] Hf0; [lia|]. cbn [resolve_loop]. rewrite Ed. apply W2. lia.
      - destruct O4 as [O4 O5]. pose proof (sha_to_index_terminates ix s) as N. destruct (sha_to_index ix s) as [[i|]|x|] eqn:Es.
        + destruct (lookup s i O5 Es) as (p & P1 & P2). destruct (Next p (Href s p O4 P1)) as (w & f0 & W1 & W2 & W3).
          exists w, (S f0). split; [exact W1|]. split; [|exact W3]. intros [|f] Hf0; [lia|]. cbn [resolve_loop e en_index en_pack]. rewrite Ed, Es. cbn [bind]. rewrite P2. cbn [bind]. apply W2. lia.
        + exists (Ok []), 1%nat. split; [easy|]. split; [intros [|f] Hf0; [lia|]; cbn [resolve_loop e en_index]; now rewrite Ed, Es|]. intros a [= <-]. constructor.
        + exists (Raise x), 1%nat. split; [easy|]. split; [intros [|f] Hf0; [lia|]; cbn [resolve_loop e en_index]; now rewrite Ed, Es|easy].
        + easy.
    Qed.
    Notation chain_ends := (chain_ends pack shas offs).
    Lemma chain_resolvable off : chain_ends true off -> resolvable off.
    Proof.
      intros H. remember true as after eqn:Ha. induction H as [after off _ IH1 _ IH2]. subst after. intros n o E.
      apply (resolve_step off n o E); [intros d Hd; now apply IH1|intros s p H1 H2; now apply (IH2 s)].
    Qed.
    (** What the first loop leaves. *)
    Definition collected (l : list (pobj K)) : Prop :=
      Forall (good pack) l /\ exists o off n, index l (-1) = Ok o /\ pack_object_at K pack off = Ok (n, o) /\
        forall s p, po_delta o = RefDelta s -> found_at shas offs s p -> chain_ends true (place p).
    Lemma last_cons {A} (x y : A) l : index (x :: y :: l) (-1) = index (y :: l) (-1).
    Proof.
      clear. assert (W : forall (z : A) m, index (z :: m) (-1) = match nth_error (z :: m) (length m) with Some a => Ok a | None => Raise IndexError end).
      { intros z m. unfold index. cbn [Z.ltb Z.compare]. rewrite len_cons. pose proof (len_nonneg _ m). replace ((0 <=? -1 + (len m + 1)) && (-1 + (len m + 1) <? len m + 1)) with true by lia. replace (Z.to_nat (-1 + (len m + 1))) with (length m) by (unfold len; lia). reflexivity. }
      rewrite !W. reflexivity.
    Qed.
    Lemma collect_ends off : chain_ends false off -> ends (fun f => collect_streams K f pack off) collected.
    Proof.
      intros H. remember false as after eqn:Ha. induction H as [after off _ IH1 H2 _]. subst after.
      pose proof (object_at_ends pack off Hp) as N. destruct (pack_object_at K pack off) as [[n o]|x|] eqn:E; [|exists (Raise x), 1%nat; split; [easy|]; split; [intros [|f] Hf0; [lia|]; cbn [collect_streams]; now rewrite E|easy]|easy].
      destruct (object_at_inv pack off n o Hp E) as (O1 & O2 & O3 & O4). destruct (po_delta o) as [|d|s] eqn:Ed.
      2:{ destruct (IH1 d O4 eq_refl) as (w & f0 & V1 & V2 & V3). exists (let! l := w in Ok (o :: l)), (S f0). split; [now destruct w|]. split.
          - intros [|f] Hf0; [lia|]. cbn [collect_streams]. rewrite E. cbn [bind]. rewrite Ed, O2, V2 by lia. reflexivity.
          - intros a Ha. apply bind_ok_inv in Ha as (l & -> & [= <-]). destruct (V3 l eq_refl) as (L1 & o' & off' & n' & L2 & L3).
            split; [constructor; [now exists off, n|exact L1]|]. exists o', off', n'. split; [|exact L3]. destruct l as [|y l]; [discriminate L2|]. now rewrite last_cons. }
      all: exists (Ok [o]), 1%nat; (split; [easy|]); (split; [intros [|f] Hf0; [lia|]; cbn [collect_streams]; rewrite E; cbn [bind]; now rewrite Ed|]); intros a [= <-]; (split; [constructor; [now exists off, n|constructor]|]); exists o, off, n; (split; [reflexivity|]); (split; [exact E|]); rewrite Ed; intros s' p Hs' Hfound; try discriminate Hs'.
      assert (s = s') as -> by congruence. now apply (H2 s').
    Qed.
    Lemma collect_at_ends off : chain_ends false off -> ends (fun f => collect_streams_at_offset K f e off) (Forall (good pack)).
    Proof.
      intros Hc. unfold collect_streams_at_offset. apply (ends_bind _ collected (fun a f => _)); [now apply collect_ends|]. intros l (L1 & o & ofo & n & L2 & E & L3).
      rewrite L2. cbn [bind]. destruct (po_delta o) as [|d|s] eqn:Ed; try (apply ends_const; [easy|]; now intros a [= <-]).
      apply (ends_bind _ (Forall (good pack)) (fun a f => _)).
      2:{ intros l2 H2. apply ends_const; [easy|]. intros a [= <-]. now apply Forall_app. }
      destruct (object_at_inv pack ofo n o Hp E) as (_ & _ & _ & O4). rewrite Ed in O4. destruct O4 as [O4 O5].
      apply (resolve_step ofo n o E).
      - intros d Hd. destruct (ofs_object _ _ _ Hd) as (n' & o' & E' & Ed' & _). exfalso. congruence.
      - intros s' p R1 R2. apply chain_resolvable. destruct (ref_object pack ofo s' R1) as (n' & o' & E' & Ed' & _).
        { destruct R2 as (i & R2 & _ & R3). destruct Hs as [Hall _]. apply index_ok_split in R2 as (a & b & -> & _); [|exact R3]. apply Forall_app in Hall as [_ Hall]. inversion Hall as [|? ? Hok _]. apply Hok. }
        assert (s' = s) as -> by congruence. now apply (L3 s).
    Qed.

    Lemma good_plain o : good pack o -> plain (po_size o) (po_stream o).
    Proof. intros (off & n & E). now apply (object_at_inv pack off n o Hp E). Qed.
    Lemma index_good l i o : Forall (good pack) l -> index l i = Ok o -> good pack o.
    Proof.
      clear. intros H E. unfold index in E. destruct (_ && _) in E; [|discriminate]. destruct (nth_error l _) eqn:En in E; [|discriminate]. injection E as ->. apply nth_error_In in En. exact (proj1 (Forall_forall _ _) H _ En).
    Qed.
    Lemma region_ends off : region pack off <> Diverge.
    Proof. clear. unfold region. now destruct (_ && _). Qed.
    Lemma header_ends d : pack_object_header_info d <> Diverge.
    Proof.
      clear. unfold pack_object_header_info. destruct d as [|c rest]; [easy|].
      assert (W : forall rest c sz s i, poh_loop rest c sz s i <> Diverge).
      { clear. induction rest as [|c' rest IH]; intros c sz s i; cbn [poh_loop]; destruct (Z.land c 128 =? 0); try discriminate. apply IH. }
      specialize (W rest c (Z.land c 15) 4 1). destruct (poh_loop rest c (Z.land c 15) 4 1) as [[]| |]; cbn [bind]; congruence.
    Qed.
    Lemma type_ends t : type_id_to_type t <> Diverge.
    Proof. clear. unfold type_id_to_type. repeat (destruct (_ =? _); [discriminate|]). discriminate. Qed.
    Lemma info_at_ends sha i : (forall p, ix_offset ix i = Ok p -> chain_ends false p) -> ends (fun f => info_at K f e sha i) (fun _ => True).
    Proof.
      intros Hc. unfold info_at. cbn [e en_index en_pack]. pose proof (offset_ends i). destruct (ix_offset ix i) as [off| |]; cbn [bind]; [|now apply ends_const|easy]. specialize (Hc off eq_refl).
      pose proof (region_ends off). destruct (region pack off) as [d| |]; cbn [bind]; [|now apply ends_const|easy].
      pose proof (header_ends d). destruct (pack_object_header_info d) as [[[t sz] k]| |]; cbn [bind]; [|now apply ends_const|easy].
      destruct (negb _). { apply ends_const; [|easy]. pose proof (type_ends t). destruct (type_id_to_type t); cbn [bind]; congruence. }
      apply (ends_bind _ (Forall (good pack)) (fun a f => _)); [now apply collect_at_ends|]. intros l Hl.
      pose proof (index_no_diverge _ l 0). destruct (index l 0) as [s0| |] eqn:E0; cbn [bind]; [|now apply ends_const|easy].
      apply (ends_bind _ (fun p => plain (po_size s0) (snd p) /\ is_bytes (fst p) /\ len (fst p) <= asked K (po_size s0) (po_stream s0) 512) (fun a f => _)); [apply plain_read, good_plain, (index_good l 0 s0 Hl E0)|].
      intros [buf r] _. apply ends_const; [|easy].
      destruct (msb_ends buf 0) as (M1 & _). destruct (msb_size buf 0) as [[o n]| |]; cbn [bind]; [|easy|easy].
      destruct (msb_ends buf o) as (M2 & _). destruct (msb_size buf o) as [[o' n']| |]; cbn [bind]; [|easy|easy].
      pose proof (index_no_diverge _ l (-1)). destruct (index l (-1)) as [last| |]; cbn [bind]; [|easy|easy]. destruct (is_delta_type _); [easy|].
      pose proof (type_ends (po_type_id last)). destruct (type_id_to_type _); cbn [bind]; congruence.
    Qed.
    (** A stream that comes out. *)
    Definition stream_fine (o : ostream K) : Prop :=
      match o with OPlain _ _ n r => plain n r | ODelta _ _ st => 0 <= dr_br st <= dr_size st /\ 0 <= mb_pos (dr_target st) end.
    Lemma stream_at_ends sha i : (forall p, ix_offset ix i = Ok p -> chain_ends false p) -> ends (fun f => stream_at K f e sha i) (fun o => stream_fine o /\ match o with OPlain _ _ n r => True | ODelta _ _ st => dr_br st = 0 end).
    Proof.
      intros Hc. unfold stream_at. cbn [e en_index en_pack]. pose proof (offset_ends i). destruct (ix_offset ix i) as [off| |]; cbn [bind]; [|now apply ends_const|easy]. specialize (Hc off eq_refl).
      pose proof (region_ends off). destruct (region pack off) as [d| |]; cbn [bind]; [|now apply ends_const|easy].
      pose proof (header_ends d). destruct (pack_object_header_info d) as [[[t sz] k]| |]; cbn [bind]; [|now apply ends_const|easy].
      destruct (negb _).
      { rewrite stream_place. pose proof (object_at_ends pack (place off) Hp). destruct (pack_object_at K pack (place off)) as [[n o]| |] eqn:E; cbn [bind]; [|now apply ends_const|easy].
        pose proof (type_ends (po_type_id o)). apply ends_const; [destruct (type_id_to_type (po_type_id o)); cbn [bind]; congruence|].
        intros a Ha. apply bind_ok_inv in Ha as (ty & _ & Ha). assert (a = OPlain sha ty (po_size o) (po_stream o)) as -> by congruence. split; [|exact I]. apply good_plain. now exists (place off), n. }
      apply (ends_bind _ (Forall (good pack)) (fun a f => _)); [now apply collect_at_ends|]. intros l Hl.
      pose proof (index_no_diverge _ l (-1)). destruct (index l (-1)) as [last| |] eqn:El; cbn [bind]; [|now apply ends_const|easy].
      apply (ends_bind _ (fun st => 0 <= dr_size st /\ dr_br st = 0 /\ mb_pos (dr_target st) = 0) (fun a f => _)).
      { apply dar_new_ends; [|exact (good_plain _ (index_good l (-1) last Hl El))]. apply Forall_map. cbn [fst snd]. unfold slice_to.
        apply Forall_forall. intros x Hx. apply good_plain. apply (proj1 (Forall_forall _ _) Hl). rewrite <- (firstn_skipn (Z.to_nat (norm_idx (len l) (-1))) l). apply in_app_iff. now left. }
      intros st (S1 & S2 & S3). pose proof (type_ends (po_type_id last)). apply ends_const; [destruct (type_id_to_type (po_type_id last)); cbn [bind]; congruence|].
      intros a Ha. apply bind_ok_inv in Ha as (ty & _ & Ha). assert (a = ODelta sha ty st) as -> by congruence. cbn. lia.
    Qed.
    (** The objects with that name *)
    Definition named_ends (sha : bytes) : Prop := forall p, found_at shas offs sha p -> chain_ends false p.
    Lemma named_offset sha i p : is_bytes sha -> named_ends sha -> entity_index e sha = Ok i -> ix_offset ix i = Ok p -> chain_ends false p.
    Proof.
      intros Hb Hn H Hi. unfold entity_index in H. cbn [e en_index] in H. apply bind_ok_inv in H as ([j|] & H & Hj); [|discriminate Hj]. assert (j = i) as -> by congruence.
      destruct (lookup sha i Hb H) as (q & Q1 & Q2). assert (q = p) as -> by congruence. now apply Hn.
    Qed.
    Lemma index_ends sha : entity_index e sha <> Diverge.
    Proof. clear Hpage. unfold entity_index. cbn [e en_index]. pose proof (sha_to_index_terminates ix sha). destruct (sha_to_index ix sha) as [[i|]| |]; cbn [bind]; congruence. Qed.
    Lemma entity_info_ends sha : is_bytes sha -> named_ends sha -> ends (fun f => entity_info K f e sha) (fun _ => True).
    Proof. intros Hb Hn. unfold entity_info. pose proof (index_ends sha). destruct (entity_index e sha) as [i| |] eqn:Ei; cbn [bind]; [|now apply ends_const|easy]. apply info_at_ends. intros p. now apply (named_offset sha). Qed.
    Lemma entity_stream_ends sha : is_bytes sha -> named_ends sha -> ends (fun f => entity_stream K f e sha) (fun o => stream_fine o /\ match o with OPlain _ _ n r => True | ODelta _ _ st => dr_br st = 0 end).
    Proof. intros Hb Hn. unfold entity_stream. pose proof (index_ends sha). destruct (entity_index e sha) as [i| |] eqn:Ei; cbn [bind]; [|now apply ends_const|easy]. apply stream_at_ends. intros p. now apply (named_offset sha). Qed.
    Lemma entity_collect_ends sha : is_bytes sha -> named_ends sha -> ends (fun f => entity_collect_streams K f e sha) (fun _ => True).
    Proof.
      intros Hb Hn. unfold entity_collect_streams. pose proof (index_ends sha). destruct (entity_index e sha) as [i| |] eqn:Ei; cbn [bind]; [|now apply ends_const|easy].
      cbn [e en_index]. pose proof (offset_ends i). destruct (ix_offset ix i) as [off| |] eqn:Eo; cbn [bind]; [|now apply ends_const|easy].
      eapply ends_weak; [apply collect_at_ends; now apply (named_offset sha i)|easy].
    Qed.
    (** Reading from it *)
    Lemma slice_len_le {A} (l : list A) a n : 0 <= a -> 0 <= n -> len (slice l a (a + n)) <= n.
    Proof. clear. intros Ha Hn. rewrite slice_spec by lia. rewrite len_firstn. lia. Qed.
    Lemma os_read_ends o n : stream_fine o -> ends (fun f => os_read f o n)
      (fun p => stream_fine (snd p) /\ (1 <= n -> len (fst p) <= n) /\ (n = 0 -> os_size o = 0 -> fst p = [])).
    Proof.
      intros Ho'. destruct o as [sha t s r|sha t st]; cbn [os_read os_size stream_fine] in *.
      - apply (ends_bind _ (fun p => plain s (snd p) /\ is_bytes (fst p) /\ len (fst p) <= asked K s r n) (fun a f => _)); [now apply plain_read|]. intros [d r1] (A & _ & B). cbn [fst snd] in *.
        apply ends_const; [easy|]. intros a [= <-]. cbn [fst snd]. split; [exact A|]. unfold asked in B. destruct Ho' as (_ & _ & _ & Hr).
        split; [intros Hn; destruct (n <? 1) eqn:E; lia|]. intros -> ->. cbn [Z.ltb Z.compare] in B. destruct d as [|x d]; [reflexivity|]. exfalso. rewrite len_cons in B. pose proof (len_nonneg _ d). lia.
      - destruct Ho' as [H1 H2]. apply ends_const; [unfold dar_read; destruct (mb_read _ _); discriminate|]. unfold dar_read, mb_read. intros a [= <-]. cbn [fst snd stream_fine dr_br dr_size dr_target mb_pos].
        set (c := if (n <? 1) || (dr_size st - dr_br st <? n) then dr_size st - dr_br st else n). assert (0 <= c <= dr_size st - dr_br st) by (unfold c; destruct (_ || _) eqn:E; lia).
        pose proof (slice_len_le (mb_data (dr_target st)) (mb_pos (dr_target st)) c H2 ltac:(lia)). set (sl := slice _ _ _) in *. pose proof (len_nonneg _ sl).
        split; [unfold bytes in *; lia|]. split; [intros Hn; unfold c in *; destruct (_ || _) eqn:E; unfold bytes in *; lia|]. intros -> Hsz. destruct sl as [|x sl]; [reflexivity|]. exfalso. rewrite len_cons in *. pose proof (len_nonneg _ sl). lia.
    Qed.
    Lemma os_run_ends : forall ops o, match o with OPlain _ _ _ r => fine K ok r | _ => True end ->
      ends (fun f => run_stream (os_read f) os_seek0 o ops) (fun _ => True).
    Proof.
      induction ops as [|[n|] ops IH]; intros o Ho'; cbn [run_stream]; [now apply ends_const| |].
      - apply (ends_bind _ (fun p => match snd p with OPlain _ _ _ r => fine K ok r | _ => True end) (fun a f => _)).
        2:{ intros [d o1] H1. apply (ends_bind _ (fun _ => True) (fun a f => _)); [exact (IH o1 H1)|]. intros l _. now apply ends_const. }
        destruct o as [sha t s r|sha t st]; cbn [os_read].
        + apply (ends_bind _ (fun p => fine K ok (snd p) /\ is_bytes (fst p)) (fun a f => _)); [now apply read_ends|]. intros [d r1] [A _]. apply ends_const; [easy|]. now intros a [= <-].
        + apply ends_const; destruct (dar_read st n); [easy|]. now intros a [= <-].
      - destruct o as [sha t s r|sha t st]; cbn [os_seek0].
        + destruct (seek_ends K ok HK r Ho') as (r' & -> & Hr'). cbn [bind]. apply (ends_bind _ (fun _ => True) (fun a f => _)); [now apply IH|]. intros l _. now apply ends_const.
        + cbn [dar_seek Z.eqb negb orb bind]. apply (ends_bind _ (fun _ => True) (fun a f => _)); [now apply IH|]. intros l _. now apply ends_const.
    Qed.
    Lemma entity_run_ends sha ops : is_bytes sha -> named_ends sha -> ends (fun f => let! o := entity_stream K f e sha in run_stream (os_read f) os_seek0 o ops) (fun _ => True).
    Proof.
      intros Hb Hn. apply (ends_bind _ (fun o => stream_fine o /\ match o with OPlain _ _ n r => True | ODelta _ _ st => dr_br st = 0 end) (fun a f => _)); [now apply entity_stream_ends|].
      intros o [H1 _]. apply os_run_ends. destruct o; [apply H1|exact I].
    Qed.
    Lemma valid_sha_ends sha : is_bytes sha -> named_ends sha -> ends (fun f => is_valid_sha K sha1 pagesize f e sha) (fun _ => True).
    Proof.
      intros Hb Hn. unfold is_valid_sha. apply (ends_bind _ (fun o => stream_fine o /\ match o with OPlain _ _ n r => True | ODelta _ _ st => dr_br st = 0 end) (fun a f => _)); [now apply entity_stream_ends|].
      intros o [H1 _]. apply (ends_bind _ (fun _ => True) (fun a f => _)); [|intros [[n r] w] _; apply ends_const; [unfold py_assert; now destruct (beq _ _)|easy]].
      unfold write_object. cbn [sha_write bind]. apply (ends_bind _ (fun _ => True) (fun a f => _)); [|intros [[n r] w] _; now apply ends_const].
      eapply ends_weak; [apply (copy_ends (os_read (K:=K)) sha_write stream_fine (fun _ => True) (fun _ => True) I)|easy].
      - intros r n Hr Hn1. eapply ends_weak; [now apply os_read_ends|]. intros p (A & B & _). split; [exact A|]. split; [exact I|now apply B].
      - intros w d _ _. split; [easy|]. easy.
      - unfold chunk_size. lia.
      - exact H1.
      - exact I.
      - destruct o as [? ? s r|? ? st]; cbn [os_size stream_fine] in *; [destruct H1 as (_ & _ & _ & H1)|destruct H1 as [H1 _]]; lia.
      - intros Hz. eapply ends_weak; [now apply os_read_ends|]. intros p (A & _ & B). split; [exact A|now apply B].
    Qed.
    (** ** The other way round *)
    Lemma found_len s p : found_at shas offs s p -> len s = 20.
    Proof. clear - Hs. intros (i & R2 & _ & R3). destruct Hs as [Hall _]. apply index_ok_split in R2 as (a & b & -> & _); [|exact R3]. apply Forall_app in Hall as [_ Hall]. inversion Hall as [|? ? Hok _]. apply Hok. Qed.
    Lemma found_answer s p : found_at shas offs s p -> exists i, sha_to_index ix s = Ok (Some i) /\ ix_offset ix i = Ok p.
    Proof. intros (i & R1 & R2 & R3). exists i. exact (proj1 (index_answers _ _ _ _ _ _ Hf Hs Ho) s i p R3 R1 R2). Qed.
    Lemma resolve_back : forall f off n o, pack_object_at K pack off = Ok (n, o) -> resolve_loop K f e o <> Diverge ->
      (forall d, ofs_at pack off d -> chain_ends true (place d)) /\ forall s p, ref_at pack off s -> found_at shas offs s p -> chain_ends true (place p).
    Proof.
      induction f as [|f IH]; intros off n o E H; [now elim H|]. cbn [resolve_loop e en_index en_pack] in H.
      assert (Next : forall p, (let! s := pack_stream K pack p in let! l := resolve_loop K f e s in Ok (s :: l)) <> Diverge -> chain_ends true (place p)).
      { intros p Hn. rewrite stream_place in Hn. constructor.
        - intros d Hd. destruct (ofs_object _ _ _ Hd) as (n1 & o1 & E1 & _). rewrite E1 in Hn. cbn [bind] in Hn. apply (IH (place p) n1 o1 E1); [|exact Hd]. intros Hx. rewrite Hx in Hn. now apply Hn.
        - intros s q Hr Hq. destruct (ref_object _ _ _ Hr (found_len _ _ Hq)) as (n1 & o1 & E1 & _). rewrite E1 in Hn. cbn [bind] in Hn. refine (proj2 (IH (place p) n1 o1 E1 _) s q Hr Hq). intros Hx. rewrite Hx in Hn. now apply Hn. }
      split.
      - intros d Hd. destruct (ofs_object _ _ _ Hd) as (n1 & o1 & E1 & E2 & _). assert (o1 = o) as -> by congruence. rewrite E2 in H. now apply Next.
      - intros s p Hr Hq. destruct (ref_object _ _ _ Hr (found_len _ _ Hq)) as (n1 & o1 & E1 & E2 & _). assert (o1 = o) as -> by congruence. rewrite E2 in H.
        destruct (found_answer s p Hq) as (i & A1 & A2). rewrite A1 in H. cbn [bind] in H. rewrite A2 in H. cbn [bind] in H. now apply Next.
    Qed.
    Lemma collect_back : forall f off, collect_streams K f pack off <> Diverge ->
      (forall l o, collect_streams K f pack off = Ok l -> index l (-1) = Ok o -> forall s p, po_delta o = RefDelta s -> found_at shas offs s p -> chain_ends true (place p)) ->
      chain_ends false off.
    Proof.
      induction f as [|f IH]; intros off H Hl; [now elim H|]. cbn [collect_streams] in H, Hl. constructor.
      - intros d Hd. destruct (ofs_object _ _ _ Hd) as (n & o & E & Ed & Eo). rewrite E in H, Hl. cbn [bind] in H, Hl. rewrite Ed, Eo in H, Hl.
        apply IH; [intros Hx; rewrite Hx in H; now apply H|]. intros l o' Hc Hlast. apply (Hl (o :: l)); [now rewrite Hc|]. destruct l as [|y l]; [discriminate Hlast|]. now rewrite last_cons.
      - intros s p Hr Hq. destruct (ref_object _ _ _ Hr (found_len _ _ Hq)) as (n & o & E & Ed & _). rewrite E in Hl. cbn [bind] in Hl. rewrite Ed in Hl. exact (Hl [o] o eq_refl eq_refl s p Ed Hq).
    Qed.
    Lemma collect_at_back f off : collect_streams_at_offset K f e off <> Diverge -> chain_ends false off.
    Proof.
      intros H. unfold collect_streams_at_offset in H. cbn [e en_pack] in H. apply (collect_back f off); [intros Hx; rewrite Hx in H; now apply H|].
      intros l o Hc Hlast s p Ed Hq. rewrite Hc in H. cbn [bind] in H. rewrite Hlast in H. cbn [bind] in H. rewrite Ed in H. fold e in H.
      assert (good pack o) as (off' & n & E).
      { clear - Hc Hlast. assert (Forall (good pack) l) as Hl; [|exact (index_good l (-1) o Hl Hlast)]. clear - Hc. revert off l Hc. induction f as [|f IH]; intros off l Hc; [discriminate|]. cbn [collect_streams] in Hc.
        apply bind_ok_inv in Hc as ([n o] & E & Hc). assert (good pack o) by now exists off, n. destruct (po_delta o); [|apply bind_ok_inv in Hc as (l' & Hc & [= <-]); constructor; [easy|now apply (IH (po_offset o - distance))]|]; injection Hc as <-; now repeat constructor. }
      destruct (object_at_inv pack off' n o Hp E) as (_ & _ & _ & O4). rewrite Ed in O4. destruct O4 as [O4 _].
      refine (proj2 (resolve_back f off' n o E _) s p O4 Hq). intros Hx. rewrite Hx in H. now apply H.
    Qed.
    Lemma entity_collect_back f sha : entity_collect_streams K f e sha <> Diverge -> named_ends sha.
    Proof.
      intros H p Hq. destruct (found_answer sha p Hq) as (i & A1 & A2). apply (collect_at_back f). unfold entity_collect_streams, entity_index in H. cbn [e en_index] in H. rewrite A1 in H. cbn [bind] in H. rewrite A2 in H. exact H.
    Qed.
    (** info and stream collect the streams of a delta; the chain of another object has no second element. *)
    Lemma delta_or_not d t sz k p : region pack p = Ok d -> pack_object_header_info d = Ok (t, sz, k) -> negb (is_delta_type t) = true -> chain_ends false p.
    Proof.
      intros Hd Hh Ht. constructor.
      - intros n Hn. destruct Hn as (pre & hdr & sz' & bs & more & E & L & H1 & H2). rewrite (at_split pack pre (hdr ++ bs ++ more) p E L) in Hd by (pose proof (header_nonempty _ _ _ H1); now destruct hdr).
        injection Hd as <-. rewrite (pack_header_parse 6 hdr sz' (bs ++ more)) in Hh by (lia || easy). injection Hh as <- _ _. discriminate Ht.
      - intros s q (pre & hdr & sz' & more & E & L & H1) _. rewrite (at_split pack pre (hdr ++ s ++ more) p E L) in Hd by (pose proof (header_nonempty _ _ _ H1); now destruct hdr).
        injection Hd as <-. rewrite (pack_header_parse 7 hdr sz' (s ++ more)) in Hh by (lia || easy). injection Hh as <- _ _. discriminate Ht.
    Qed.
    Lemma no_object p : (forall d t sz k, region pack p = Ok d -> pack_object_header_info d = Ok (t, sz, k) -> chain_ends false p) -> chain_ends false p.
    Proof.
      intros H. constructor.
      - intros n Hn. pose proof Hn as (pre & hdr & sz' & bs & more & E & L & H1 & H2). pose proof (at_split pack pre (hdr ++ bs ++ more) p E L ltac:(pose proof (header_nonempty _ _ _ H1); now destruct hdr)) as R.
        assert (chain_ends false p) as Hc by (refine (H _ _ _ _ R (pack_header_parse 6 hdr sz' _ _ H1)); lia). inversion Hc as [a b C1 C2]. now apply C1.
      - intros s q Hr Hq. pose proof Hr as (pre & hdr & sz' & more & E & L & H1). pose proof (at_split pack pre (hdr ++ s ++ more) p E L ltac:(pose proof (header_nonempty _ _ _ H1); now destruct hdr)) as R.
        assert (chain_ends false p) as Hc by (refine (H _ _ _ _ R (pack_header_parse 7 hdr sz' _ _ H1)); lia). inversion Hc as [a b C1 C2]. now apply (C2 s).
    Qed.
    Lemma entity_info_back f sha : entity_info K f e sha <> Diverge -> named_ends sha.
    Proof.
      intros H p Hq. destruct (found_answer sha p Hq) as (i & A1 & A2). unfold entity_info, entity_index in H. cbn [e en_index] in H. rewrite A1 in H. cbn [bind] in H.
      unfold info_at in H. cbn [e en_index en_pack] in H. rewrite A2 in H. cbn [bind] in H. apply no_object. intros d t sz k Hd Hh. rewrite Hd in H. cbn [bind] in H. rewrite Hh in H. cbn [bind] in H.
      destruct (negb (is_delta_type t)) eqn:Ht; [now apply (delta_or_not d t sz k)|]. apply (collect_at_back f). intros Hx. rewrite Hx in H. now apply H.
    Qed.
    Lemma entity_stream_back f sha : entity_stream K f e sha <> Diverge -> named_ends sha.
    Proof.
      intros H p Hq. destruct (found_answer sha p Hq) as (i & A1 & A2). unfold entity_stream, entity_index in H. cbn [e en_index] in H. rewrite A1 in H. cbn [bind] in H.
      unfold stream_at in H. cbn [e en_index en_pack] in H. rewrite A2 in H. cbn [bind] in H. apply no_object. intros d t sz k Hd Hh. rewrite Hd in H. cbn [bind] in H. rewrite Hh in H. cbn [bind] in H.
      destruct (negb (is_delta_type t)) eqn:Ht; [now apply (delta_or_not d t sz k)|]. apply (collect_at_back f). intros Hx. rewrite Hx in H. now apply H.
    Qed.
  End Query.
End Plain.
