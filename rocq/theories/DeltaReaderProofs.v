(** Proofs about DeltaApplyReader. *)
From Coq Require Import ZifyBool ZifyNat.
From Verif Require Import Py PyFacts FunModel FunSpec FunProofs DeltaModel DeltaSpec DeltaProofs
  DeltaReaderModel StreamSpec.
Ltac Zify.zify_post_hook ::= Z.div_mod_to_equations.

Lemma full_is_stream_reader {R} (read : R -> Z -> res (bytes * R)) content :
  full_reader read content -> stream_reader read content.
Proof. intros H r n Hn. apply H. lia. Qed.

(** Readers that are exact for every request once they are [steady], and before that for a
    request of everything. *)
Definition once_reader {R} (read : R -> Z -> res (bytes * R)) (content : R -> bytes) (steady : R -> Prop) : Prop :=
  forall r n, 0 < n \/ (n = 0 /\ content r = []) -> steady r \/ len (content r) <= n ->
  exists r', read r n = Ok (firstn (Z.to_nat n) (content r), r') /\ content r' = skipn (Z.to_nat n) (content r) /\ steady r'.
Lemma stream_is_once {R} (read : R -> Z -> res (bytes * R)) content :
  stream_reader read content -> once_reader read content (fun _ => True).
Proof. intros H r n Hn _. destruct (H r n Hn) as (r' & H1 & H2). now exists r'. Qed.

(** ** stream_copy as a sequence of writes *)
Fixpoint write_seq2 {W} (write : W -> bytes -> res (Z * W)) (w : W) (l : list bytes) : res W :=
  match l with [] => Ok w | d :: l' => let! (_, w) := write w d in write_seq2 write w l' end.

Lemma once_copy_seq {R W} (read : R -> Z -> res (bytes * R)) (write : W -> bytes -> res (Z * W)) content steady :
  once_reader read content steady -> forall size chunk, 0 < chunk ->
  forall k r dbw, Z.to_nat (size - dbw) = k -> 0 <= dbw <= size -> (dbw < size \/ content r = []) ->
  steady r \/ len (content r) <= Z.min chunk (size - dbw) ->
  exists pieces r', concat pieces = firstn k (content r) /\ content r' = skipn k (content r) /\
    forall fuel w, (k < fuel)%nat ->
      stream_copy_loop read write fuel r w size chunk dbw =
      let! w' := write_seq2 write w pieces in Ok (dbw + len (concat pieces), r', w').
Proof.
  intros HR size chunk Hc. induction k as [k IH] using lt_wf_ind. intros r dbw Hk Hd Hn Hst.
  set (cs := Z.min chunk (size - dbw)) in *.
  destruct (HR r cs) as (r1 & Hr1 & Hc1 & Hs1); [|exact Hst|].
  { destruct Hn as [Hn|Hn]; [left; lia|]. destruct (Z.eq_dec size dbw); [right; split; [lia|easy]|left; lia]. }
  set (data := firstn (Z.to_nat cs) (content r)) in *.
  assert (len data = Z.min cs (len (content r))) as Hl by (subst data; rewrite len_firstn; lia).
  pose proof (len_nonneg _ (content r)).
  destruct ((len data <? cs) || (dbw + len data =? size)) eqn:Estop.
  - exists [data], r1. split; [|split].
    + cbn [concat]. rewrite app_nil_r. subst data.
      destruct (Z.ltb_spec (len (firstn (Z.to_nat cs) (content r))) cs) as [Hlt|Hge].
      * rewrite !firstn_all2; [easy| |]; unfold len in *; lia.
      * f_equal. lia.
    + rewrite Hc1. destruct (Z.ltb_spec (len data) cs) as [Hlt|Hge].
      * rewrite !skipn_all2; [easy| |]; unfold len in *; lia.
      * f_equal. lia.
    + intros [|f] w Hf; [lia|]. cbn [stream_copy_loop]. fold cs. rewrite Hr1. cbn [bind write_seq2].
      destruct (write w data) as [[? w']| |]; cbn [bind]; try easy.
      rewrite Estop. cbn [concat]. now rewrite app_nil_r.
  - assert (len data = cs) as Hdl by lia.
    destruct (IH (Z.to_nat (size - (dbw + len data)))) with (r := r1) (dbw := dbw + len data)
      as (pieces & r' & P1 & P2 & P3); try lia; [now left|].
    exists (data :: pieces), r'. split; [|split].
    + cbn [concat]. rewrite P1, Hc1, Hdl.
      replace k with (Z.to_nat cs + Z.to_nat (size - (dbw + cs)))%nat by lia.
      now rewrite firstn_plus.
    + rewrite P2, Hc1, skipn_skipn. f_equal. lia.
    + intros [|f] w Hf; [lia|]. cbn [stream_copy_loop]. fold cs. rewrite Hr1. cbn [bind write_seq2].
      destruct (write w data) as [[? w']| |]; cbn [bind]; try easy.
      rewrite Estop. rewrite P3 by lia. destruct (write_seq2 write w' pieces); cbn [bind]; try easy.
      cbn [concat]. rewrite len_app. f_equal. f_equal. f_equal. lia.
Qed.
Lemma stream_copy_seq {R W} (read : R -> Z -> res (bytes * R)) (write : W -> bytes -> res (Z * W)) content :
  stream_reader read content -> forall size chunk, 0 < chunk ->
  forall k r dbw, Z.to_nat (size - dbw) = k -> 0 <= dbw <= size -> (dbw < size \/ content r = []) ->
  exists pieces r', concat pieces = firstn k (content r) /\ content r' = skipn k (content r) /\
    forall fuel w, (k < fuel)%nat ->
      stream_copy_loop read write fuel r w size chunk dbw =
      let! w' := write_seq2 write w pieces in Ok (dbw + len (concat pieces), r', w').
Proof. intros HR size chunk Hc k r dbw H1 H2 H3. apply (once_copy_seq _ _ _ _ (stream_is_once _ _ HR)); auto. Qed.

(** ** Buffers *)
Definition mb_ok (b : membuf) (cap : Z) : Prop :=
  len (mb_data b) = cap /\ mb_grow b = (cap =? 0) /\ 0 <= mb_pos b <= cap.
Definition mb_put (b : membuf) (d : bytes) : membuf :=
  mk_membuf (firstn (Z.to_nat (mb_pos b)) (mb_data b) ++ d
             ++ skipn (Z.to_nat (mb_pos b + len d)) (mb_data b))
    (mb_pos b + len d) (mb_grow b).
Lemma mb_put_ok b cap d : mb_ok b cap -> mb_pos b + len d <= cap -> mb_ok (mb_put b d) cap.
Proof.
  intros (H1 & H2 & H3) H. pose proof (len_nonneg _ d).
  unfold mb_ok, mb_put. cbn [mb_data mb_pos mb_grow].
  rewrite !len_app, len_firstn, len_skipn. repeat split; try easy; lia.
Qed.
Lemma mb_write_ok b cap d : mb_ok b cap -> mb_pos b + len d <= cap -> mb_write b d = Ok (len d, mb_put b d).
Proof.
  intros (H1 & H2 & H3) H. pose proof (len_nonneg _ d). unfold mb_write, mb_put.
  replace (negb (mb_grow b) && (len (mb_data b) <? mb_pos b + len d)) with false by lia.
  now rewrite slice_to_spec, slice_from_spec by lia.
Qed.
Lemma mb_put_app b cap d1 d2 : mb_ok b cap -> mb_pos b + len d1 + len d2 <= cap ->
  mb_put (mb_put b d1) d2 = mb_put b (d1 ++ d2).
Proof.
  intros (H1 & H2 & H3) H. pose proof (len_nonneg _ d1). pose proof (len_nonneg _ d2).
  unfold mb_put. cbn [mb_data mb_pos mb_grow]. rewrite len_app. f_equal; [|lia].
  assert (len (firstn (Z.to_nat (mb_pos b)) (mb_data b)) = mb_pos b) as HL by (rewrite len_firstn; lia).
  set (p := firstn (Z.to_nat (mb_pos b)) (mb_data b)) in *.
  rewrite !app_assoc. rewrite <- (app_assoc _ d1 _), <- (app_assoc p d1 (_ ++ _)) || idtac.
  rewrite <- !app_assoc.
  replace (Z.to_nat (mb_pos b + len d1)) with (length (p ++ d1)) by (rewrite app_length; unfold len in *; lia).
  rewrite (app_assoc p d1 (skipn _ _)). rewrite firstn_app, firstn_all, Nat.sub_diag, firstn_O, app_nil_r.
  rewrite <- app_assoc. do 3 f_equal.
  rewrite skipn_app. rewrite skipn_all2 by (rewrite !app_length; unfold len in *; lia). cbn [app].
  rewrite skipn_skipn. f_equal. rewrite !app_length. unfold len in *. lia.
Qed.
Lemma mb_put_nil b cap : mb_ok b cap -> mb_put b [] = b.
Proof.
  intros (H1 & H2 & H3). destruct b as [d p g]. unfold mb_put. cbn [mb_data mb_pos mb_grow] in *.
  rewrite len_nil, Z.add_0_r. cbn [app]. now rewrite firstn_skipn.
Qed.
Lemma mb_write_seq2 cap : forall l b, mb_ok b cap -> mb_pos b + len (concat l) <= cap ->
  write_seq2 mb_write b l = Ok (mb_put b (concat l)).
Proof.
  induction l as [|d l IH]; intros b Hb Hl; cbn [write_seq2 concat] in *.
  - now rewrite (mb_put_nil b cap).
  - rewrite len_app in Hl. pose proof (len_nonneg _ (concat l)).
    rewrite (mb_write_ok b cap) by (easy || lia). cbn [bind].
    rewrite IH.
    + f_equal. apply (mb_put_app b cap); [easy|lia].
    + apply mb_put_ok; [easy|lia].
    + unfold mb_put at 1. cbn [mb_pos]. lia.
Qed.
Definition mbw (w : membuf) (d : bytes) : res membuf := let! (_, w) := mb_write w d in Ok w.
Lemma mbw_seq : forall l b, write_seq mbw b l = write_seq2 mb_write b l.
Proof.
  induction l as [|d l IH]; intros b; cbn [write_seq write_seq2]; [easy|].
  unfold mbw at 1. destruct (mb_write b d) as [[? w]| |]; cbn [bind]; easy.
Qed.
Lemma allocate_ok n : 0 <= n -> exists b, allocate_memory n = Ok b /\ mb_ok b n /\ mb_pos b = 0 /\
  mb_data b = repeat 0 (Z.to_nat n).
Proof.
  intros Hn. unfold allocate_memory, mb_ok. destruct (Z.eqb_spec n 0) as [->|].
  - eexists. split; [reflexivity|]. repeat split; cbn; lia.
  - replace (n <? 0) with false by lia. eexists. split; [reflexivity|].
    cbn [mb_data mb_pos mb_grow]. rewrite len_repeat. repeat split; try lia.
Qed.

(** A rewound buffer of capacity [cap] whose content starts with [x]. *)
Definition holds (b : membuf) (cap : Z) (x : bytes) : Prop :=
  mb_ok b cap /\ mb_pos b = 0 /\ exists rest, mb_data b = x ++ rest.
Definition has (b : membuf) (cap : Z) (x : bytes) : Prop :=
  mb_ok b cap /\ exists rest, mb_data b = x ++ rest.
Lemma holds_has b cap x : holds b cap x -> has b cap x.
Proof. intros (H1 & _ & H2). now split. Qed.
Lemma put_at_0 b cap d : holds b cap [] -> len d <= cap -> holds (mb_rewind (mb_put b d)) cap d.
Proof.
  intros (H1 & H2 & H3) Hd. pose proof (mb_put_ok b cap d H1) as (P1 & P2 & P3); [lia|].
  pose proof (len_nonneg _ d).
  split; [|split].
  - split; [exact P1|]. split; [exact P2|]. cbn [mb_rewind mb_pos]. lia.
  - easy.
  - cbn [mb_rewind mb_data]. unfold mb_put. cbn [mb_data]. rewrite H2. cbn [Z.to_nat firstn app].
    eexists. reflexivity.
Qed.
Lemma holds_nil b cap x : has b cap x -> holds (mb_rewind b) cap [].
Proof.
  intros ((H1 & H2 & H3) & _). split; [|split; [easy|]].
  - repeat split; try easy; cbn [mb_rewind mb_pos]; lia.
  - now exists (mb_data b).
Qed.
Lemma holds_len b cap x : holds b cap x -> len x <= cap.
Proof. intros ((H1 & _) & _ & (rest & H)). rewrite H, len_app in H1. pose proof (len_nonneg _ rest). lia. Qed.

Lemma varint_len v n : varint v n -> 1 <= len v.
Proof. intros H; destruct H as [|b bs n]; rewrite len_cons; [rewrite len_nil; lia|pose proof (len_nonneg _ bs); lia]. Qed.

Lemma varint_nonneg v n : varint v n -> 0 <= n.
Proof. induction 1; lia. Qed.

(** ** One delta *)
Section Brute.
  Context {R : Type} (read : R -> Z -> res (bytes * R)) (content : R -> bytes) (steady : R -> Prop).
  Hypothesis HR : once_reader read content steady.
  (** Streams that the reads of DeltaApplyReader exhaust: the deltas, looked at 512 bytes first,
      and the base *)
  Definition delta_fit (r : R) : Prop := steady r \/ len (content r) <= 512.
  Definition base_fit (r : R) : Prop := steady r \/ len (content r) <= copy_chunk.

  (** The peeked delta, whatever its header says. *)
  Definition info_raw (i : dinfo) (e : bytes) (s t dlen : Z) : Prop :=
    di_buf i ++ content (di_r i) = e /\ di_offset i + len e = dlen /\ di_size i = dlen /\
    0 <= di_offset i /\ 0 < di_size i /\ di_src i = s /\ di_tgt i = t /\ steady (di_r i).
  Definition info_ok (i : dinfo) (src tgt : bytes) (dlen : Z) : Prop :=
    exists ops e, info_raw i e (len src) (len tgt) dlen /\
      ops_enc ops e /\ Forall (op_inside (len src)) ops /\ tgt = ops_bytes src ops.

  Lemma peek_raw r v1 v2 e s t : content r = v1 ++ v2 ++ e -> delta_fit r -> varint v1 s -> varint v2 t ->
    len v1 + len v2 <= 512 ->
    exists i, peek read (r, len (v1 ++ v2 ++ e)) = Ok i /\ info_raw i e s t (len (v1 ++ v2 ++ e)).
  Proof.
    intros Hr Hfit H1 H2 Hlen.
    unfold peek. destruct (HR r 512) as (r1 & Hr1 & Hc1 & Hs1); [lia|exact Hfit|]. rewrite Hr1. cbn [bind].
    rewrite Hr in *. pose proof (len_nonneg _ v1). pose proof (len_nonneg _ v2). pose proof (len_nonneg _ e).
    set (k := (512 - length v1 - length v2)%nat).
    assert (firstn (Z.to_nat 512) (v1 ++ v2 ++ e) = v1 ++ v2 ++ firstn k e) as Hbuf.
    { rewrite !firstn_app. rewrite !firstn_all2 by (unfold len in *; lia).
      repeat f_equal; unfold len in *; lia. }
    assert (skipn (Z.to_nat 512) (v1 ++ v2 ++ e) = skipn k e) as Hrest.
    { rewrite !skipn_app. rewrite (skipn_all2 v1) by (unfold len in *; lia).
      rewrite (skipn_all2 v2) by (unfold len in *; lia). cbn [app]. f_equal; try (unfold len in *; lia). }
    rewrite Hbuf.
    pose proof (msb_size_ok [] v1 (v2 ++ firstn k e) s H1) as M1. cbn [app] in M1.
    change 0 with (len (@nil Z)) at 1. rewrite M1. cbn [bind]. rewrite len_nil, Z.add_0_l.
    pose proof (msb_size_ok v1 v2 (firstn k e) t H2) as M2. rewrite M2. cbn [bind].
    rewrite (app_assoc v1 v2 (firstn k e)). rewrite slice_from_app by (rewrite len_app; easy).
    eexists. split; [reflexivity|]. unfold info_raw. cbn [di_buf di_offset di_src di_tgt di_r di_size].
    rewrite Hc1, Hrest, firstn_skipn.
    pose proof (varint_len _ _ H1).
    repeat split; try easy; rewrite ?len_app; lia.
  Qed.
  Lemma peek_ok r src d tgt : content r = d -> delta_fit r -> is_delta src d tgt ->
    exists i, peek read (r, len d) = Ok i /\ info_ok i src tgt (len d).
  Proof.
    intros Hr Hfit (v1 & v2 & ops & e & -> & H1 & H2 & Hlen & He & Hin & Ht).
    destruct (peek_raw r v1 v2 e (len src) (len tgt) Hr Hfit H1 H2 Hlen) as (i & Hi & Hraw).
    exists i. split; [easy|]. now exists ops, e.
  Qed.

  Lemma brute_step_seq i e s t dlen ops fuel b tb : info_raw i e s t dlen ->
    ops_enc ops e -> Forall (op_inside s) ops -> (Z.to_nat dlen < fuel)%nat ->
    brute_step read fuel i b tb =
    let! tb := write_seq2 mb_write tb (map (op_bytes (mb_data b)) ops) in
    Ok (mb_rewind tb, mb_rewind b).
  Proof.
    intros (He & Ho & Hs & Hof & Hpos & Hsrc & Htgt & Hstd) Henc Hin Hf.
    unfold brute_step. rewrite Hs. replace (dlen - di_offset i) with (len e) by lia.
    destruct (allocate_ok (len e)) as (dd & -> & Hdd & Hddp & Hddd); [apply len_nonneg|]. cbn [bind].
    pose proof (len_nonneg _ (content (di_r i))). pose proof (len_nonneg _ (di_buf i)).
    assert (len e = len (di_buf i) + len (content (di_r i))) as Hel by (rewrite <- He, len_app; easy).
    rewrite (mb_write_ok dd (len e)) by (easy || lia). cbn [bind].
    destruct (once_copy_seq read mb_write content steady HR dlen copy_chunk ltac:(easy)
                (Z.to_nat dlen) (di_r i) 0) as (pieces & r' & P1 & _ & P2); try lia; [now left|].
    unfold stream_copy. rewrite P2 by easy.
    rewrite firstn_all2 in P1 by (unfold len in *; lia).
    pose proof (mb_put_ok dd (len e) (di_buf i) Hdd ltac:(lia)) as Hput.
    rewrite (mb_write_seq2 (len e)); [| easy | rewrite P1; unfold mb_put; cbn [mb_pos]; lia].
    cbn [bind]. rewrite P1, (mb_put_app dd (len e)) by (easy || lia). rewrite He.
    assert (mb_data (mb_put dd e) = e) as ->.
    { unfold mb_put. cbn [mb_data]. rewrite Hddp. cbn [Z.to_nat firstn app].
      rewrite skipn_all2; [now rewrite app_nil_r|]. destruct Hdd as [Hdd _]. unfold len in *. lia. }
    rewrite Hsrc. fold mbw. rewrite (apply_delta_data_seq _ _ _ ops) by easy.
    now rewrite mbw_seq.
  Qed.
  Lemma brute_step_ok i src tgt dlen b cb t ct fuel : info_ok i src tgt dlen ->
    has b cb src -> holds t ct [] -> len tgt <= ct -> (Z.to_nat dlen < fuel)%nat ->
    exists b' t', brute_step read fuel i b t = Ok (b', t') /\ holds b' ct tgt /\ holds t' cb [].
  Proof.
    intros (ops & e & Hraw & Henc & Hin & Ht) Hb Htb Hct Hf.
    rewrite (brute_step_seq i e (len src) (len tgt) dlen ops) by easy.
    assert (map (op_bytes (mb_data b)) ops = map (op_bytes src) ops) as ->.
    { destruct Hb as (_ & (rest & ->)). clear - Hin. induction ops as [|op ops IH]; [easy|].
      inversion Hin; subst. cbn [map]. f_equal; [|auto]. destruct op as [off size|d]; [|easy].
      cbn [op_bytes op_inside] in *. unfold len in *.
      destruct (Z.le_gt_cases size 0).
      { replace (Z.to_nat size) with 0%nat by lia. easy. }
      rewrite skipn_app. replace (Z.to_nat off - length src)%nat with 0%nat by lia.
      rewrite firstn_app, skipn_length.
      replace (Z.to_nat size - (length src - Z.to_nat off))%nat with 0%nat by lia.
      cbn [skipn firstn]. now rewrite app_nil_r. }
    rewrite (mb_write_seq2 ct).
    - cbn [bind]. eexists _, _. split; [reflexivity|].
      fold (ops_bytes src ops). rewrite <- Ht. split.
      + now apply put_at_0.
      + now apply (holds_nil b cb src).
    - apply Htb.
    - destruct Htb as (_ & -> & _). fold (ops_bytes src ops). rewrite <- Ht. lia.
  Qed.

  Lemma brute_loop_app fuel l1 : forall l2 b t fts,
    brute_loop read fuel (l1 ++ l2) b t fts =
    let! (b, t, fts) := brute_loop read fuel l1 b t fts in brute_loop read fuel l2 b t fts.
  Proof.
    induction l1 as [|i l1 IH]; intros l2 b t fts; cbn [app brute_loop bind]; [easy|].
    destruct (brute_step read fuel i b t) as [[b1 t1]| |]; cbn [bind]; [apply IH|easy|easy].
  Qed.

  Lemma max_target_cons (i : @dinfo R) l : max_target (i :: l) = Z.max (Z.max 0 (di_tgt i)) (max_target l).
  Proof.
    unfold max_target. cbn [fold_left].
    assert (forall l m, 0 <= m -> fold_left (fun m (i : @dinfo R) => Z.max m (di_tgt i)) l m =
      Z.max m (fold_left (fun m i => Z.max m (di_tgt i)) l 0)) as H; [|apply H; lia].
    clear. induction l as [|x l IH]; intros m Hm; cbn [fold_left]; [lia|].
    rewrite IH by lia. rewrite (IH (Z.max 0 (di_tgt x))) by lia. lia.
  Qed.

  (** Streams for the deltas of a chain. *)
  Definition streams_of (rs : list (R * Z)) (ds : list bytes) : Prop :=
    Forall2 (fun p d => content (fst p) = d /\ snd p = len d /\ delta_fit (fst p)) rs ds.

  Lemma peek_all_ok base : forall ds result, delta_chain base ds result ->
    forall rs, streams_of rs ds ->
    exists infos, peek_all read rs = Ok infos /\ length infos = length ds /\
      len result <= Z.max (len base) (max_target infos) /\
      forall cap fuel, (forall d, In d ds -> (Z.to_nat (len d) < fuel)%nat) ->
        Z.max (len base) (max_target infos) <= cap ->
        forall b t fts, has b cap base -> holds t cap [] ->
        exists b' t', brute_loop read fuel (rev infos) b t fts = Ok (b', t', if len ds =? 0 then fts else len result) /\
          has b' cap result /\ holds t' cap [] /\ (ds <> [] -> holds b' cap result).
  Proof.
    induction 1 as [|d ds mid tgt Hch IH Hd]; intros rs Hrs; inversion Hrs as [|[r size] ? rs' ? (Hr & Hsz & Hfit) Hrs']; subst.
    - exists []. split; [easy|]. split; [easy|]. unfold max_target. cbn [fold_left].
      split; [lia|]. intros cap fuel _ Hcap b t fts Hb Ht. cbn [rev brute_loop len length].
      now exists b, t.
    - cbn [fst snd] in *. subst. cbn [peek_all].
      destruct (peek_ok r mid (content r) tgt eq_refl Hfit Hd) as (i & -> & Hi). cbn [bind].
      destruct (IH rs' Hrs') as (infos & -> & Hlen & Hmid & Hrun). cbn [bind].
      exists (i :: infos). split; [easy|]. split; [cbn [length]; lia|].
      rewrite max_target_cons.
      assert (di_tgt i = len tgt) as Hit by (destruct Hi as (? & ? & Hi & _); apply Hi).
      pose proof (len_nonneg _ tgt).
      split; [lia|]. intros cap fuel Hf Hcap b t fts Hb Ht. cbn [rev]. rewrite brute_loop_app.
      destruct (Hrun cap fuel) with (b := b) (t := t) (fts := fts) as (b1 & t1 & -> & Hb1 & Ht1 & _); try easy; try lia.
      { intros d Hin. apply Hf. now right. }
      cbn [bind brute_loop].
      destruct (brute_step_ok i mid tgt (len (content r)) b1 cap t1 cap fuel) as (b2 & t2 & -> & Hb2 & Ht2); try easy; try lia.
      { apply Hf. now left. }
      cbn [bind]. exists b2, t2. rewrite len_cons. pose proof (len_nonneg _ ds).
      replace (len ds + 1 =? 0) with false by lia. rewrite Hit.
      split; [easy|]. split; [now apply holds_has|]. now split.
  Qed.

  (** The base copied into a buffer *)
  Lemma load_base br base cap fuel : content br = base -> base_fit br -> len base <= cap -> (Z.to_nat cap < fuel)%nat ->
    exists b b' r' n, allocate_memory cap = Ok b /\
      stream_copy read mb_write fuel br b cap copy_chunk = Ok (n, r', b') /\
      holds (mb_rewind b') cap base /\ mb_ok b' cap /\ mb_data b' = base ++ repeat 0 (Z.to_nat (cap - len base)).
  Proof.
    intros Hc Hfit Hl Hf. pose proof (len_nonneg _ base).
    destruct (allocate_ok cap) as (b & Hb & Hok & Hp & Hz); [lia|].
    destruct (once_copy_seq read mb_write content steady HR cap copy_chunk ltac:(easy)
                (Z.to_nat cap) br 0) as (pieces & r' & P1 & _ & P2); try lia.
    { destruct (Z.eq_dec cap 0); [|left; lia]. right. rewrite Hc. apply len_0_nil. lia. }
    { destruct Hfit as [Hfit|Hfit]; [now left|right]. rewrite Hc in *. lia. }
    rewrite Hc, firstn_all2 in P1 by (unfold len in *; lia).
    exists b, (mb_put b base), r', (0 + len base). split; [easy|].
    unfold stream_copy. rewrite P2 by easy. rewrite (mb_write_seq2 cap) by (easy || (rewrite P1; lia)).
    cbn [bind]. rewrite P1. split; [easy|].
    assert (holds b cap []) as Hb0 by (split; [easy|]; split; [easy|]; now eexists).
    split; [now apply put_at_0|]. split; [apply mb_put_ok; [easy|lia]|].
    unfold mb_put. cbn [mb_data]. rewrite Hp, Hz. cbn [Z.to_nat firstn app]. f_equal.
    rewrite skipn_repeat. f_equal. lia.
  Qed.


  (** More fuel does not change a result. *)
  Lemma brute_step_mono f f' i b t : (f <= f')%nat -> brute_step read f i b t <> Diverge ->
    brute_step read f' i b t = brute_step read f i b t.
  Proof.
    intros Hf. unfold brute_step.
    destruct (allocate_memory _) as [dd| |]; cbn [bind]; try easy.
    destruct (mb_write dd _) as [[? dd1]| |]; cbn [bind]; try easy.
    unfold stream_copy. intros H. rewrite (stream_copy_loop_mono read mb_write f f'); [easy|easy|].
    intros E. rewrite E in H. now apply H.
  Qed.
  Lemma brute_loop_mono f f' l : (f <= f')%nat -> forall b t fts, brute_loop read f l b t fts <> Diverge ->
    brute_loop read f' l b t fts = brute_loop read f l b t fts.
  Proof.
    intros Hf. induction l as [|i l IH]; intros b t fts H; cbn [brute_loop] in *; [easy|].
    rewrite (brute_step_mono f f') by (easy || (intros E; rewrite E in H; now apply H)).
    destruct (brute_step read f i b t) as [[b1 t1]| |]; cbn [bind] in *; [now apply IH|easy|easy].
  Qed.
  Lemma set_cache_mono f f' ds b bsize : (f <= f')%nat -> set_cache_brute read f ds b bsize <> Diverge ->
    set_cache_brute read f' ds b bsize = set_cache_brute read f ds b bsize.
  Proof.
    intros Hf. unfold set_cache_brute.
    destruct (peek_all read ds) as [infos| |]; cbn [bind]; try easy.
    destruct (allocate_memory _) as [bb| |]; cbn [bind]; try easy.
    unfold stream_copy. intros H. rewrite (stream_copy_loop_mono read mb_write f f');
      [|easy|intros E; rewrite E in H; now apply H].
    destruct (stream_copy_loop _ _ _ _ _ _ _ _) as [[[? ?] bb1]| |]; cbn [bind] in *; try easy.
    destruct (allocate_memory _) as [tb| |]; cbn [bind] in *; try easy.
    rewrite (brute_loop_mono f f'); [easy|easy|]. intros E; rewrite E in H; now apply H.
  Qed.

  Lemma rewind_has b cap x : holds (mb_rewind b) cap x -> mb_ok b cap -> has b cap x.
  Proof. intros (_ & _ & H) H1. now split. Qed.

  Lemma set_cache_ok base ds result : delta_chain base ds result -> ds <> [] ->
    forall rs br, streams_of rs ds -> content br = base -> base_fit br ->
    exists t cap, holds t cap result /\
      evaluates (fun f => set_cache_brute read f rs br (len base)) (Ok (t, len result)).
  Proof.
    intros Hch Hne rs br Hrs Hbr Hbf.
    assert (len rs = len ds) as Hlen by (unfold len; now rewrite (Forall2_length _ _ _ _ _ Hrs)).
    enough (exists t cap f, holds t cap result /\
      set_cache_brute read f rs br (len base) = Ok (t, len result)) as (t & cap & f & Ht & H).
    { exists t, cap. split; [easy|]. apply (evaluates_of_mono _ f); [|easy|easy].
      intros f1 f2 Hf Hd. now apply set_cache_mono. }
    pose proof (len_nonneg _ base).
    unfold set_cache_brute.
    destruct ds as [|d [|d2 ds]]; [easy| |].
    - (* one delta *)
      inversion Hch as [|? ? mid ? Hch0 Hd]; subst. inversion Hch0; subst.
      inversion Hrs as [|[r size] ? rs' ? (Hr & Hsz & Hfit) Hrs']; subst. inversion Hrs'; subst.
      cbn [fst snd] in *. subst. cbn [peek_all].
      destruct (peek_ok r (content br) (content r) result eq_refl Hfit Hd) as (i & -> & Hi). cbn [bind].
      assert (di_tgt i = len result) as Hit by (destruct Hi as (? & ? & Hi & _); apply Hi).
      change (1 <? len [(r, len (content r))]) with false. cbv iota.
      pose proof (len_nonneg _ result).
      replace (max_target [i]) with (len result) by (rewrite max_target_cons, Hit; unfold max_target; cbn [fold_left]; lia).
      set (fuel := S (Z.to_nat (len (content br) + len (content r)))).
      pose proof (len_nonneg _ (content r)).
      destruct (load_base br (content br) (len (content br)) fuel eq_refl Hbf) as (b & b' & r' & n & Hb & Hc & Hh & Hok & _); [lia|lia|].
      destruct (allocate_ok (len result)) as (tb & Htb & Htok & Htp & _); [lia|].
      destruct (brute_step_ok i (content br) result (len (content r)) b' (len (content br)) tb (len result) fuel)
        as (b2 & t2 & Hs & Hb2 & _); try easy; try lia.
      { now apply rewind_has. }
      { split; [easy|]. split; [easy|]. now eexists. }
      exists b2, (len result), fuel. split; [easy|].
      rewrite Hb. cbn [bind]. rewrite Hc. cbn [bind]. rewrite Htb. cbn [bind rev app brute_loop].
      rewrite Hs. cbn [bind]. now rewrite Hit.
    - destruct (peek_all_ok base _ result Hch rs Hrs) as (infos & -> & Hli & Hmax & Hrun).
      cbn [bind]. replace (1 <? len rs) with true
        by (rewrite Hlen, !len_cons; pose proof (len_nonneg _ ds); lia).
      set (M := Z.max (len base) (max_target infos)) in *.
      set (fuel := S (Z.to_nat M + fold_right (fun d a => (length d + a)%nat) 0%nat (d :: d2 :: ds))).
      destruct (load_base br base M fuel Hbr Hbf) as (b & b' & r' & n & Hb & Hc & Hh & Hok & _); [lia|lia|].
      destruct (allocate_ok M) as (tb & Htb & Htok & Htp & _); [lia|].
      destruct (Hrun M fuel) with (b := b') (t := tb) (fts := 0) as (b2 & t2 & Hl & _ & _ & Hb2).
      + intros x Hx. subst fuel.
        assert (length x <= fold_right (fun d a => (length d + a)%nat) 0%nat (d :: d2 :: ds))%nat.
        { clear - Hx. induction (d :: d2 :: ds) as [|y l IH]; [easy|]. cbn [fold_right].
          destruct Hx as [->|Hx]; [lia|]. specialize (IH Hx). lia. }
        unfold len. lia.
      + lia.
      + now apply rewind_has.
      + split; [easy|]. split; [easy|]. now eexists.
      + exists b2, M, fuel. split; [now apply Hb2|].
        rewrite Hb. cbn [bind]. rewrite Hc. cbn [bind]. replace b with tb by congruence.
        rewrite Hl. cbn [bind]. rewrite !len_cons. pose proof (len_nonneg _ ds).
        now replace (len ds + 1 + 1 =? 0) with false by lia.
  Qed.

  (** ** Reading the result *)
  Definition dar_at (st : dar) (result : bytes) (p : nat) : Prop :=
    dr_size st = len result /\ dr_br st = Z.of_nat p /\ mb_pos (dr_target st) = Z.of_nat p /\
    (p <= length result)%nat /\ exists rest, mb_data (dr_target st) = result ++ rest.

  Lemma dar_read_ok st result p n : dar_at st result p ->
    let d := if n <? 1 then skipn p result else firstn (Z.to_nat n) (skipn p result) in
    exists st', dar_read st n = (d, st') /\ dar_at st' result (p + length d).
  Proof.
    intros (H1 & H2 & H3 & H4 & rest & H5). unfold dar_read, mb_read.
    rewrite H1, H2, H3, H5. cbv zeta.
    set (count := if (n <? 1) || (len result - Z.of_nat p <? n) then len result - Z.of_nat p else n).
    set (d := if n <? 1 then skipn p result else firstn (Z.to_nat n) (skipn p result)).
    assert (slice (result ++ rest) (Z.of_nat p) (Z.of_nat p + count) = d) as ->.
    { assert (0 <= count <= len result - Z.of_nat p) as Hc by (subst count; unfold len in *; destruct ((n <? 1) || (Z.of_nat (length result) - Z.of_nat p <? n)) eqn:?; lia).
      rewrite slice_app_l by (unfold len in *; lia). rewrite slice_spec by lia.
      replace (Z.to_nat (Z.of_nat p)) with p by lia.
      replace (Z.to_nat (Z.of_nat p + count - Z.of_nat p)) with (Z.to_nat count) by lia.
      subst d count. destruct (n <? 1) eqn:E1; cbn [orb].
      - apply firstn_all2. rewrite skipn_length. unfold len. lia.
      - destruct (Z.ltb_spec (len result - Z.of_nat p) n); [|easy].
        rewrite !firstn_all2; [easy| |]; rewrite skipn_length; unfold len in *; lia. }
    eexists. split; [reflexivity|]. unfold dar_at. cbn [dr_size dr_br dr_target mb_pos mb_data].
    assert (p + length d <= length result)%nat.
    { subst d. destruct (n <? 1); rewrite ?firstn_length, skipn_length; lia. }
    repeat split; try easy; try (unfold len in *; lia). now exists rest.
  Qed.
  Lemma dar_run_ok result : forall ops st p, dar_at st result p ->
    run_stream dar_read' dar_rewind st ops = Ok (cursor result p ops).
  Proof.
    induction ops as [|[n|] ops IH]; intros st p Hst; cbn [run_stream cursor]; [easy| |].
    - change (dar_read' st n) with (Ok (dar_read st n)). destruct (dar_read_ok st result p n Hst) as (st' & -> & Hst'). cbn [bind].
      now rewrite (IH _ _ Hst').
    - change (dar_rewind st) with (Ok (mk_dar (mb_rewind (dr_target st)) (dr_size st) 0)). cbn [bind].
      rewrite (IH _ 0%nat); [easy|].
      destruct Hst as (H1 & H2 & H3 & H4 & H5). repeat split; try easy; lia.
  Qed.
  Lemma dar_chain_ok base ds result rs br : delta_chain base ds result -> ds <> [] ->
    streams_of rs ds -> content br = base -> base_fit br ->
    exists st, evaluates (fun f => dar_init read f rs br (len base)) (Ok st) /\
      dr_size st = len result /\
      forall ops, run_stream dar_read' dar_rewind st ops = Ok (cursor result 0 ops).
  Proof.
    intros Hch Hne Hrs Hbr Hbf.
    destruct (set_cache_ok base ds result Hch Hne rs br Hrs Hbr Hbf) as (t & cap & Ht & f0 & Hf).
    exists (mk_dar t (len result) 0). split; [|split; [easy|]].
    - exists f0. intros f Hle. unfold dar_init, py_assert. rewrite Hf by easy.
      assert (len rs = len ds) as -> by (unfold len; now rewrite (Forall2_length _ _ _ _ _ Hrs)).
      destruct ds; [easy|]. rewrite len_cons. pose proof (len_nonneg _ ds).
      now replace (len ds + 1 =? 0) with false by lia.
    - intros ops. apply dar_run_ok. destruct Ht as ((H1 & H2 & H3) & H4 & rest & H5).
      repeat split; try easy; try (cbn; lia). now exists rest.
  Qed.

  (** ** One delta whose header is wrong about the amount produced *)
  Lemma mb_write_overflow cap : 0 < cap -> forall l b, mb_ok b cap -> cap < mb_pos b + len (concat l) ->
    write_seq2 mb_write b l = Raise ValueError.
  Proof.
    intros Hcap. induction l as [|d l IH]; intros b Hb Hl; cbn [write_seq2 concat] in *.
    - rewrite len_nil in Hl. destruct Hb as (_ & _ & Hb). lia.
    - rewrite len_app in Hl. destruct (Z.le_gt_cases (mb_pos b + len d) cap).
      + rewrite (mb_write_ok b cap) by easy. cbn [bind]. apply IH.
        * now apply mb_put_ok.
        * unfold mb_put. cbn [mb_pos]. lia.
      + unfold mb_write. destruct Hb as (H1 & H2 & H3).
        replace (negb (mb_grow b) && (len (mb_data b) <? mb_pos b + len d)) with true by (rewrite H2; lia).
        reflexivity.
  Qed.

  (** A single delta with arbitrary sizes in its header: what the reader shows. *)
  Lemma single_delta base br r v1 v2 e s t ops : content br = base -> content r = v1 ++ v2 ++ e -> base_fit br -> delta_fit r ->
    varint v1 s -> varint v2 t -> len v1 + len v2 <= 512 -> ops_enc ops e -> Forall (op_inside s) ops ->
    (len (ops_bytes base ops) <= t ->
     exists st, evaluates (fun f => dar_init read f [(r, len (content r))] br (len base)) (Ok st) /\
       dr_size st = t /\
       forall rops, run_stream dar_read' dar_rewind st rops =
         Ok (cursor (ops_bytes base ops ++ repeat 0 (Z.to_nat (t - len (ops_bytes base ops)))) 0 rops)) /\
    (0 < t < len (ops_bytes base ops) ->
     evaluates (fun f => dar_init read f [(r, len (content r))] br (len base)) (Raise ValueError)).
  Proof.
    intros Hbr Hr Hbf Hdf H1 H2 Hlen Henc Hin. set (p := ops_bytes base ops).
    destruct (peek_raw r v1 v2 e s t Hr Hdf H1 H2 Hlen) as (i & Hi & Hraw). rewrite <- Hr in Hi, Hraw.
    assert (di_tgt i = t) as Hit by apply Hraw.
    assert (0 <= t) as Ht0 by now apply (varint_nonneg v2).
    set (f0 := S (Z.to_nat (len base + len (content r)))).
    pose proof (len_nonneg _ (content r)). pose proof (len_nonneg _ base).
    assert (forall f, (f0 <= f)%nat -> exists tb b',
      mb_ok tb t /\ mb_pos tb = 0 /\ mb_data tb = repeat 0 (Z.to_nat t) /\ mb_data b' = base /\
      set_cache_brute read f [(r, len (content r))] br (len base) =
      let! tb := write_seq2 mb_write tb (map (op_bytes base) ops) in
      Ok (mb_rewind tb, t)) as Hall.
    { intros f Hf. unfold set_cache_brute. cbn [peek_all]. rewrite Hi. cbn [bind].
      change (1 <? len [(r, len (content r))]) with false. cbv iota.
      replace (max_target [i]) with t by (rewrite max_target_cons, Hit; unfold max_target; cbn [fold_left]; lia).
      destruct (load_base br base (len base) f Hbr Hbf) as (b & b' & r' & n & Hb & Hc & _ & Hok & Hdata); [lia|lia|].
      rewrite Z.sub_diag in Hdata. cbn [Z.to_nat repeat] in Hdata. rewrite app_nil_r in Hdata.
      destruct (allocate_ok t) as (tb & Htb & Htok & Htp & Htd); [lia|].
      exists tb, b'. repeat split; try easy; try apply Htok.
      rewrite Hb. cbn [bind]. rewrite Hc. cbn [bind]. rewrite Htb. cbn [bind rev app brute_loop].
      rewrite (brute_step_seq i e s t (len (content r)) ops) by (easy || lia).
      rewrite Hdata. destruct (write_seq2 _ _ _); cbn [bind]; try easy. now rewrite Hit. }
    split; intros Hp.
    - destruct (Hall f0 (Nat.le_refl _)) as (tb & b' & Htok & Htp & Htd & _ & Hset).
      rewrite (mb_write_seq2 t) in Hset by (easy || (rewrite Htp; exact Hp)). cbn [bind] in Hset.
      fold (ops_bytes base ops) in Hset. fold p in Hset.
      exists (mk_dar (mb_rewind (mb_put tb p)) t 0). split; [|split; [easy|]].
      + exists f0. intros f Hf. unfold dar_init, py_assert. change (negb (len [(r, len (content r))] =? 0)) with true.
        cbv iota. rewrite (set_cache_mono f0 f) by (easy || now rewrite Hset). now rewrite Hset.
      + intros rops. apply dar_run_ok.
        assert (mb_data (mb_put tb p) = p ++ repeat 0 (Z.to_nat (t - len p))) as Hd.
        { unfold mb_put. cbn [mb_data]. rewrite Htp, Htd. cbn [Z.to_nat firstn app]. f_equal.
          rewrite skipn_repeat. f_equal. pose proof (len_nonneg _ p). lia. }
        repeat split; cbn [dr_size dr_br dr_target mb_rewind mb_pos mb_data]; try lia.
        * rewrite len_app, len_repeat. lia.
        * exists []. now rewrite app_nil_r.
    - exists f0. intros f Hf. destruct (Hall f Hf) as (tb & b' & Htok & Htp & Htd & _ & Hset).
      rewrite (mb_write_overflow t) in Hset; [|lia|easy|].
      + unfold dar_init, py_assert. change (negb (len [(r, len (content r))] =? 0)) with true.
        cbv iota. now rewrite Hset.
      + rewrite Htp. fold (ops_bytes base ops). fold p. lia.
  Qed.
End Brute.

Lemma dar_chain_ok' {R} (read : R -> Z -> res (bytes * R)) content : stream_reader read content ->
  forall base ds result rs br, delta_chain base ds result -> ds <> [] ->
  Forall2 (fun p d => content (fst p) = d /\ snd p = len d) rs ds -> content br = base ->
  exists st, evaluates (fun f => dar_init read f rs br (len base)) (Ok st) /\
    dr_size st = len result /\
    forall ops, run_stream dar_read' dar_rewind st ops = Ok (cursor result 0 ops).
Proof.
  intros HR base ds result rs br H1 H2 H3 H4.
  apply (dar_chain_ok read content (fun _ => True) (stream_is_once _ _ HR) base ds); try easy; [|now left].
  unfold streams_of. clear - H3. induction H3 as [|p d rs ds [Ha Hb] _ IH]; constructor; [|exact IH]. split; [easy|]. split; [easy|now left].
Qed.

(** ** Witnesses *)
Lemma dar_init_evaluates (ds : list (bytes * Z)) b bsize f st :
  dar_init file_read f ds b bsize = Ok st ->
  evaluates (fun f => dar_init file_read f ds b bsize) (Ok st).
Proof.
  intros H. apply (evaluates_of_mono _ f); [|easy|easy]. intros f1 f2 Hf Hd. unfold dar_init, py_assert in *.
  destruct (negb _); [|easy]. rewrite (set_cache_mono file_read f1 f2); [easy|easy|].
  intros E. rewrite E in Hd. now apply Hd.
Qed.
Lemma short_delta_padded :
  exists (base delta : bytes) (ops : list dop) (st : dar),
    delta = [len base; 5] ++ [1; 120] /\ ops_enc ops [1; 120] /\
    ops_bytes base ops = [120] /\
    evaluates (fun f => dar_init file_read f [(delta, len delta)] base (len base)) (Ok st) /\
    fst (dar_read st 0) = [120; 0; 0; 0; 0].
Proof.
  exists [97; 98], [2; 5; 1; 120], [Insert [120]], (mk_dar (mk_membuf [120; 0; 0; 0; 0] 0 false) 5 0).
  split; [reflexivity|]. split; [|split; [reflexivity|split; [|reflexivity]]].
  - rewrite <- (app_nil_r [1; 120]). constructor; [|constructor].
    apply (enc_insert [120]); [cbn; lia|]. repeat constructor; unfold is_byte; lia.
  - apply (dar_init_evaluates _ _ _ 20). vm_compute. reflexivity.
Qed.
Lemma stale_bytes_shown :
  exists st, evaluates (fun f => dar_init file_read f [([1; 2; 1; 120], 4); ([2; 1; 1; 121], 4)] [97; 98] 2) (Ok st) /\
    fst (dar_read st 0) = [120; 98].
Proof.
  exists (mk_dar (mk_membuf [120; 98] 0 false) 2 0). split; [|reflexivity].
  apply (dar_init_evaluates _ _ _ 20). vm_compute. reflexivity.
Qed.
Lemma wrong_base_accepted :
  exists st, evaluates (fun f => dar_init file_read f [([9; 2; 145; 1; 2], 5)] [97; 98] 2) (Ok st) /\
    9 <> len [97; 98] /\ fst (dar_read st 0) = [98; 0].
Proof.
  exists (mk_dar (mk_membuf [98; 0] 0 false) 2 0). split; [|split; [easy|reflexivity]].
  apply (dar_init_evaluates _ _ _ 20). vm_compute. reflexivity.
Qed.

Lemma dar_chain_read_all (R : Type) (read : R -> Z -> res (bytes * R)) (content : R -> bytes) :
  stream_reader read content ->
  forall (base : bytes) (ds : list bytes) (result : bytes) (streams : list (R * Z)) (bstream : R),
  delta_chain base ds result -> ds <> [] ->
  Forall2 (fun p d => content (fst p) = d /\ snd p = len d) streams ds -> content bstream = base ->
  exists st, evaluates (fun f => dar_init read f streams bstream (len base)) (Ok st) /\
    dr_size st = len result /\
    fst (dar_read st 0) = result.
Proof.
  intros HR base ds result streams bstream H1 H2 H3 H4.
  destruct (dar_chain_ok' read content HR base ds result streams bstream H1 H2 H3 H4) as (st & E & Hs & Hrun).
  exists st. split; [exact E|]. split; [exact Hs|].
  specialize (Hrun [Read 0]). cbn [run_stream cursor] in Hrun. unfold dar_read' in Hrun.
  destruct (dar_read st 0) as [d st']. cbn [bind] in Hrun. injection Hrun as ->. reflexivity.
Qed.
