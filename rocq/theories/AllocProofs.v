(** Proofs about AllocModel.v *)
From Coq Require Import ZifyBool ZifyNat.
From Verif Require Import Py PyFacts FunModel FunSpec FunProofs DeltaModel DeltaSpec DeltaProofs
  DeltaReaderModel StreamSpec DeltaReaderProofs AllocModel.
Ltac Zify.zify_post_hook ::= Z.div_mod_to_equations.

(** ** Two runs, the second of which may succeed where the first has a ValueError *)
Definition sim {A B} (P : A -> B -> Prop) (x : res A) (y : res B) : Prop :=
  match x with
  | Ok a => exists b, y = Ok b /\ P a b
  | Raise e => e = ValueError \/ y = Raise e
  | Diverge => y = Diverge
  end.
Lemma sim_bind {A B C D} (P : A -> B -> Prop) (Q : C -> D -> Prop) x y k l :
  sim P x y -> (forall a b, P a b -> sim Q (k a) (l b)) -> sim Q (bind x k) (bind y l).
Proof.
  destruct x; cbn [sim bind]; intros H HK.
  - destruct H as (b & -> & H). now apply HK.
  - destruct H as [-> | ->]; [now left|now right].
  - now rewrite H.
Qed.
Lemma sim_refl {A} (x : res A) : sim eq x x.
Proof. destruct x; cbn [sim]; eauto. Qed.

(** The same bytes and position; the second one may grow where the first may not. *)
Definition mb_sim (b c : membuf) : Prop :=
  mb_data b = mb_data c /\ mb_pos b = mb_pos c /\ (mb_grow b = true -> mb_grow c = true).
Lemma alloc_sim m n : sim mb_sim (allocate_memory n) (allocate_memory_x m n).
Proof.
  unfold allocate_memory, allocate_memory_x. destruct (n =? 0); [|destruct (n <? 0); [now right|]].
  - eexists. split; [reflexivity|]. easy.
  - destruct m; eexists; (split; [reflexivity|]); easy.
Qed.
Lemma write_sim b c d : mb_sim b c -> sim (fun x y => fst x = fst y /\ mb_sim (snd x) (snd y)) (mb_write b d) (mb_write c d).
Proof.
  intros (H1 & H2 & H3). unfold mb_write. rewrite <- H1, <- H2.
  destruct (negb (mb_grow b) && _) eqn:E; [now left|].
  replace (negb (mb_grow c) && (len (mb_data b) <? mb_pos b + len d)) with false
    by (destruct (mb_grow b), (mb_grow c); cbn in *; intuition congruence).
  eexists. split; [reflexivity|]. split; [easy|]. now split.
Qed.
Lemma mbw_sim b c d : mb_sim b c -> sim mb_sim (mbw b d) (mbw c d).
Proof.
  intros H. unfold mbw. eapply sim_bind; [apply (write_sim b c d H)|].
  intros (n & b') (n' & c') (_ & H'). cbn [snd] in H'. eexists. split; [reflexivity|exact H'].
Qed.
Lemma rewind_sim b c : mb_sim b c -> mb_sim (mb_rewind b) (mb_rewind c).
Proof. intros (H1 & H2 & H3). now split. Qed.

Lemma copy_sim {R} (read : R -> Z -> res (bytes * R)) size chunk : forall fuel r b c dbw, mb_sim b c ->
  sim (fun x y => fst x = fst y /\ mb_sim (snd x) (snd y))
    (stream_copy_loop read mb_write fuel r b size chunk dbw) (stream_copy_loop read mb_write fuel r c size chunk dbw).
Proof.
  induction fuel as [|f IH]; intros r b c dbw H; cbn [stream_copy_loop]; [easy|]. cbv zeta.
  eapply sim_bind; [apply sim_refl|]. intros (d & r') _ <-.
  eapply sim_bind; [apply (write_sim b c d H)|]. intros (n & b') (n' & c') (_ & H'). cbn [snd] in H'.
  destruct (_ || _); [|now apply IH]. eexists. split; [reflexivity|]. now split.
Qed.
Lemma apply_sim src n db dn b c : mb_sim b c ->
  sim mb_sim (apply_delta_data mbw src n db dn b) (apply_delta_data mbw src n db dn c).
Proof.
  intros H. unfold apply_delta_data.
  assert (forall fuel i b c, mb_sim b c -> sim (fun x y => fst x = fst y /\ mb_sim (snd x) (snd y))
    (apply_loop mbw fuel src n db dn i b) (apply_loop mbw fuel src n db dn i c)) as HL.
  { clear. induction fuel as [|f IH]; intros i b c H; cbn [apply_loop].
    - destruct (i <? dn); [easy|]. eexists. split; [reflexivity|]. now split.
    - destruct (i <? dn); [|eexists; split; [reflexivity|]; now split].
      eapply sim_bind; [apply sim_refl|]. intros o _ <-. cbv zeta.
      destruct (negb (Z.land o 128 =? 0)).
      + eapply sim_bind; [apply sim_refl|]. intros ((co & cs) & i') _ <-.
        destruct (_ || _); [eexists; split; [reflexivity|]; now split|].
        eapply sim_bind; [apply (mbw_sim b c _ H)|]. intros b' c' H'. now apply IH.
      + destruct (negb (o =? 0)); [|now left].
        eapply sim_bind; [apply (mbw_sim b c _ H)|]. intros b' c' H'. now apply IH. }
  eapply sim_bind; [apply (HL _ _ _ _ H)|]. intros (i & b') (i' & c') (Hi & H'). cbn [fst snd] in Hi, H'. subst i'.
  unfold py_assert. destruct (i =? dn); [|now right]. eexists. split; [reflexivity|exact H'].
Qed.

Section Alloc.
  Context {R : Type} (read : R -> Z -> res (bytes * R)) (maps : nat -> bool).

  Lemma step_sim m fuel i b1 t1 b2 t2 : mb_sim b1 b2 -> mb_sim t1 t2 ->
    sim (fun x y => mb_sim (fst x) (fst y) /\ mb_sim (snd x) (snd y))
      (brute_step read fuel i b1 t1) (brute_step_x read m fuel i b2 t2).
  Proof.
    intros Hb Ht. unfold brute_step, brute_step_x.
    eapply sim_bind; [apply (alloc_sim m)|]. intros d1 d2 Hd.
    eapply sim_bind; [apply (write_sim _ _ _ Hd)|]. intros (n1 & e1) (n2 & e2) (_ & He). cbn [snd] in He.
    eapply sim_bind; [apply (copy_sim read _ _ _ _ _ _ _ He)|]. intros ((k1 & r1) & f1) ((k2 & r2) & f2) (_ & Hf). cbn [snd] in Hf.
    fold mbw. rewrite <- (proj1 Hb), <- (proj1 Hf).
    eapply sim_bind; [apply (apply_sim _ _ _ _ _ _ Ht)|]. intros u1 u2 Hu.
    eexists. split; [reflexivity|]. cbn [fst snd]. split; now apply rewind_sim.
  Qed.
  Lemma loop_sim fuel : forall l n b1 t1 b2 t2 fts, mb_sim b1 b2 -> mb_sim t1 t2 ->
    sim (fun x y => mb_sim (fst (fst x)) (fst (fst y)) /\ snd x = snd y)
      (brute_loop read fuel l b1 t1 fts) (brute_loop_x read maps n fuel l b2 t2 fts).
  Proof.
    induction l as [|i l IH]; intros n b1 t1 b2 t2 fts Hb Ht; cbn [brute_loop brute_loop_x].
    - eexists. split; [reflexivity|]. now split.
    - eapply sim_bind; [apply (step_sim (maps n) _ _ _ _ _ _ Hb Ht)|].
      intros (b1' & t1') (b2' & t2') (Hb' & Ht'). now apply IH.
  Qed.
  Lemma set_cache_sim fuel ds b bsize :
    sim (fun x y => mb_sim (fst x) (fst y) /\ snd x = snd y)
      (set_cache_brute read fuel ds b bsize) (set_cache_x read maps fuel ds b bsize).
  Proof.
    unfold set_cache_brute, set_cache_x.
    eapply sim_bind; [apply sim_refl|]. intros infos _ <-. cbv zeta.
    eapply sim_bind; [apply (alloc_sim (maps 0%nat))|]. intros b1 b2 Hb.
    eapply sim_bind; [apply (copy_sim read _ _ _ _ _ _ _ Hb)|]. intros ((k1 & r1) & c1) ((k2 & r2) & c2) (_ & Hc). cbn [snd] in Hc.
    eapply sim_bind; [apply (alloc_sim (maps 1%nat))|]. intros t1 t2 Ht.
    eapply sim_bind; [apply (loop_sim _ _ _ _ _ _ _ _ Hc Ht)|]. intros ((u1 & v1) & n1) ((u2 & v2) & n2) (Hu & Hn).
    cbn [fst snd] in Hu, Hn. subst n2. eexists. split; [reflexivity|]. now split.
  Qed.

  Definition dar_sim (s t : dar) : Prop := mb_sim (dr_target s) (dr_target t) /\ dr_size s = dr_size t /\ dr_br s = dr_br t.
  Lemma dar_init_sim fuel ds b bsize : sim dar_sim (dar_init read fuel ds b bsize) (dar_init_x read maps fuel ds b bsize).
  Proof.
    unfold dar_init, dar_init_x, py_assert. destruct (negb _); [|now right].
    eapply sim_bind; [apply set_cache_sim|]. intros (t1 & n1) (t2 & n2) (Ht & Hn). cbn [fst snd] in Ht, Hn.
    eexists. split; [reflexivity|]. now split.
  Qed.
  Lemma dar_sim_run : forall ops s t, dar_sim s t ->
    run_stream dar_read' dar_rewind s ops = run_stream dar_read' dar_rewind t ops.
  Proof.
    induction ops as [|[n|] ops IH]; intros [[d1 p1 g1] n1 k1] [[d2 p2 g2] n2 k2] ((H1 & H2 & H3) & H4 & H5);
      cbn [dr_target dr_size dr_br mb_data mb_pos mb_grow] in *; subst d2 p2 n2 k2; cbn [run_stream]; [easy| |].
    - unfold dar_read', dar_read, mb_read. cbn [dr_target dr_size dr_br mb_data mb_pos mb_grow bind].
      erewrite IH; [reflexivity|]. now repeat split.
    - change (dar_rewind (mk_dar (mk_membuf d1 p1 g1) n1 k1)) with (Ok (mk_dar (mb_rewind (mk_membuf d1 p1 g1)) n1 0)).
      change (dar_rewind (mk_dar (mk_membuf d1 p1 g2) n1 k1)) with (Ok (mk_dar (mb_rewind (mk_membuf d1 p1 g2)) n1 0)).
      cbn [bind dr_target dr_size]. erewrite IH; [reflexivity|]. now repeat split.
  Qed.

  (** ** More fuel changes nothing *)
  Lemma step_x_mono m f f' i b t : (f <= f')%nat -> brute_step_x read m f i b t <> Diverge ->
    brute_step_x read m f' i b t = brute_step_x read m f i b t.
  Proof.
    intros Hf. unfold brute_step_x. destruct (allocate_memory_x _ _) as [dd|e|]; cbn [bind]; try easy.
    destruct (mb_write dd _) as [[k dd']|e|]; cbn [bind]; try easy.
    unfold stream_copy. intros Hd. rewrite (stream_copy_loop_mono read mb_write f f'); [easy|easy|].
    intros E. rewrite E in Hd. now apply Hd.
  Qed.
  Lemma loop_x_mono f f' l : (f <= f')%nat -> forall n b t fts, brute_loop_x read maps n f l b t fts <> Diverge ->
    brute_loop_x read maps n f' l b t fts = brute_loop_x read maps n f l b t fts.
  Proof.
    intros Hf. induction l as [|i l IH]; intros n b t fts; cbn [brute_loop_x]; [easy|]. intros Hd.
    rewrite (step_x_mono (maps n) f f') by (easy || (intros E; rewrite E in Hd; now apply Hd)).
    destruct (brute_step_x _ _ _ _ _ _) as [[b' t']|e|]; cbn [bind] in *; try easy. now apply IH.
  Qed.
  Lemma set_cache_x_mono f f' ds b bsize : (f <= f')%nat -> set_cache_x read maps f ds b bsize <> Diverge ->
    set_cache_x read maps f' ds b bsize = set_cache_x read maps f ds b bsize.
  Proof.
    intros Hf. unfold set_cache_x.
    destruct (peek_all read ds) as [infos| |]; cbn [bind]; try easy.
    destruct (allocate_memory_x _ _) as [bb| |]; cbn [bind]; try easy.
    unfold stream_copy. intros H. rewrite (stream_copy_loop_mono read mb_write f f');
      [|easy|intros E; rewrite E in H; now apply H].
    destruct (stream_copy_loop _ _ _ _ _ _ _ _) as [[[? ?] bb1]| |]; cbn [bind] in *; try easy.
    destruct (allocate_memory_x _ _) as [tb| |]; cbn [bind] in *; try easy.
    rewrite (loop_x_mono f f'); [easy|easy|]. intros E; rewrite E in H; now apply H.
  Qed.
  Lemma dar_init_x_evaluates ds b bsize f x : dar_init_x read maps f ds b bsize = x -> x <> Diverge ->
    evaluates (fun f => dar_init_x read maps f ds b bsize) x.
  Proof.
    intros H Hx. apply (evaluates_of_mono _ f); [|easy|easy]. intros f1 f2 Hf Hd. unfold dar_init_x, py_assert in *.
    destruct (negb _); [|easy]. rewrite (set_cache_x_mono f1 f2); [easy|easy|].
    intros E. rewrite E in Hd. now apply Hd.
  Qed.

  Lemma alloc_same ds b bsize st : evaluates (fun f => dar_init read f ds b bsize) (Ok st) ->
    exists st', evaluates (fun f => dar_init_x read maps f ds b bsize) (Ok st') /\ dr_size st' = dr_size st /\
      forall ops, run_stream dar_read' dar_rewind st' ops = run_stream dar_read' dar_rewind st ops.
  Proof.
    intros (f & Hf). specialize (Hf f (Nat.le_refl _)). pose proof (dar_init_sim f ds b bsize) as S.
    rewrite Hf in S. destruct S as (st' & E & S). exists st'. split; [now apply (dar_init_x_evaluates _ _ _ f)|].
    split; [now symmetry; apply S|]. intros ops. symmetry. now apply dar_sim_run.
  Qed.
  Lemma alloc_raise ds b bsize e : evaluates (fun f => dar_init read f ds b bsize) (Raise e) -> e <> ValueError ->
    evaluates (fun f => dar_init_x read maps f ds b bsize) (Raise e).
  Proof.
    intros (f & Hf) He. specialize (Hf f (Nat.le_refl _)). pose proof (dar_init_sim f ds b bsize) as S.
    rewrite Hf in S. destruct S as [S|S]; [easy|]. now apply (dar_init_x_evaluates _ _ _ f).
  Qed.
End Alloc.

(** ** Buffers that grow *)
Lemma grow_put_app b d1 d2 : 0 <= mb_pos b <= len (mb_data b) -> mb_put (mb_put b d1) d2 = mb_put b (d1 ++ d2).
Proof.
  intros H3. pose proof (len_nonneg _ d1). pose proof (len_nonneg _ d2).
  unfold mb_put. cbn [mb_data mb_pos mb_grow]. rewrite len_app. f_equal; [|lia].
  assert (len (firstn (Z.to_nat (mb_pos b)) (mb_data b)) = mb_pos b) as HL by (rewrite len_firstn; lia).
  set (p := firstn (Z.to_nat (mb_pos b)) (mb_data b)) in *.
  rewrite <- !app_assoc.
  replace (Z.to_nat (mb_pos b + len d1)) with (length (p ++ d1)) by (rewrite app_length; unfold len in *; lia).
  rewrite (app_assoc p d1 (skipn _ _)). rewrite firstn_app, firstn_all, Nat.sub_diag, firstn_O, app_nil_r.
  rewrite <- app_assoc. do 3 f_equal.
  rewrite skipn_app. rewrite skipn_all2 by (rewrite !app_length; unfold len in *; lia). cbn [app].
  rewrite skipn_skipn. f_equal. rewrite !app_length. unfold len in *. lia.
Qed.
Lemma grow_write_seq : forall l b, mb_grow b = true -> 0 <= mb_pos b <= len (mb_data b) ->
  write_seq2 mb_write b l = Ok (mb_put b (concat l)).
Proof.
  induction l as [|d l IH]; intros b Hg Hp; cbn [write_seq2 concat].
  - unfold mb_put. destruct b as [x p g]. cbn [mb_data mb_pos mb_grow] in *. rewrite len_nil, Z.add_0_r. cbn [app]. now rewrite firstn_skipn.
  - pose proof (len_nonneg _ d). unfold mb_write at 1. rewrite Hg. cbn [negb andb bind].
    rewrite slice_to_spec, slice_from_spec by lia. rewrite <- Hg at 1.
    fold (mb_put b d). rewrite IH.
    + f_equal. now apply grow_put_app.
    + exact Hg.
    + unfold mb_put. cbn [mb_data mb_pos]. rewrite !len_app, len_firstn, len_skipn. lia.
Qed.

Section Grow.
  Context {R : Type} (read : R -> Z -> res (bytes * R)) (content : R -> bytes) (steady : R -> Prop).
  Hypothesis HR : once_reader read content steady.

  Lemma ddata_ok i e s t dlen fuel : info_raw content steady i e s t dlen -> (Z.to_nat dlen < fuel)%nat ->
    exists d0 k1 d1 n2 r2 d2, allocate_memory (di_size i - di_offset i) = Ok d0 /\ mb_write d0 (di_buf i) = Ok (k1, d1) /\
      stream_copy read mb_write fuel (di_r i) d1 (di_size i) copy_chunk = Ok (n2, r2, d2) /\ mb_data d2 = e.
  Proof.
    intros (He & Ho & Hs & Hof & Hpos & Hsrc & Htgt & Hstd) Hf.
    rewrite Hs. replace (dlen - di_offset i) with (len e) by lia.
    destruct (allocate_ok (len e)) as (dd & Ha & Hdd & Hddp & Hddd); [apply len_nonneg|].
    pose proof (len_nonneg _ (content (di_r i))). pose proof (len_nonneg _ (di_buf i)).
    assert (len e = len (di_buf i) + len (content (di_r i))) as Hel by (rewrite <- He, len_app; easy).
    destruct (once_copy_seq read mb_write content steady HR dlen copy_chunk ltac:(easy)
                (Z.to_nat dlen) (di_r i) 0) as (pieces & r' & P1 & _ & P2); try lia; [now left|].
    rewrite firstn_all2 in P1 by (unfold len in *; lia).
    pose proof (mb_put_ok dd (len e) (di_buf i) Hdd ltac:(lia)) as Hput.
    exists dd, (len (di_buf i)), (mb_put dd (di_buf i)), (0 + len (concat pieces)), r', (mb_put dd e).
    split; [exact Ha|]. split; [apply (mb_write_ok dd (len e)); (easy || lia)|]. split.
    - unfold stream_copy. rewrite P2 by easy.
      rewrite (mb_write_seq2 (len e)); [| easy | rewrite P1; unfold mb_put; cbn [mb_pos]; lia].
      cbn [bind]. rewrite P1, (mb_put_app dd (len e)) by (easy || lia). now rewrite He.
    - unfold mb_put. cbn [mb_data]. rewrite Hddp. cbn [Z.to_nat firstn app].
      rewrite skipn_all2; [now rewrite app_nil_r|]. destruct Hdd as [Hdd _]. unfold len in *. lia.
  Qed.
  Lemma step_x_seq m i e s t dlen ops fuel b tb : info_raw content steady i e s t dlen ->
    ops_enc ops e -> Forall (op_inside s) ops -> (Z.to_nat dlen < fuel)%nat ->
    brute_step_x read m fuel i b tb =
    let! tb := write_seq2 mb_write tb (map (op_bytes (mb_data b)) ops) in
    Ok (mb_rewind tb, mb_rewind b).
  Proof.
    intros Hraw Henc Hin Hf. destruct (ddata_ok i e s t dlen fuel Hraw Hf) as (d0 & k1 & d1 & n2 & r2 & d2 & E0 & E1 & E2 & E3).
    unfold brute_step_x.
    pose proof (alloc_sim m (di_size i - di_offset i)) as S. rewrite E0 in S. destruct S as (d0' & -> & S). cbn [bind].
    pose proof (write_sim d0 d0' (di_buf i) S) as S1. rewrite E1 in S1. destruct S1 as ((k1' & d1') & -> & _ & S1). cbn [bind snd] in *.
    pose proof (copy_sim read (di_size i) copy_chunk fuel (di_r i) d1 d1' 0 S1) as S2. unfold stream_copy in *. rewrite E2 in S2.
    destruct S2 as (((n2' & r2') & d2') & -> & _ & S2). cbn [bind snd] in *.
    rewrite <- (proj1 S2), E3. destruct Hraw as (He & Ho & Hs & Hof & Hpos & Hsrc & Htgt & Hstd).
    rewrite Hsrc. fold mbw. rewrite (apply_delta_data_seq _ _ _ ops) by easy.
    now rewrite mbw_seq.
  Qed.

  (** A single delta whose target buffer can grow: what is beyond the announced size is kept but
      never shown. *)
  Lemma single_delta_x maps base br r v1 v2 e s t ops : maps 1%nat = false ->
    content br = base -> content r = v1 ++ v2 ++ e -> base_fit content steady br -> delta_fit content steady r ->
    varint v1 s -> varint v2 t -> len v1 + len v2 <= 512 -> ops_enc ops e -> Forall (op_inside s) ops ->
    t <= len (ops_bytes base ops) ->
    exists st, evaluates (fun f => dar_init_x read maps f [(r, len (content r))] br (len base)) (Ok st) /\
      dr_size st = t /\
      forall rops, run_stream dar_read' dar_rewind st rops = Ok (cursor (firstn (Z.to_nat t) (ops_bytes base ops)) 0 rops).
  Proof.
    intros Hm Hbr Hr Hbf Hdf H1 H2 Hlen Henc Hin Hp. set (p := ops_bytes base ops) in *.
    destruct (peek_raw read content steady HR r v1 v2 e s t Hr Hdf H1 H2 Hlen) as (i & Hi & Hraw). rewrite <- Hr in Hi, Hraw.
    assert (di_tgt i = t) as Hit by apply Hraw.
    assert (0 <= t) as Ht0 by now apply (varint_nonneg v2).
    set (f := S (Z.to_nat (len base + len (content r)))).
    pose proof (len_nonneg _ (content r)). pose proof (len_nonneg _ base). pose proof (len_nonneg _ p).
    set (tb := mk_membuf (repeat 0 (Z.to_nat t)) 0 true).
    assert (set_cache_x read maps f [(r, len (content r))] br (len base) = Ok (mb_rewind (mb_put tb p), t)) as Hset.
    { unfold set_cache_x. cbn [peek_all]. rewrite Hi. cbn [bind].
      change (1 <? len [(r, len (content r))]) with false. cbv iota.
      replace (max_target [i]) with t by (rewrite max_target_cons, Hit; unfold max_target; cbn [fold_left]; lia).
      destruct (load_base read content steady HR br base (len base) f Hbr Hbf) as (b & b' & r' & n & Hb & Hc & _ & Hok & Hdata); [lia|lia|].
      rewrite Z.sub_diag in Hdata. cbn [Z.to_nat repeat] in Hdata. rewrite app_nil_r in Hdata.
      pose proof (alloc_sim (maps 0%nat) (len base)) as S. rewrite Hb in S. destruct S as (bx & -> & S). cbn [bind].
      pose proof (copy_sim read (len base) copy_chunk f br b bx 0 S) as S2. unfold stream_copy in *. rewrite Hc in S2.
      destruct S2 as (((n2' & r2') & bx') & -> & _ & S2). cbn [bind snd] in *.
      assert (allocate_memory_x (maps 1%nat) t = Ok tb) as ->.
      { unfold allocate_memory_x, tb. rewrite Hm. destruct (Z.eqb_spec t 0) as [->|]; [easy|]. now replace (t <? 0) with false by lia. }
      cbn [bind rev app brute_loop_x].
      rewrite (step_x_seq (maps 2%nat) i e s t (len (content r)) ops) by (easy || lia).
      rewrite <- (proj1 S2), Hdata. rewrite grow_write_seq by (try easy; cbn [tb mb_pos mb_data]; rewrite len_repeat; lia).
      cbn [bind]. now rewrite Hit. }
    exists (mk_dar (mb_rewind (mb_put tb p)) t 0). split; [|split; [easy|]].
    - apply (dar_init_x_evaluates read maps _ _ _ f); [|easy]. unfold dar_init_x, py_assert.
      change (negb (len [(r, len (content r))] =? 0)) with true. cbv iota. now rewrite Hset.
    - intros rops. apply dar_run_ok. repeat split; cbn [dr_size dr_br dr_target mb_rewind mb_pos mb_data]; try lia.
      + rewrite len_firstn. lia.
      + exists (skipn (Z.to_nat t) p). rewrite firstn_skipn. unfold mb_put, tb. cbn [mb_data mb_pos Z.to_nat firstn app].
        rewrite skipn_all2; [now rewrite app_nil_r|]. rewrite repeat_length. lia.
  Qed.
End Grow.
