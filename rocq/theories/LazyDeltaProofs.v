(** Proofs about LazyDeltaModel.v *)
From Coq Require Import ZifyBool ZifyNat.
From Verif Require Import Py PyFacts FunModel FunSpec FunProofs DeltaModel DeltaSpec DeltaProofs
  DeltaReaderModel StreamSpec DeltaReaderProofs LazyModel LazyDeltaModel LazyDeltaSpec.
Ltac Zify.zify_post_hook ::= Z.div_mod_to_equations.

Section LazyDelta.
  Context {R : Type} (read : R -> Z -> res (bytes * R)).

  (** ** The same as with everything made at construction *)
  Lemma peek_at_same d : fst (peek_at read d) = peek read d.
  Proof. destruct d as [r n]. unfold peek_at, peek. cbn [fst snd]. destruct (read r 512) as [[buf r']|x|]; reflexivity. Qed.
  Lemma peek_each_same : forall ds, fst (peek_each read ds) = peek_all read ds.
  Proof.
    induction ds as [|d ds IH]; cbn [peek_each peek_all]; [easy|]. rewrite <- peek_at_same, <- IH.
    destruct (peek_at read d) as [[i|x|] d']; cbn [fst bind]; try easy. now destruct (peek_each read ds) as [r l].
  Qed.
  Lemma apply_one_same f i b t : brute_step read f i b t = let! (b, t, _) := apply_one read f i b t in Ok (b, t).
  Proof.
    unfold brute_step, apply_one. destruct (allocate_memory _) as [dd|x|]; cbn [bind]; try easy.
    destruct (mb_write dd _) as [[k dd']|x|]; cbn [bind]; try easy.
    destruct (stream_copy _ _ _ _ _ _ _) as [[[n r] dd2]|x|]; cbn [bind]; try easy.
    destruct (apply_delta_data _ _ _ _ _ _) as [tb|x|]; easy.
  Qed.
  Lemma apply_each_same f : forall l b t fts done,
    (let! (b, t, n) := brute_loop read f l b t fts in Ok (b, n)) = let! (b, n, _) := apply_each read f l b t fts done in Ok (b, n).
  Proof.
    induction l as [|i l IH]; intros b t fts done; cbn [brute_loop apply_each]; [easy|]. rewrite apply_one_same.
    destruct (apply_one read f i b t) as [[[b' t'] d]|x|]; cbn [bind]; [apply IH|easy|easy].
  Qed.
  Lemma peek_all_len : forall ds l, peek_all read ds = Ok l -> len l = len ds.
  Proof.
    induction ds as [|d ds IH]; intros l H; cbn [peek_all] in H; [injection H as <-; easy|].
    apply bind_ok_inv in H as (i & _ & H). apply bind_ok_inv in H as (l' & H1 & H). injection H as <-.
    apply IH in H1. unfold len in *. cbn [length]. lia.
  Qed.
  Lemma apply_all_same f ds b bsize infos : peek_all read ds = Ok infos ->
    set_cache_brute read f ds b bsize = let! (t, n, _, _) := apply_all read f infos b bsize in Ok (t, n).
  Proof.
    intros H. unfold set_cache_brute, apply_all. rewrite H, (peek_all_len _ _ H). cbn [bind].
    destruct (allocate_memory _) as [bb|x|]; cbn [bind]; try easy.
    destruct (stream_copy _ _ _ _ _ _ _) as [[[n r] bb2]|x|]; cbn [bind]; try easy.
    destruct (allocate_memory _) as [tb|x|]; cbn [bind]; try easy.
    pose proof (apply_each_same f (rev infos) bb2 tb 0 []) as E.
    destruct (brute_loop _ _ _ _ _ _) as [[[b1 t1] n1]|x|]; cbn [bind] in *; rewrite ?E;
      destruct (apply_each _ _ _ _ _ _ _) as [[[b2 n2] d2]|y|]; cbn [bind] in *; congruence.
  Qed.

  (** ** What is left of the streams *)
  Context (content : R -> bytes) (HR : stream_reader read content).
  Definition spent (d : R * Z) : Prop := content (fst d) = [].
  Definition honest_info (i : @dinfo R) : Prop := len (content (di_r i)) <= di_size i.

  Lemma copy_spent {W} (write : W -> bytes -> res (Z * W)) f r w size n r' w' : len (content r) <= size ->
    stream_copy read write f r w size copy_chunk = Ok (n, r', w') -> content r' = [].
  Proof.
    intros Hs H. pose proof (len_nonneg _ (content r)). unfold stream_copy in H.
    destruct (stream_copy_seq read write content HR size copy_chunk ltac:(easy) (Z.to_nat size) r 0) as (pieces & r1 & _ & Hc & Hf); [lia|lia| |].
    { destruct (Z.eq_dec size 0); [right|left; lia]. destruct (content r); [easy|]. unfold len in *. cbn [length] in *. lia. }
    assert (stream_copy_loop read write (f + S (Z.to_nat size)) r w size copy_chunk 0 = Ok (n, r', w')) as H'.
    { rewrite (stream_copy_loop_mono read write f); [exact H|lia|now rewrite H]. }
    rewrite Hf in H' by lia. destruct (write_seq2 write w pieces); cbn [bind] in H'; [|easy|easy]. injection H' as _ <- _.
    rewrite Hc. apply skipn_all2. unfold len in *. lia.
  Qed.
  Lemma apply_each_spent f : forall l b t fts done b' n ds, Forall honest_info l -> Forall spent done ->
    apply_each read f l b t fts done = Ok (b', n, ds) -> Forall spent ds /\ length ds = (length l + length done)%nat.
  Proof.
    induction l as [|i l IH]; intros b t fts done b' n ds Hl Hd H; cbn [apply_each] in H.
    - injection H as <- <- <-. now split.
    - inversion Hl; subst. apply bind_ok_inv in H as (((b1 & t1) & d) & H1 & H).
      apply IH in H as [G1 G2]; [split; [exact G1|cbn [length] in *; lia]|assumption|].
      constructor; [|exact Hd]. unfold apply_one in H1.
      apply bind_ok_inv in H1 as (dd & _ & H1). apply bind_ok_inv in H1 as ((k & dd1) & _ & H1).
      apply bind_ok_inv in H1 as (((n2 & r2) & dd2) & Hcp & H1). apply bind_ok_inv in H1 as (tb & _ & H1). injection H1 as _ _ <-.
      unfold spent. cbn [fst]. now apply copy_spent in Hcp.
  Qed.
  Lemma apply_all_spent f infos b bsize t n ds b' : Forall honest_info infos -> infos <> [] ->
    apply_all read f infos b bsize = Ok (t, n, ds, b') -> exists d ds', ds = d :: ds' /\ spent d.
  Proof.
    intros Hh Hn H. unfold apply_all in H.
    apply bind_ok_inv in H as (bb & _ & H). apply bind_ok_inv in H as (((k & r) & bb1) & _ & H).
    apply bind_ok_inv in H as (tb & _ & H). apply bind_ok_inv in H as (((b1 & n1) & d1) & H1 & H). injection H as _ _ <- _.
    apply apply_each_spent in H1 as [G1 G2]; [|now apply Forall_rev|constructor].
    destruct d1 as [|d ds']; [|exists d, ds'; split; [easy|now inversion G1]].
    rewrite rev_length in G2. destruct infos; [easy|]. cbn in G2. lia.
  Qed.
  Lemma peek_honest : forall ds l, Forall (fun d => snd d = len (content (fst d))) ds -> peek_all read ds = Ok l -> Forall honest_info l.
  Proof.
    induction ds as [|[r n] ds IH]; intros l Hd H; cbn [peek_all] in H; [injection H as <-; constructor|].
    inversion Hd; subst. cbn [fst snd] in *. apply bind_ok_inv in H as (i & H0 & H). apply bind_ok_inv in H as (l' & H1 & H). injection H as <-.
    constructor; [|now apply IH]. unfold peek in H0.
    destruct (HR r 512 ltac:(lia)) as (r' & E & Ec). rewrite E in H0. cbn [bind] in H0.
    apply bind_ok_inv in H0 as ((o1 & s1) & _ & H0). apply bind_ok_inv in H0 as ((o2 & s2) & _ & H0). injection H0 as <-.
    unfold honest_info. cbn [di_r di_size]. rewrite Ec, len_skipn. pose proof (len_nonneg _ (content r)). lia.
  Qed.
  Lemma peek_spent d ds : spent d -> exists d', peek_each read (d :: ds) = (Raise AssertionError, d' :: ds) /\ spent d'.
  Proof.
    intros Hd. cbn [peek_each]. unfold peek_at. destruct (HR (fst d) 512 ltac:(lia)) as (r' & -> & Ec).
    rewrite Hd. rewrite firstn_nil. cbn [msb_size msb_loop length bind]. exists (r', snd d). split; [reflexivity|].
    unfold spent. cbn [fst]. now rewrite Ec, Hd, skipn_nil.
  Qed.

  (** ** All histories *)
  Definition built (s : @ldar R) (result : bytes) (p : nat) : Prop :=
    (exists d ds, l_dstreams s = d :: ds /\ spent d) /\
    exists t, l_target s = Some t /\ l_size s = Some (len result) /\ dar_at (mk_dar t (len result) (l_br s)) result p.

  Lemma run_built fuel result : forall ops s p, built s result p ->
    l_run read fuel ops s = lanswers AssertionError AssertionError result p ops.
  Proof.
    induction ops as [|[n| | |] ops IH]; intros s p Hs; cbn [l_run lanswers]; [easy| | | |];
      destruct s as [ds b bsize tg sz br]; destruct Hs as (Hd & t & H1 & H2 & H3);
      cbn [l_dstreams l_target l_size l_br] in *; subst tg sz.
    - unfold l_read, then_do, get. cbn [l_size l_target l_br].
      pose proof (dar_read_ok (mk_dar t (len result) br) result p n H3) as (st' & E & H4). cbv zeta in E, H4.
      unfold dar_read in E. cbn [dr_target dr_size dr_br] in E.
      destruct (mb_read t _) as [data t']. injection E as -> <-. cbn [answer set pure set_target set_br l_br l_dstreams l_bstream l_bsize l_size l_target].
      f_equal. apply IH. split; [exact Hd|]. exists t'. now split.
    - unfold l_seek, then_do, get. cbn [Z.eqb negb orb set set_br l_target l_dstreams l_bstream l_bsize l_size l_br set_target answer].
      f_equal. apply IH. split; [exact Hd|]. exists (mb_rewind t). split; [easy|]. split; [easy|].
      destruct H3 as (A1 & A2 & A3 & A4 & A5). repeat split; try easy. lia.
    - unfold l_size_of, get. cbn [l_size answer]. f_equal. apply IH. split; [exact Hd|]. now exists t.
    - destruct Hd as (d & ds' & -> & Hd). destruct (peek_spent d ds' Hd) as (d' & E & Hd').
      unfold l_other, get, then_do, l_set_cache. cbn [l_dstreams]. rewrite E.
      cbn [answer l_bstream l_bsize l_target l_size l_br]. f_equal. apply IH. split; [now exists d', ds'|]. now exists t.
  Qed.

  Lemma set_cache_builds fuel rs br bsize t result cap : rs <> [] -> Forall (fun d => snd d = len (content (fst d))) rs ->
    set_cache_brute read fuel rs br bsize = Ok (t, len result) -> holds t cap result ->
    exists ds b, (exists d ds', ds = d :: ds' /\ spent d) /\ dar_at (mk_dar t (len result) 0) result 0 /\
      forall k, l_set_cache read fuel (mk_ldar rs br bsize None None k) = (Ok tt, mk_ldar ds b bsize (Some t) (Some (len result)) k).
  Proof.
    intros Hne Hh Hc Ht. pose proof Hc as Hc'. unfold set_cache_brute in Hc'. apply bind_ok_inv in Hc' as (infos & Hp & _).
    rewrite (apply_all_same fuel rs br bsize infos Hp) in Hc. apply bind_ok_inv in Hc as ((((t' & n') & ds) & b) & Ha & Hc). injection Hc as -> ->.
    exists ds, b. split; [|split].
    - apply (apply_all_spent fuel infos br bsize t (len result) ds b); [now apply (peek_honest rs)| |exact Ha].
      intros ->. apply peek_all_len in Hp. destruct rs; [easy|]. unfold len in Hp. cbn [length] in Hp. lia.
    - destruct Ht as ((H1 & H2 & H3) & H4 & rest & H5). repeat split; try easy; try (cbn; lia). now exists rest.
    - intros k. unfold l_set_cache. cbn [l_dstreams l_bstream l_bsize l_br].
      pose proof (peek_each_same rs) as E. destruct (peek_each read rs) as [x l]. cbn [fst] in E. rewrite E, Hp, Ha. reflexivity.
  Qed.
  Lemma run_fresh fuel rs br bsize t result cap ops : rs <> [] -> Forall (fun d => snd d = len (content (fst d))) rs ->
    set_cache_brute read fuel rs br bsize = Ok (t, len result) -> holds t cap result ->
    l_run read fuel ops (mk_ldar rs br bsize None None 0) = lanswers AssertionError AttributeError result 0 ops.
  Proof.
    intros Hne Hh Hc Ht. destruct (set_cache_builds fuel rs br bsize t result cap Hne Hh Hc Ht) as (ds & b & Hsp & Hat & Hset).
    assert (B : built (mk_ldar ds b bsize (Some t) (Some (len result)) 0) result 0) by (split; [exact Hsp|now exists t]).
    destruct ops as [|o ops]; [easy|].
    destruct o as [n| | |]; cbn [lanswers]; pose proof (fun o => run_built fuel result (o :: ops) _ _ B) as G.
    - etransitivity; [|exact (G (LRead n))]. cbn [l_run]. unfold l_read, get, then_do. cbn [l_size]. rewrite Hset. reflexivity.
    - etransitivity; [|exact (G LRewind)]. cbn [l_run].
      unfold l_seek, get, then_do, set, set_br. change (negb (0 =? 0) || negb (0 =? 0)) with false. cbv iota.
      cbn [l_target l_dstreams l_bstream l_bsize l_size l_br]. rewrite Hset. reflexivity.
    - etransitivity; [|exact (G LSize)]. cbn [l_run]. unfold l_size_of, get, then_do. cbn [l_size]. rewrite Hset. reflexivity.
    - cbn [l_run]. unfold l_other, get, then_do. rewrite Hset. cbn [answer]. f_equal. now apply run_built.
  Qed.

  Lemma lazy_history base ds result rs br : delta_chain base ds result -> ds <> [] ->
    Forall2 (fun p d => content (fst p) = d /\ snd p = len d) rs ds -> content br = base ->
    exists N s, ldar_init rs br (len base) = Ok s /\ forall fuel ops, (N <= fuel)%nat ->
      l_run read fuel ops s = lanswers AssertionError AttributeError result 0 ops.
  Proof.
    intros H1 H2 H3 H4.
    destruct (set_cache_ok read content (fun _ => True) (stream_is_once _ _ HR) base ds result H1 H2 rs br) as (t & cap & Ht & N & Hf); [|exact H4|now left|].
    { unfold streams_of. clear - H3. induction H3 as [|p d rs ds [Ha Hb] _ IH]; constructor; [|exact IH]. split; [easy|]. split; [easy|now left]. }
    assert (Hne : rs <> []) by (intros ->; inversion H3; subst; easy).
    exists N. eexists. split.
    - unfold ldar_init, py_assert. destruct rs as [|p rs]; [easy|]. rewrite len_cons. pose proof (len_nonneg _ rs).
      replace (len rs + 1 =? 0) with false by lia. reflexivity.
    - intros fuel ops Hfu. apply (run_fresh fuel rs br (len base) t result cap ops Hne); [|now apply Hf|exact Ht].
      clear - H3. induction H3 as [|p d rs ds [Ha Hb] _ IH]; constructor; [congruence|exact IH].
  Qed.
End LazyDelta.
