(** Streams that behave alike can be exchanged in DeltaApplyReader: if every read that
    succeeds on one succeeds with the same bytes on the other, so does the whole. *)
From Coq Require Import ZifyBool ZifyNat.
From Verif Require Import Py PyFacts FunModel FunSpec FunProofs DeltaModel DeltaReaderModel StreamSpec.
Ltac Zify.zify_post_hook ::= Z.div_mod_to_equations.

Section Sim.
  Context {R R' : Type} (read : R -> Z -> res (bytes * R)) (read' : R' -> Z -> res (bytes * R')).
  Context (P : R -> R' -> Prop).
  Hypothesis Hsim : forall r r' n out r1', P r r' -> read' r' n = Ok (out, r1') ->
    exists r1, read r n = Ok (out, r1) /\ P r1 r1'.

  Lemma sim_copy {W} (write : W -> bytes -> res (Z * W)) size chunk : forall f f' r r' w dbw n r1' w1,
    (f <= f')%nat -> P r r' -> stream_copy_loop read' write f r' w size chunk dbw = Ok (n, r1', w1) ->
    exists r1, stream_copy_loop read write f' r w size chunk dbw = Ok (n, r1, w1) /\ P r1 r1'.
  Proof.
    induction f as [|f IH]; intros f' r r' w dbw n r1' w1 Hf HP H; [discriminate|].
    destruct f' as [|f']; [lia|]. cbn [stream_copy_loop] in *.
    apply bind_ok_inv in H as ([data r2'] & H1 & H2). destruct (Hsim _ _ _ _ _ HP H1) as (r2 & -> & HP2). cbn [bind].
    apply bind_ok_inv in H2 as ([k w2] & -> & H3). cbn [bind].
    destruct (_ || _).
    - assert (n = dbw + len data) by congruence. assert (r1' = r2') by congruence. assert (w1 = w2) by congruence. subst.
      now exists r2.
    - apply (IH f' _ _ _ _ _ _ _ ltac:(lia) HP2 H3).
  Qed.

  Definition Pinfo (i : @dinfo R) (i' : @dinfo R') : Prop :=
    di_buf i = di_buf i' /\ di_offset i = di_offset i' /\ di_src i = di_src i' /\ di_tgt i = di_tgt i' /\
    di_size i = di_size i' /\ P (di_r i) (di_r i').
  Definition Pds (a : R * Z) (b : R' * Z) : Prop := P (fst a) (fst b) /\ snd a = snd b.
  Lemma sim_peek a b i' : Pds a b -> peek read' b = Ok i' -> exists i, peek read a = Ok i /\ Pinfo i i'.
  Proof.
    destruct a as [r n], b as [r' n']. intros [HP E] H. cbn [fst snd] in *. subst n'. unfold peek in *.
    apply bind_ok_inv in H as ([buf r1'] & H1 & H). destruct (Hsim _ _ _ _ _ HP H1) as (r1 & -> & HP1). cbn [bind].
    apply bind_ok_inv in H as ([o s] & -> & H). cbn [bind].
    apply bind_ok_inv in H as ([o2 t] & -> & H). cbn [bind].
    eexists. split; [reflexivity|]. assert (i' = mk_dinfo (slice_from buf o2) o2 s t r1' n) as -> by congruence.
    repeat split; easy.
  Qed.
  Lemma sim_peek_all : forall ds ds' l', Forall2 Pds ds ds' -> peek_all read' ds' = Ok l' ->
    exists l, peek_all read ds = Ok l /\ Forall2 Pinfo l l'.
  Proof.
    intros ds ds' l' H. revert l'. induction H as [|a b ds ds' Hab _ IH]; intros l' Hl; cbn [peek_all] in *.
    - assert (l' = []) as -> by congruence. exists []. now split.
    - apply bind_ok_inv in Hl as (i' & H1 & Hl). apply bind_ok_inv in Hl as (l1 & H2 & Hl).
      destruct (sim_peek _ _ _ Hab H1) as (i & -> & Hi). cbn [bind]. destruct (IH _ H2) as (l & -> & HF). cbn [bind].
      assert (l' = i' :: l1) as -> by congruence. eexists. split; [reflexivity|]. now constructor.
  Qed.
  Lemma sim_max_target l l' : Forall2 Pinfo l l' -> forall m, fold_left (fun m i => Z.max m (di_tgt i)) l m = fold_left (fun m i => Z.max m (di_tgt i)) l' m.
  Proof.
    induction 1 as [|i i' l l' Hi _ IH]; intros m; cbn [fold_left]; [easy|]. rewrite IH. now replace (di_tgt i) with (di_tgt i') by (symmetry; apply Hi).
  Qed.
  Lemma sim_step f f' i i' b t v : (f <= f')%nat -> Pinfo i i' -> brute_step read' f i' b t = Ok v -> brute_step read f' i b t = Ok v.
  Proof.
    intros Hf (E1 & E2 & E3 & E4 & E5 & HP) H. unfold brute_step in *. rewrite E1, E2, E3, E5.
    apply bind_ok_inv in H as (dd & -> & H). cbn [bind].
    apply bind_ok_inv in H as ([k dd1] & -> & H). cbn [bind].
    apply bind_ok_inv in H as ([[n r1'] dd2] & H1 & H). unfold stream_copy in *.
    destruct (sim_copy _ _ _ _ _ _ _ _ _ _ _ _ Hf HP H1) as (r1 & -> & _). cbn [bind]. exact H.
  Qed.
  Lemma sim_loop f f' : (f <= f')%nat -> forall l l', Forall2 Pinfo l l' -> forall b t fts v,
    brute_loop read' f l' b t fts = Ok v -> brute_loop read f' l b t fts = Ok v.
  Proof.
    intros Hf l l' H. induction H as [|i i' l l' Hi _ IH]; intros b t fts v Hv; cbn [brute_loop] in *; [easy|].
    apply bind_ok_inv in Hv as ([b1 t1] & H1 & Hv). rewrite (sim_step _ _ _ _ _ _ _ Hf Hi H1). cbn [bind].
    replace (di_tgt i) with (di_tgt i') by (symmetry; apply Hi). now apply IH.
  Qed.
  Lemma Forall2_rev {A B} (Q : A -> B -> Prop) l l' : Forall2 Q l l' -> Forall2 Q (rev l) (rev l').
  Proof. induction 1; cbn [rev]; [constructor|]. apply Forall2_app; [easy|now constructor]. Qed.
  Lemma sim_set_cache f f' ds ds' b b' bsize v : (f <= f')%nat -> Forall2 Pds ds ds' -> P b b' ->
    set_cache_brute read' f ds' b' bsize = Ok v -> set_cache_brute read f' ds b bsize = Ok v.
  Proof.
    intros Hf Hds Hb H. unfold set_cache_brute in *.
    apply bind_ok_inv in H as (infos' & H1 & H). destruct (sim_peek_all _ _ _ Hds H1) as (infos & -> & Hi). cbn [bind].
    assert (max_target infos = max_target infos') as -> by (apply sim_max_target; exact Hi).
    assert (len ds = len ds') as -> by (unfold len; f_equal; revert Hds; clear; induction 1; cbn; congruence).
    apply bind_ok_inv in H as (bb & -> & H). cbn [bind].
    apply bind_ok_inv in H as ([[n r1'] bb1] & H2 & H). unfold stream_copy in *.
    destruct (sim_copy _ _ _ _ _ _ _ _ _ _ _ _ Hf Hb H2) as (r1 & -> & _). cbn [bind].
    apply bind_ok_inv in H as (tb & -> & H). cbn [bind].
    apply bind_ok_inv in H as ([[b2 t2] fts] & H3 & H).
    rewrite (sim_loop _ _ Hf _ _ (Forall2_rev _ _ _ Hi) _ _ _ _ H3). exact H.
  Qed.
  Lemma sim_dar_init f f' ds ds' b b' bsize v : (f <= f')%nat -> Forall2 Pds ds ds' -> P b b' ->
    dar_init read' f ds' b' bsize = Ok v -> dar_init read f' ds b bsize = Ok v.
  Proof.
    intros Hf Hds Hb H. unfold dar_init, py_assert in *.
    assert (len ds = len ds') as -> by (unfold len; f_equal; revert Hds; clear; induction 1; cbn; congruence).
    destruct (negb _); [|discriminate]. apply bind_ok_inv in H as ([t n] & H1 & H).
    rewrite (sim_set_cache _ _ _ _ _ _ _ _ Hf Hds Hb H1). exact H.
  Qed.
End Sim.

(** The stream that delivers a byte string to exactly the requests DeltaApplyReader makes. *)
Definition sread (c : bytes) (n : Z) : res (bytes * bytes) :=
  if (0 <? n) || ((n =? 0) && (len c =? 0)) then Ok (firstn (Z.to_nat n) c, skipn (Z.to_nat n) c) else Raise ValueError.
Lemma sread_stream : stream_reader sread (fun c => c).
Proof.
  intros c n Hn. exists (skipn (Z.to_nat n) c). unfold sread. split; [|reflexivity].
  replace (_ || _) with true; [reflexivity|]. destruct Hn as [Hn|[-> ->]]; [lia|reflexivity].
Qed.
(** The same, with a first request that must be for everything unless the flag is set. *)
Definition once_read (s : bool * bytes) (n : Z) : res (bytes * (bool * bytes)) :=
  let (b, c) := s in
  if ((0 <? n) || ((n =? 0) && (len c =? 0))) && (b || (len c <=? n))
  then Ok (firstn (Z.to_nat n) c, (true, skipn (Z.to_nat n) c)) else Raise ValueError.
