(** Proofs about MissingModel.v *)
From Coq Require Import ZifyBool ZifyNat.
From Verif Require Import Py PyFacts FunModel IndexModel ZlibModel ReaderModel DeltaReaderModel PackModel LazyModel LazySpec LazyProofs MissingModel.
Ltac Zify.zify_post_hook ::= Z.div_mod_to_equations.

(** Asking for what is never there: loading, and then AttributeError. *)
Lemma missing_is {S} (load : method S unit) s :
  get (fun _ => None) load s = (match fst (load s) with Ok _ => Raise AttributeError | Raise x => Raise x | Diverge => Diverge end : res unit, snd (load s)).
Proof. unfold get, then_do. now destruct (load s) as [[[]|x|] s']. Qed.

Section Pack.
  Variables (sig d : bytes) (version count : Z).
  Hypothesis Hd : headed sig version count d.
  Lemma pf_missing_is s : pf_missing (Ok d) s =
    (Raise (if be_dec sig =? 1346454347 then AttributeError else ParseError), mk_pfile (Some (Some d)) (Some version) (Some count)).
  Proof. unfold pf_missing. rewrite missing_is, (pf_load sig d version count Hd). cbn [fst snd]. now destruct (_ =? _). Qed.
  Lemma pf_life_ready b s : sig = str_PACK -> pf_life (Ok d) b s -> pf_ready sig d version count b s.
  Proof.
    intros Hsig H. induction H as [|b s s' Hr IH Hc|b s Hr IH|b s Hr IH].
    - split; [split; [now left|split; now left]|now left].
    - now apply (call_ready sig d version count Hd b s).
    - rewrite pf_missing_is. cbn [snd]. apply loaded_ready.
    - now apply (close_ready sig d version count b).
  Qed.
  Lemma ready_right b s : pf_ready sig d version count b s -> pf_right d version count b s.
  Proof.
    intros H. split; [now apply (size_gives sig d version count Hd)|]. split; [now apply (version_gives sig d version count Hd)|].
    intros A f. now apply (on_gives sig d version count Hd).
  Qed.
End Pack.

Section Index.
  Variables (d : bytes) (ix : pidx).
  Hypothesis Ho : index_open d = Ok ix.
  Lemma xf_missing_ok b s : xf_inv d ix b s -> fst (xf_missing (Ok d) s) = Raise AttributeError /\ xf_inv d ix b (snd (xf_missing (Ok d) s)).
  Proof.
    intros H. unfold xf_missing. rewrite missing_is. destruct (xf_load d ix Ho b s H) as [E | [Hb E]]; rewrite E; cbn [fst snd]; split; try easy.
    now apply loaded_inv.
  Qed.
  Lemma xf_life_inv b s : xf_life (Ok d) b s -> xf_inv d ix b s.
  Proof.
    intros H. induction H as [|b s s' Hr IH Hc|b s Hr IH|b s Hr IH].
    - split; [now left|]. split; [now left|]. split; [now left|]. split; now left.
    - now apply (x_call_inv d ix Ho b s).
    - now apply xf_missing_ok.
    - now apply (x_close_inv d ix b).
  Qed.
  Lemma x_inv_right b s : xf_inv d ix b s -> xf_right d ix b s.
  Proof.
    intros H. split; [now apply version_told|]. split; [now apply size_told|].
    split; [intros i; split; [now apply sha_told|]; split; [now apply offset_told|]; split; [now apply crc_told|now apply entry_told]|].
    split; [now apply pack_sum_told|]. split; [now apply index_sum_told|]. split; [now apply offsets_told|].
    split; [intros sha; now apply lookup_told|intros p n; now apply partial_told].
  Qed.
End Index.

Lemma xb_life_inv d e b s : index_open d = Raise e -> xf_life (Ok d) b s -> b = false -> xb_inv d s.
Proof.
  intros Ho H. induction H as [|b s s' Hr IH Hc|b s Hr IH|b s Hr IH]; intros Hb; [|now apply (bcall_stays d e Ho s); [apply IH|]| |easy].
  - apply (breach_inv d e Ho false); [constructor|easy].
  - unfold xf_missing. rewrite missing_is. cbn [snd]. now apply (xb_load d e Ho), IH.
Qed.
Lemma xb_missing d e s : index_open d = Raise e -> xf_life (Ok d) false s -> fst (xf_missing (Ok d) s) = Raise e.
Proof.
  intros Ho H. apply (xb_life_inv d e _ _ Ho) in H; [|easy]. unfold xf_missing. rewrite missing_is. cbn [fst].
  destruct (xb_load d e Ho s H) as [-> _]. reflexivity.
Qed.

Section Entity.
  Context (K : zlib) (sha1 : bytes -> bytes) (pagesize : Z).
  Variables (dx : bytes) (ix : pidx) (dp : bytes) (version count : Z).
  Hypothesis Ho : index_open dx = Ok ix.
  Hypothesis Hd : headed str_PACK version count dp.
  Notation inv := (ef_inv dx ix str_PACK dp version count).

  Lemma eload_gives b : gives (inv b) b (ef_set_cache (Ok dx) (Ok dp)) (let! l := ix_offsets ix in py_assert (negb (len (sort_z l) =? 0)) (Ok tt)).
  Proof.
    unfold ef_set_cache. apply gives_then; [apply on_index_gives, offsets_told, Ho|]. intros l El.
    apply (gives_then _ _ _ _ (Ok dp) (fun _ => py_assert (negb (len (sort_z l) =? 0)) (Ok tt))); [now apply data_gives|]. intros q Hq. injection Hq as <-. cbv zeta.
    destruct (len (sort_z l) =? 0) eqn:En; cbn [negb py_assert].
    - apply (gives_then _ _ _ _ (Raise AssertionError) (fun _ => Raise AssertionError)); [apply gives_pure|discriminate].
    - apply (gives_then _ _ _ _ (Ok tt) (fun _ => Ok tt)); [apply gives_pure|]. intros _ _. apply gives_set. intros t (H1 & H2 & _). split; [easy|]. split; [easy|].
      right. now exists l.
  Qed.
  Lemma ef_missing_inv b s : inv b s -> inv b (snd (ef_missing (Ok dx) (Ok dp) s)).
  Proof. intros H. unfold ef_missing. rewrite missing_is. cbn [snd]. now apply eload_gives. Qed.
  Lemma ef_life_inv b s : ef_life K sha1 pagesize (Ok dx) (Ok dp) b s -> inv b s.
  Proof.
    intros H. induction H as [|b s s' Hr IH Hc|b s Hr IH|b s Hr IH|b s Hr IH|b s Hr IH].
    - split; [split; [now left|]; split; [now left|]; split; [now left|]; split; now left|].
      split; [split; [split; [now left|split; now left]|now left]|now left].
    - exact (ecall_inv K sha1 pagesize dx ix str_PACK dp version count Ho Hd b s s' IH Hc).
    - now apply ef_missing_inv.
    - destruct IH as (Hx & Hp & Hm). unfold on_index. destruct (xf_missing_ok dx ix Ho b _ Hx) as [_ H]. destruct (xf_missing (Ok dx) (ef_index s)). now split.
    - destruct IH as (Hx & Hp & Hm). unfold on_pack. rewrite (pf_missing_is str_PACK dp version count Hd). cbn [snd]. split; [exact Hx|]. split; [|exact Hm]. apply loaded_ready.
    - now apply (eclose_inv dx ix str_PACK dp version count b).
  Qed.
  Lemma ef_missing_told b s : inv b s ->
    told b (fst (ef_missing (Ok dx) (Ok dp) s)) (let! l := ix_offsets ix in if len (sort_z l) =? 0 then Raise AssertionError else Raise AttributeError).
  Proof.
    intros H. unfold ef_missing. rewrite missing_is. cbn [fst]. destruct (eload_gives b s H) as [[-> | [Hb ->]] _]; [left|now right].
    destruct (ix_offsets ix) as [l|x|]; cbn [bind]; [|easy|easy]. now destruct (len (sort_z l) =? 0).
  Qed.
End Entity.
