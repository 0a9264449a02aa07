(** C113: asking lazily loaded files for attributes that they do not have. *)
From Coq Require Import ZifyBool ZifyNat.
From Verif Require Import Py PyFacts FunModel IndexModel ZlibModel ReaderModel DeltaReaderModel PackModel LazyModel LazySpec LazyProofs MissingModel MissingProofs.
From Verif Require Import Prop_Index Prop_Pack Prop_Lazy.

(** In every history a missing attribute of a pack is an AttributeError, and the methods of the
    pack answer after it as before. *)
Theorem C113_pack_partial :
  forall (d : bytes) (version count : Z) (closed : bool) (s : pfile),
  headed str_PACK version count d -> pf_life (Ok d) closed s ->
  fst (pf_missing (Ok d) s) = Raise AttributeError /\
  pf_right d version count closed s /\ pf_right d version count closed (snd (pf_missing (Ok d) s)).
Proof.
  intros d version count closed s Hd Hs. split; [now rewrite (pf_missing_is str_PACK d version count Hd)|].
  split; apply (ready_right str_PACK d version count Hd), pf_life_ready; auto. now constructor.
Qed.
Print Assumptions C113_pack_partial.
Theorem C113_index_partial :
  forall (d : bytes) (ix : pidx) (closed : bool) (s : ifile),
  index_open d = Ok ix -> xf_life (Ok d) closed s ->
  fst (xf_missing (Ok d) s) = Raise AttributeError /\
  xf_right d ix closed s /\ xf_right d ix closed (snd (xf_missing (Ok d) s)).
Proof.
  intros d ix closed s Ho Hs. pose proof (xf_life_inv d ix Ho closed s Hs) as Hi. split; [now apply (xf_missing_ok d ix Ho closed)|].
  split; apply x_inv_right; auto. now apply xf_missing_ok.
Qed.
Print Assumptions C113_index_partial.
Theorem C113_entity_partial :
  forall (K : zlib) (sha1 : bytes -> bytes) (pagesize : Z) (dx dp : bytes) (ix : pidx) (version count : Z) (l : list Z) (closed : bool) (s : efile),
  index_open dx = Ok ix -> headed str_PACK version count dp -> ix_offsets ix = Ok l -> l <> [] ->
  ef_life K sha1 pagesize (Ok dx) (Ok dp) closed s ->
  fst (ef_missing (Ok dx) (Ok dp) s) = Raise AttributeError /\
  ef_right K sha1 pagesize dx dp (mk_entity ix dp) closed s /\
  ef_right K sha1 pagesize dx dp (mk_entity ix dp) closed (snd (ef_missing (Ok dx) (Ok dp) s)).
Proof.
  intros K sha1 pagesize dx dp ix version count l closed s Ho Hd El Hl Hs. pose proof (ef_life_inv K sha1 pagesize dx ix dp version count Ho Hd closed s Hs) as Hi.
  split.
  - pose proof (ef_missing_told dx ix dp version count Ho Hd closed s Hi) as Ht. rewrite El in Ht. cbn [bind] in Ht.
    replace (len (sort_z l) =? 0) with false in Ht.
    + destruct Ht as [Ht | [_ Ht]]; exact Ht.
    + symmetry. unfold len. rewrite <- (Permutation.Permutation_length (PackCheckProofs.sort_z_perm l)). destruct l; [easy|]. cbn [length]. lia.
  - split; apply (inv_right K sha1 pagesize dx ix str_PACK dp version count Ho Hd); auto. now apply ef_missing_inv.
Qed.
Print Assumptions C113_entity_partial.

(** The entity of a pack without objects raises AssertionError instead, so that hasattr fails. *)
Theorem C113_empty_entity_refuted :
  forall (K : zlib) (sha1 : bytes -> bytes) (pagesize : Z) (dx dp : bytes) (ix : pidx) (version count : Z) (s : efile),
  index_open dx = Ok ix -> headed str_PACK version count dp -> ix_offsets ix = Ok [] ->
  ef_life K sha1 pagesize (Ok dx) (Ok dp) false s -> fst (ef_missing (Ok dx) (Ok dp) s) = Raise AssertionError.
Proof.
  intros K sha1 pagesize dx dp ix version count s Ho Hd El Hs. pose proof (ef_life_inv K sha1 pagesize dx ix dp version count Ho Hd false s Hs) as Hi.
  pose proof (ef_missing_told dx ix dp version count Ho Hd false s Hi) as Ht. rewrite El in Ht. cbn in Ht. now destruct Ht as [Ht | [Ht _]].
Qed.
Print Assumptions C113_empty_entity_refuted.
(** The entity of an index that ends within its offsets raises the error of reading them. *)
Theorem C113_cut_entity_refuted :
  forall (K : zlib) (sha1 : bytes -> bytes) (pagesize : Z) (dx dp : bytes) (ix : pidx) (version count : Z) (e : exn) (s : efile),
  index_open dx = Ok ix -> headed str_PACK version count dp -> ix_offsets ix = Raise e ->
  ef_life K sha1 pagesize (Ok dx) (Ok dp) false s -> fst (ef_missing (Ok dx) (Ok dp) s) = Raise e.
Proof.
  intros K sha1 pagesize dx dp ix version count e s Ho Hd El Hs. pose proof (ef_life_inv K sha1 pagesize dx ix dp version count Ho Hd false s Hs) as Hi.
  pose proof (ef_missing_told dx ix dp version count Ho Hd false s Hi) as Ht. rewrite El in Ht. cbn in Ht. now destruct Ht as [Ht | [Ht _]].
Qed.
Print Assumptions C113_cut_entity_refuted.
(** A file without the signature PACK: ParseError, whatever was called before. *)
Theorem C113_other_file_refuted :
  forall (sig d : bytes) (version count : Z) (s : pfile),
  headed sig version count d -> sig <> str_PACK -> fst (pf_missing (Ok d) s) = Raise ParseError.
Proof.
  intros sig d version count s Hd Hs. rewrite (pf_missing_is sig d version count Hd). cbn [fst].
  pose proof (sig_is sig d version count Hd) as H. destruct (_ =? _); [now destruct (Hs (proj1 H eq_refl))|easy].
Qed.
Print Assumptions C113_other_file_refuted.
(** An index that cannot be opened: its error, in every history without close. *)
Theorem C113_bad_index_refuted :
  forall (d : bytes) (e : exn) (s : ifile),
  index_open d = Raise e -> xf_life (Ok d) false s -> fst (xf_missing (Ok d) s) = Raise e.
Proof. exact (fun d e s => xb_missing d e s). Qed.
Print Assumptions C113_bad_index_refuted.
(** A closed pack is opened again by the question: its methods raise AttributeError before and
    answer afterwards. *)
Theorem C113_reopened_refuted :
  forall (d : bytes) (version count : Z) (s : pfile) (A : Type) (f : bytes -> res A),
  headed str_PACK version count d ->
  fst (pf_on (Ok d) f (snd (pf_close s))) = Raise AttributeError /\
  fst (pf_on (Ok d) f (snd (pf_missing (Ok d) (snd (pf_close s))))) = f d.
Proof.
  intros d version count s A f Hd. split; [|rewrite (pf_missing_is str_PACK d version count Hd); cbn [snd]].
  - unfold pf_on, pf_close, set, get, then_do, pure. reflexivity.
  - unfold pf_on, get, then_do, pure. cbn. now destruct (f d).
Qed.
Print Assumptions C113_reopened_refuted.

(** The files of Prop_Lazy.v: a pack and an index that satisfy the hypotheses, a file that is no
    pack and an index of version 3.  Last an index without objects and one
    that is cut within its offsets. *)
Definition z_idx : bytes := index_v2_signature ++ be_enc 4 2 ++ repeat 0 1024 ++ repeat 0 40.
Definition c_idx : bytes := repeat 0 1023 ++ [3; 0; 0].
Example C113_example :
  headed str_PACK 2 7 d_pack /\ index_open d_idx = Ok d_ix /\ (exists l, ix_offsets d_ix = Ok l /\ l <> []) /\
  fst (ef_missing (Ok d_idx) (Ok d_pack) ef_new) = Raise AttributeError /\
  fst (ef_missing (Ok d_idx) (Ok x_pack) ef_new) = Raise ParseError /\
  fst (ef_missing (Ok x_idx) (Ok d_pack) ef_new) = Raise AssertionError /\
  (let! ix := index_open z_idx in ix_offsets ix) = Ok [] /\
  fst (ef_missing (Ok z_idx) (Ok d_pack) ef_new) = Raise AssertionError /\
  (let! ix := index_open c_idx in Ok (ix_offsets ix)) = Ok (Raise StructError) /\
  fst (ef_missing (Ok c_idx) (Ok d_pack) ef_new) = Raise StructError.
Proof.
  split; [apply C86_example|]. split; [apply d_index|]. split.
  - eexists. split; [vm_compute; reflexivity|discriminate].
  - split; [by_vm|]. split; [by_vm|]. split; [by_vm|]. repeat (split; [by_vm|]). by_vm.
Qed.
