(** C86: pack files, index files and pack entities answer the same at any time. *)
From Verif Require Import Py FunModel IndexModel ZlibModel ReaderModel DeltaReaderModel PackModel LazyModel LazySpec LazyProofs.
From Verif Require Import Prop_Index Prop_Pack.

Ltac by_vm := match goal with |- ?a = ?b => exact (@eq_refl _ b <: a = b) end.

(** Whatever was called before, and whether it failed or not, every method answers as on a
    new object; after close it may raise AttributeError instead. *)
Theorem C86_pack_file_partial :
  forall (d : bytes) (version count : Z) (closed : bool) (s : pfile),
  headed str_PACK version count d -> pf_reach (Ok d) closed s -> pf_right d version count closed s.
Proof. intros d version count closed s Hd. exact (pack_always str_PACK d version count Hd closed s eq_refl). Qed.
Print Assumptions C86_pack_file_partial.
Theorem C86_index_file :
  forall (d : bytes) (ix : pidx) (closed : bool) (s : ifile),
  index_open d = Ok ix -> xf_reach (Ok d) closed s -> xf_right d ix closed s.
Proof. intros d ix closed s Ho. exact (index_always d ix Ho closed s). Qed.
Print Assumptions C86_index_file.
Theorem C86_entity_partial :
  forall (K : zlib) (sha1 : bytes -> bytes) (pagesize : Z) (dx dp : bytes) (ix : pidx) (version count : Z) (closed : bool) (s : efile),
  index_open dx = Ok ix -> headed str_PACK version count dp ->
  ef_reach K sha1 pagesize (Ok dx) (Ok dp) closed s -> ef_right K sha1 pagesize dx dp (mk_entity ix dp) closed s.
Proof.
  intros K sha1 pagesize dx dp ix version count closed s Ho Hd. exact (entity_always K sha1 pagesize dx ix str_PACK dp version count Ho Hd closed s eq_refl).
Qed.
Print Assumptions C86_entity_partial.
(** An index file that cannot be opened answers no lookup, ever.  A pack that is too short for
    its header never tells its size or version. *)
Theorem C86_bad_index_partial :
  forall (d : bytes) (e : exn) (s : ifile),
  index_open d = Raise e -> xf_reach (Ok d) false s ->
  fst (xf_get_size (Ok d) s) = Raise e /\ fst (xf_offsets (Ok d) s) = Raise e /\
  (forall sha, sha <> [] -> fst (xf_sha_to_index (Ok d) sha s) = Raise e) /\
  (forall p n, 2 <= len p -> fst (xf_partial_sha_to_index (Ok d) p n s) = Raise e).
Proof. intros d e s Ho. exact (bad_index_always d e Ho s). Qed.
Print Assumptions C86_bad_index_partial.
Theorem C86_short_pack :
  forall (d : bytes) (closed : bool) (s : pfile), len d < 12 -> pf_reach (Ok d) closed s ->
  fst (pf_get_size (Ok d) s) = Raise StructError /\ fst (pf_get_version (Ok d) s) = Raise StructError.
Proof. exact short_pack. Qed.
Print Assumptions C86_short_pack.
(** The first look at the header, as PackedDB takes it: only the signature PACK is accepted. *)
Theorem C86_signature :
  forall (sig d : bytes) (version count : Z), headed sig version count d ->
  (sig = str_PACK -> pack_open d = Ok (version, count)) /\ (sig <> str_PACK -> pack_open d = Raise ParseError).
Proof.
  intros sig d version count Hd. rewrite (open_headed sig d version count Hd). pose proof (sig_is sig d version count Hd) as Hs.
  destruct (_ =? _); split; try easy; intros H; [now destruct (H (proj1 Hs eq_refl))|now apply Hs in H].
Qed.
Print Assumptions C86_signature.
(** A file that is no pack is rejected by the first call.  After any call it is used as if it
    were a pack. *)
Theorem C86_other_file_refuted :
  forall (sig d : bytes) (version count : Z), headed sig version count d -> sig <> str_PACK ->
  fst (pf_get_size (Ok d) pf_new) = Raise ParseError /\ fst (pf_get_version (Ok d) pf_new) = Raise ParseError /\
  (forall A (f : bytes -> res A), fst (pf_on (Ok d) f pf_new) = Raise ParseError) /\
  forall s s', pf_reach (Ok d) false s -> pf_call (Ok d) s s' ->
    fst (pf_get_size (Ok d) s') = Ok count /\ fst (pf_get_version (Ok d) s') = Ok version /\
    forall A (f : bytes -> res A), fst (pf_on (Ok d) f s') = f d.
Proof. intros sig d version count Hd. exact (other_once sig d version count Hd). Qed.
Print Assumptions C86_other_file_refuted.
(** The same for an entity: asking again for an object gives it. *)
Theorem C86_other_entity_refuted :
  forall (K : zlib) (sha1 : bytes -> bytes) (pagesize : Z) (dx dp sig : bytes) (ix : pidx) (version count : Z) (n : nat) (sha : bytes) (i off : Z),
  index_open dx = Ok ix -> headed sig version count dp -> sig <> str_PACK ->
  sha_to_index ix sha = Ok (Some i) -> ix_offset ix i = Ok off ->
  fst (ef_info K (Ok dx) (Ok dp) n sha ef_new) = Raise ParseError /\
  forall s, ef_later K sha1 pagesize (Ok dx) (Ok dp) (snd (ef_info K (Ok dx) (Ok dp) n sha ef_new)) s ->
    ef_right K sha1 pagesize dx dp (mk_entity ix dp) false s.
Proof.
  intros K sha1 pagesize dx dp sig ix version count n sha i off Ho Hd Hs Hi Hoff.
  assert (entity_index (mk_entity ix dp) sha = Ok i) as Hi' by (unfold entity_index; cbn [en_index]; rewrite Hi; reflexivity).
  destruct (entity_other K sha1 pagesize dx ix sig dp version count Ho Hd n sha i off Hs Hi' Hoff) as (H1 & _ & H3 & H4 & _).
  split; [exact H1|]. intros s Hl. apply H3. exact (later_inv K sha1 pagesize dx ix sig dp version count Ho Hd _ s H4 Hl).
Qed.
Print Assumptions C86_other_entity_refuted.
(** An index of an unknown version tells one the second time it is asked. *)
Theorem C86_index_version_refuted :
  forall (d : bytes) (e : exn), index_open d = Raise e ->
  fst (xf_get_version (Ok d) xf_new) = Raise e /\
  fst (xf_get_version (Ok d) (snd (xf_get_version (Ok d) xf_new))) = Ok (if beq (slice_to d 4) index_v2_signature then 2 else 1).
Proof. intros d e Ho. exact (bad_index_version d e Ho). Qed.
Print Assumptions C86_index_version_refuted.

(** Two files that satisfy the hypotheses; the same pack with another first byte; an index of
    version 3. *)
Definition x_pack : bytes := 88 :: slice_from d_pack 1.
Definition x_idx : bytes := index_v2_signature ++ be_enc 4 3 ++ slice_from d_idx 8.
Definition x_run : efile := snd (ef_info stored (Ok d_idx) (Ok x_pack) 50 s_good ef_new).
Example C86_example :
  headed str_PACK 2 7 d_pack /\ index_open d_idx = Ok d_ix /\ headed [88; 65; 67; 75] 2 7 x_pack /\
  fst (ef_info stored (Ok d_idx) (Ok d_pack) 50 s_good ef_new) = Ok (mk_oinfo s_good (PBytes str_blob_type) 14) /\
  fst (ef_info stored (Ok d_idx) (Ok x_pack) 50 s_good ef_new) = Raise ParseError /\
  fst (ef_info stored (Ok d_idx) (Ok x_pack) 50 s_good x_run) = Ok (mk_oinfo s_good (PBytes str_blob_type) 14) /\
  index_open x_idx = Raise AssertionError.
Proof.
  split; [|split; [apply d_index|split; [|split; [by_vm|split; [by_vm|split; [by_vm|by_vm]]]]]].
  - unfold headed. split; [reflexivity|]. split; [repeat constructor; discriminate|]. split; [easy|]. split; [easy|]. exists (slice_from d_pack 12). by_vm.
  - unfold headed. split; [reflexivity|]. split; [repeat constructor; discriminate|]. split; [easy|]. split; [easy|]. exists (slice_from d_pack 12). by_vm.
Qed.
