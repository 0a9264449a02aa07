(** What a pack file, an index file and a pack entity have to answer whenever they are asked. *)
From Verif Require Import Py FunModel IndexModel ZlibModel ReaderModel DeltaReaderModel PackModel LazyModel.

(** ** Files *)
Definition str_PACK : bytes := [80; 65; 67; 75].
(** A file with the header of a pack, and one with another signature in its place. *)
Definition headed (sig : bytes) (version count : Z) (d : bytes) : Prop :=
  len sig = 4 /\ is_bytes sig /\ 0 <= version < 2 ^ 32 /\ 0 <= count < 2 ^ 32 /\
  exists rest, d = sig ++ be_enc 4 version ++ be_enc 4 count ++ rest.

(** ** Histories of calls *)
(** A call of a method, and the states an object can be in after any calls, with whether
    close has been called. *)
Inductive pf_call (D : res bytes) (s : pfile) : pfile -> Prop :=
| pc_size : pf_call D s (snd (pf_get_size D s))
| pc_version : pf_call D s (snd (pf_get_version D s))
| pc_on A (f : bytes -> res A) : pf_call D s (snd (pf_on D f s)).
Inductive pf_reach (D : res bytes) : bool -> pfile -> Prop :=
| pr_new : pf_reach D false pf_new
| pr_call b s s' : pf_reach D b s -> pf_call D s s' -> pf_reach D b s'
| pr_close b s : pf_reach D b s -> pf_reach D true (snd (pf_close s)).

Inductive xf_call (D : res bytes) (s : ifile) : ifile -> Prop :=
| xc_version : xf_call D s (snd (xf_get_version D s))
| xc_size : xf_call D s (snd (xf_get_size D s))
| xc_sha i : xf_call D s (snd (xf_sha D i s))
| xc_offset i : xf_call D s (snd (xf_offset D i s))
| xc_crc i : xf_call D s (snd (xf_crc D i s))
| xc_entry i : xf_call D s (snd (xf_entry D i s))
| xc_pack : xf_call D s (snd (xf_packfile_checksum D s))
| xc_index : xf_call D s (snd (xf_indexfile_checksum D s))
| xc_offsets : xf_call D s (snd (xf_offsets D s))
| xc_lookup sha : xf_call D s (snd (xf_sha_to_index D sha s))
| xc_partial p n : xf_call D s (snd (xf_partial_sha_to_index D p n s)).
Inductive xf_reach (D : res bytes) : bool -> ifile -> Prop :=
| xr_new : xf_reach D false xf_new
| xr_call b s s' : xf_reach D b s -> xf_call D s s' -> xf_reach D b s'
| xr_close b s : xf_reach D b s -> xf_reach D true (snd (xf_close s)).

(** A PackEntity hands out its index and its pack, whose methods may be called too. *)
Inductive ef_call (K : zlib) (sha1 : bytes -> bytes) (pagesize : Z) (DX DP : res bytes) (s : efile) : efile -> Prop :=
| ec_index x : xf_call DX (ef_index s) x -> ef_call K sha1 pagesize DX DP s (mk_efile x (ef_pack s) (ef_map s))
| ec_pack p : pf_call DP (ef_pack s) p -> ef_call K sha1 pagesize DX DP s (mk_efile (ef_index s) p (ef_map s))
| ec_info n sha : ef_call K sha1 pagesize DX DP s (snd (ef_info K DX DP n sha s))
| ec_stream n sha : ef_call K sha1 pagesize DX DP s (snd (ef_stream K DX DP n sha s))
| ec_info_at n i : ef_call K sha1 pagesize DX DP s (snd (ef_info_at_index K DX DP n i s))
| ec_stream_at n i : ef_call K sha1 pagesize DX DP s (snd (ef_stream_at_index K DX DP n i s))
| ec_crc n sha : ef_call K sha1 pagesize DX DP s (snd (ef_valid_crc pagesize DX DP n sha s))
| ec_sha n sha : ef_call K sha1 pagesize DX DP s (snd (ef_valid_sha K sha1 pagesize DX DP n sha s))
| ec_collect n sha : ef_call K sha1 pagesize DX DP s (snd (ef_collect K DX DP n sha s))
| ec_collect_at n off : ef_call K sha1 pagesize DX DP s (snd (ef_collect_at K DX DP n off s)).
Inductive ef_reach (K : zlib) (sha1 : bytes -> bytes) (pagesize : Z) (DX DP : res bytes) : bool -> efile -> Prop :=
| er_new : ef_reach K sha1 pagesize DX DP false ef_new
| er_call b s s' : ef_reach K sha1 pagesize DX DP b s -> ef_call K sha1 pagesize DX DP s s' -> ef_reach K sha1 pagesize DX DP b s'
| er_close b s : ef_reach K sha1 pagesize DX DP b s -> ef_reach K sha1 pagesize DX DP true (snd (ef_close s)).

(** The answer of a fresh object; on one that has been closed, possibly AttributeError. *)
Definition told {A} (closed : bool) (x right : res A) : Prop := x = right \/ (closed = true /\ x = Raise AttributeError).

(** Everything called from a state on. *)
Inductive ef_later (K : zlib) (sha1 : bytes -> bytes) (pagesize : Z) (DX DP : res bytes) (s0 : efile) : efile -> Prop :=
| el_refl : ef_later K sha1 pagesize DX DP s0 s0
| el_call s s' : ef_later K sha1 pagesize DX DP s0 s -> ef_call K sha1 pagesize DX DP s s' -> ef_later K sha1 pagesize DX DP s0 s'.

(** All methods of a PackFile, a PackIndexFile and a PackEntity answer as the functions on
    opened files do, which other properties are about. *)
Definition pf_right (d : bytes) (version count : Z) (b : bool) (s : pfile) : Prop :=
  told b (fst (pf_get_size (Ok d) s)) (Ok count) /\ told b (fst (pf_get_version (Ok d) s)) (Ok version) /\
  forall A (f : bytes -> res A), told b (fst (pf_on (Ok d) f s)) (f d).
Definition xf_right (d : bytes) (ix : pidx) (b : bool) (s : ifile) : Prop :=
  told b (fst (xf_get_version (Ok d) s)) (Ok (ix_version ix)) /\ told b (fst (xf_get_size (Ok d) s)) (ix_size ix) /\
  (forall i, told b (fst (xf_sha (Ok d) i s)) (Ok (ix_sha ix i)) /\ told b (fst (xf_offset (Ok d) i s)) (ix_offset ix i) /\
     told b (fst (xf_crc (Ok d) i s)) (ix_crc ix i) /\ told b (fst (xf_entry (Ok d) i s)) (ix_entry ix i)) /\
  told b (fst (xf_packfile_checksum (Ok d) s)) (Ok (packfile_checksum ix)) /\
  told b (fst (xf_indexfile_checksum (Ok d) s)) (Ok (indexfile_checksum ix)) /\
  told b (fst (xf_offsets (Ok d) s)) (ix_offsets ix) /\
  (forall sha, told b (fst (xf_sha_to_index (Ok d) sha s)) (sha_to_index ix sha)) /\
  (forall p n, told b (fst (xf_partial_sha_to_index (Ok d) p n s)) (partial_sha_to_index ix p n)).
Definition ef_right (K : zlib) (sha1 : bytes -> bytes) (pagesize : Z) (dx dp : bytes) (e : entity) (b : bool) (s : efile) : Prop :=
  forall n,
    (forall sha, told b (fst (ef_info K (Ok dx) (Ok dp) n sha s)) (entity_info K n e sha)) /\
    (forall sha, told b (fst (ef_stream K (Ok dx) (Ok dp) n sha s)) (entity_stream K n e sha)) /\
    (forall i, told b (fst (ef_info_at_index K (Ok dx) (Ok dp) n i s)) (info_at_index K n e i)) /\
    (forall i, told b (fst (ef_stream_at_index K (Ok dx) (Ok dp) n i s)) (stream_at_index K n e i)) /\
    (forall sha, told b (fst (ef_valid_crc pagesize (Ok dx) (Ok dp) n sha s)) (is_valid_crc pagesize n e sha)) /\
    (forall sha, told b (fst (ef_valid_sha K sha1 pagesize (Ok dx) (Ok dp) n sha s)) (is_valid_sha K sha1 pagesize n e sha)) /\
    (forall sha, told b (fst (ef_collect K (Ok dx) (Ok dp) n sha s)) (entity_collect_streams K n e sha)) /\
    (forall off, told b (fst (ef_collect_at K (Ok dx) (Ok dp) n off s)) (collect_streams_at_offset K n e off)).
