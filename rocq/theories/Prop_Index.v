(** Properties of pack index files (C14-C19). *)
From Coq Require Import Sorting.Sorted Sorting.Permutation.
From Verif Require Import Py PyFacts FunModel FunSpec IndexModel IndexSpec IndexProofs IndexSearch.

(** A hash of the right size for the examples. *)
Definition toy_sha (d : bytes) : bytes := repeat (len d mod 256) 20.
(** Three objects, out of order, one of them beyond 4 GiB. *)
Definition ex_s1 : bytes := 17 :: 171 :: repeat 3 18.
Definition ex_s2 : bytes := 17 :: 175 :: repeat 4 18.
Definition ex_s3 : bytes := 200 :: repeat 1 19.
Definition ex_objs : list ientry := [(ex_s3, -1, 12); (ex_s1, 77, 2 ^ 32 + 5); (ex_s2, 78, 500)].
Definition ex_pack_sha : bytes := repeat 9 20.
Definition ex_idx : bytes :=
  match index_write toy_sha ex_objs ex_pack_sha with Ok (d, _) => d | _ => [] end.
Definition ex_ix : pidx :=
  match index_open ex_idx with Ok ix => ix | _ => mk_pidx [] 0 [] 0 0 0 end.

(** C14: what IndexWriter writes, PackIndexFile reads back. *)
Theorem C14_index_roundtrip : forall sha1 objs pack_sha,
  (forall d, len (sha1 d) = 20) ->
  Forall (fun e => sha_ok (e_sha e) /\ 0 <= e_ofs e < 2 ^ 64) objs -> len pack_sha = 20 ->
  len objs < 2 ^ 32 -> len (filter is_large (map e_ofs objs)) <= 2 ^ 31 ->
  exists body h s ix,
    index_write sha1 objs pack_sha = Ok (body ++ h, h) /\ h = sha1 body /\
    Permutation objs s /\ StronglySorted sha_le (map e_sha s) /\
    index_open (body ++ h) = Ok ix /\
    reads_as ix 2 (map e_sha s) (map (fun e => e_crc e mod 2 ^ 32) s) (map e_ofs s) /\
    packfile_checksum ix = pack_sha /\ indexfile_checksum ix = h.
Proof. exact index_roundtrip. Qed.
Print Assumptions C14_index_roundtrip.
Example C14_ex_hyps :
  (forall d, len (toy_sha d) = 20) /\
  Forall (fun e => sha_ok (e_sha e) /\ 0 <= e_ofs e < 2 ^ 64) ex_objs /\ len ex_pack_sha = 20 /\
  len ex_objs < 2 ^ 32 /\ len (filter is_large (map e_ofs ex_objs)) <= 2 ^ 31.
Proof.
  repeat split; try easy; try (apply len_repeat).
  repeat constructor; cbn; try lia; easy.
Qed.
Example C14_ex :
  map (ix_entry ex_ix) [0; 1; 2] = [Ok (2 ^ 32 + 5, ex_s1, 77); Ok (500, ex_s2, 78); Ok (12, ex_s3, 2 ^ 32 - 1)].
Proof. vm_compute. reflexivity. Qed.

(** Every index file laid out as documented (version 1 or 2) reads as its contents. *)
Theorem C14_reads_any_index : forall v shas crcs offs d,
  index_file v shas crcs offs d ->
  exists ix, index_open d = Ok ix /\ reads_as ix v shas crcs offs.
Proof. intros v shas crcs offs d H. destruct (open_file _ _ _ _ _ H) as (ix & ? & ? & _). eauto. Qed.
Print Assumptions C14_reads_any_index.

Definition ex_shas : list bytes := [ex_s1; ex_s2; ex_s3].
Lemma ex_strict : strictly_sorted_shas ex_shas.
Proof. split; repeat constructor; cbn; try lia; easy. Qed.
Example C14_ex_v1 : index_file 1 ex_shas [0; 0; 0] [12; 70; 90] (v1_file ex_shas [12; 70; 90] (repeat 7 40)).
Proof.
  apply (idx_v1 ex_shas); try apply ex_strict; try reflexivity.
  repeat (apply Forall_cons; [lia|]); apply Forall_nil.
Qed.
Example C14_ex_v2 : index_file 2 ex_shas [1; 2; 3] [12; 2 ^ 40; 2 ^ 31]
  (v2_file ex_shas [1; 2; 3] [12; 2 ^ 31 + 1; 2 ^ 31] [2 ^ 31; 2 ^ 40] (repeat 7 40)).
Proof.
  apply idx_v2; try apply ex_strict; try reflexivity.
  1, 3: repeat (apply Forall_cons; [lia|]); apply Forall_nil.
  constructor; [left; lia|]. constructor; [right; exists 1%nat; repeat split; lia|].
  constructor; [right; exists 0%nat; repeat split; lia|constructor].
Qed.

(** C15: lookup by full name.  Soundness needs nothing at all. *)
Theorem C15_sound : forall ix sha i, sha_to_index ix sha = Ok (Some i) -> ix_sha ix i = sha.
Proof. exact sha_to_index_sound. Qed.
Print Assumptions C15_sound.
Theorem C15_complete : forall v shas crcs offs d sha,
  index_file v shas crcs offs d -> sorted_shas shas -> sha_ok sha ->
  exists ix r, index_open d = Ok ix /\ sha_to_index ix sha = Ok r /\
    match r with Some i => 0 <= i /\ index shas i = Ok sha | None => ~ In sha shas end.
Proof.
  intros v shas crcs offs d sha H Hs Hsha. destruct (open_file _ _ _ _ _ H) as (ix & H1 & _ & H2 & _).
  destruct (sha_to_index_complete ix shas sha H2 Hs Hsha) as (r & H3 & H4). eauto.
Qed.
Print Assumptions C15_complete.
Example C15_ex : sorted_shas ex_shas /\ sha_to_index ex_ix ex_s2 = Ok (Some 1) /\
  sha_to_index ex_ix (17 :: repeat 0 19) = Ok None.
Proof. split; [apply strictly_sorted_sorted, ex_strict|]. vm_compute. auto. Qed.

(** C16: lookups end for every index object whatsoever. *)
Theorem C16_terminates : forall ix sha p n,
  sha_to_index ix sha <> Diverge /\ partial_sha_to_index ix p n <> Diverge.
Proof. intros. split; [apply sha_to_index_terminates|apply partial_sha_to_index_terminates]. Qed.
Print Assumptions C16_terminates.
(** A table of contents full of nonsense: a huge bucket over an empty file. *)
Example C16_ex : sha_to_index (mk_pidx [] 2 (repeat (2 ^ 32 - 1) 256) 0 0 0) (0 :: repeat 5 19) = Ok None.
Proof. vm_compute. reflexivity. Qed.

(** An interval of fewer than 2^n shas takes at most n comparisons. *)
Theorem C16_logarithmic : forall get sha lo hi (n : nat), hi - lo < 2 ^ Z.of_nat n ->
  bisect (S n) get sha lo hi <> Diverge /\ bisect_low (S n) get sha lo hi <> Diverge.
Proof.
  intros get sha lo hi n H. assert (Hn : hi - lo < 2 ^ (Z.of_nat (S n) - 1)) by (now replace (Z.of_nat (S n) - 1) with (Z.of_nat n) by lia). assert (Hs : (1 <= S n)%nat) by lia. split.
  - exact (bisect_terminates get sha (S n) lo hi Hn Hs).
  - destruct (bisect_low_terminates get sha (S n) lo hi Hn Hs) as [r ->]. discriminate.
Qed.
Print Assumptions C16_logarithmic.
(** The bound is exact: 7 shas take 3 comparisons, and two are not enough. *)
Example C16_ex_logarithmic : bisect 4 (fun i => [i]) [9] 0 7 = Ok None /\ bisect 3 (fun i => [i]) [9] 0 7 = Diverge.
Proof. split; reflexivity. Qed.

(** C17: offsets().  Refuted: 64-bit offsets are not resolved. *)
Theorem C17_refuted : exists objs pack_sha d h ix l,
  index_write toy_sha objs pack_sha = Ok (d, h) /\ index_open d = Ok ix /\
  ix_offset ix 0 = Ok (2 ^ 32 + 5) /\ ix_offsets ix = Ok l /\ index l 0 = Ok (2 ^ 31).
Proof.
  exists ex_objs, ex_pack_sha, ex_idx, (slice_from ex_idx (-20)), ex_ix, [2 ^ 31; 500; 12].
  vm_compute. repeat split; reflexivity.
Qed.
Print Assumptions C17_refuted.
(** No version 2 index with an offset beyond 4 GiB has it in offsets(). *)
Theorem C17_large_refuted : forall shas crcs offs d o,
  index_file 2 shas crcs offs d -> In o offs -> 2 ^ 32 <= o ->
  exists ix, index_open d = Ok ix /\ reads_as ix 2 shas crcs offs /\
    exists l, ix_offsets ix = Ok l /\ length l = length offs /\ ~ In o l.
Proof. exact offsets_v2_large. Qed.
Print Assumptions C17_large_refuted.
(** If the file ends within the table of offsets, offsets() leaves out what is missing where
    offset(i) raises struct.error; it raises ValueError if the end is within an entry. *)
Theorem C17_cut_off_refuted : forall d ix n, index_open d = Ok ix -> ix_version ix = 2 -> ix_size ix = Ok n -> 0 <= n ->
  let start := 8 + 4 * 256 + 20 * n + 4 * n in start <= len d < start + 4 * n ->
  (if (len d - start) mod 4 =? 0 then exists l, ix_offsets ix = Ok l /\ 4 * len l = len d - start /\ len l < n else ix_offsets ix = Raise ValueError) /\
  forall i, start + 4 * i + 4 > len d -> 0 <= i -> ix_offset ix i = Raise StructError.
Proof. exact offsets_cut. Qed.
Print Assumptions C17_cut_off_refuted.
Example C17_ex_cut_off : let d := firstn 1108 (v2_file ex_shas [1; 2; 3] [12; 70; 90] [] (repeat 7 40)) in
  len d = 1108 /\
  (let! ix := index_open d in let! n := ix_size ix in let! l := ix_offsets ix in Ok (ix_version ix, n, l, ix_offset ix 0, ix_offset ix 1)) =
  Ok (2, 3, [12], Ok 12, Raise StructError).
Proof. split; vm_compute; reflexivity. Qed.
(** What holds: version 1 files, and version 2 files without 64-bit offsets. *)
Theorem C17_v1_partial : forall shas offs trailer,
  Forall sha_ok shas -> length offs = length shas -> Forall (fun o => 0 <= o < 2 ^ 32) offs ->
  len shas < 4285812579 ->
  exists ix, index_open (v1_file shas offs trailer) = Ok ix /\
    reads_as ix 1 shas (map (fun _ => 0) shas) offs /\ ix_offsets ix = Ok offs.
Proof. exact offsets_v1. Qed.
Print Assumptions C17_v1_partial.
Theorem C17_v2_partial : forall shas crcs offs trailer,
  Forall sha_ok shas -> length crcs = length shas -> Forall (fun c => 0 <= c < 2 ^ 32) crcs ->
  length offs = length shas -> Forall (fun o => 0 <= o < 2 ^ 31) offs -> len shas < 2 ^ 32 ->
  exists ix, index_open (v2_file shas crcs offs [] trailer) = Ok ix /\
    reads_as ix 2 shas crcs offs /\ ix_offsets ix = Ok offs.
Proof. exact offsets_v2_small. Qed.
Print Assumptions C17_v2_partial.
Example C17_ex :
  (let! ix := index_open (v1_file ex_shas [12; 70; 2 ^ 31 + 9] (repeat 7 40)) in ix_offsets ix) = Ok [12; 70; 2 ^ 31 + 9] /\
  (let! ix := index_open (v2_file ex_shas [1; 2; 3] [12; 70; 90] [] (repeat 7 40)) in ix_offsets ix) = Ok [12; 70; 90].
Proof. vm_compute. auto. Qed.

(** C18: abbreviated names. *)
Theorem C18_partial_sha : forall v shas crcs offs d p mtch,
  index_file v shas crcs offs d -> strictly_sorted_shas shas ->
  lower_hex p -> 3 <= len p <= 40 -> hex_to_bin (pad_even p) = Ok mtch ->
  exists ix, index_open d = Ok ix /\
    partial_sha_to_index ix mtch (len p) = Ok (first_index (fun s => startswith (bin_to_hex s) p) shas).
Proof.
  intros v shas crcs offs d p mtch H Hs Hp Hl Hm. destruct (open_file _ _ _ _ _ H) as (ix & H1 & (_ & H3 & _) & H2 & _).
  exists ix. split; [exact H1|]. now apply partial_lookup.
Qed.
Print Assumptions C18_partial_sha.
(** "11a" (odd, two matches) and "11af0404" and "c80". *)
Example C18_ex :
  partial_sha_to_index ex_ix [17; 160] 3 = Ok (Some 0) /\
  partial_sha_to_index ex_ix [17; 175; 4; 4] 8 = Ok (Some 1) /\
  partial_sha_to_index ex_ix [200; 0] 3 = Ok (Some 2) /\
  partial_sha_to_index ex_ix [17; 172] 4 = Ok None.
Proof. vm_compute. auto. Qed.

(** C19: refuted.  The ambiguous prefix "11a" of the example index is resolved silently... *)
Theorem C19_refuted : exists d ix p mtch i,
  index_file 2 ex_shas [1; 2; 3] [12; 2 ^ 40; 2 ^ 31] d /\ index_open d = Ok ix /\
  lower_hex p /\ len p = 3 /\ hex_to_bin (pad_even p) = Ok mtch /\
  ex_s1 <> ex_s2 /\ startswith (bin_to_hex ex_s1) p = true /\ startswith (bin_to_hex ex_s2) p = true /\
  partial_sha_to_index ix mtch (len p) = Ok (Some i).
Proof.
  destruct (open_file _ _ _ _ _ C14_ex_v2) as (ix & H1 & (_ & H3 & _) & H2 & _).
  eexists _, ix, [49; 49; 97], [17; 160], 0. split; [exact C14_ex_v2|]. split; [exact H1|].
  assert (lower_hex [49; 49; 97]) as Hp by (repeat (apply Forall_cons; [lia|]); apply Forall_nil).
  split; [exact Hp|]. split; [reflexivity|]. split; [reflexivity|]. split; [discriminate|].
  split; [reflexivity|]. split; [reflexivity|].
  rewrite (partial_lookup ix ex_shas); [reflexivity|exact H2|exact H3|exact ex_strict|exact Hp| |reflexivity].
  change (len [49; 49; 97]) with 3. lia.
Qed.
Print Assumptions C19_refuted.
(** ... and so is every one: an index without duplicate names never reports ambiguity. *)
Theorem C19_never_refuted : forall v shas crcs offs d p mtch,
  index_file v shas crcs offs d -> strictly_sorted_shas shas ->
  lower_hex p -> 3 <= len p <= 40 -> hex_to_bin (pad_even p) = Ok mtch ->
  exists ix, index_open d = Ok ix /\ partial_sha_to_index ix mtch (len p) <> Raise AmbiguousObjectName.
Proof.
  intros v shas crcs offs d p mtch H Hs Hp Hl Hm. destruct (open_file _ _ _ _ _ H) as (ix & H1 & (_ & H3 & _) & H2 & _).
  exists ix. split; [exact H1|]. now apply (strict_never_ambiguous ix shas).
Qed.
Print Assumptions C19_never_refuted.
(** The index, the names and the digits "11a" of C19_refuted meet the hypotheses. *)
Example C19_example : (exists d, index_file 2 ex_shas [1; 2; 3] [12; 2 ^ 40; 2 ^ 31] d) /\ strictly_sorted_shas ex_shas /\
  lower_hex [49; 49; 97] /\ hex_to_bin (pad_even [49; 49; 97]) = Ok [17; 160] /\ partial_sha_to_index ex_ix [17; 160] 3 <> Raise AmbiguousObjectName.
Proof.
  split; [eexists; exact C14_ex_v2|]. split; [exact ex_strict|]. split; [repeat (apply Forall_cons; [lia|]); apply Forall_nil|].
  split; [reflexivity|]. vm_compute. discriminate.
Qed.
