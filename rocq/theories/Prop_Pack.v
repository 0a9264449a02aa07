(** Properties C28-C35 and C69-C71 of properties.jsonl: packs, over every zlib satisfying the
    laws of ZlibModel.v and every hash function. *)
From Coq Require Import Sorting.Sorted.
From Verif Require Import Py PyFacts FunModel FunSpec FunProofs IndexModel IndexSpec IndexProofs ZlibModel ZlibProofs ReaderModel
  StreamSpec DeltaModel DeltaSpec DeltaReaderModel Crc32 PackModel PackSpec PackProofs
  PackChainProofs PackCheckProofs PackWriteProofs PackTop PackBig RleModel RleProofs Prop_Index Prop_Reader.

(** ** A pack for the examples: a blob, an empty blob and a tree, written by write_pack with
    stored blocks. *)
Definition ex_hi : bytes := [104; 105; 32; 121; 111; 117].
Definition ex_tree : bytes := [116; 114; 101; 101; 0; 9].
Definition ex_wobjs : list (@wobj bytes) :=
  [mk_wobj (PBytes str_blob_type) 6 ex_s3 ex_hi; mk_wobj (PBytes str_tree_type) 6 ex_s1 ex_tree].
Lemma file_stream_reader : stream_reader file_read (fun r => r).
Proof.
  intros r n Hn. exists (skipn (Z.to_nat n) r). split; [|reflexivity]. unfold file_read. destruct (n <? 0) eqn:E; [|reflexivity].
  apply Z.ltb_lt in E. lia.
Qed.
Definition ex_written := write_pack stored toy_sha 1 file_read 20 0 ex_wobjs None.
Definition ex_pk : bytes := match ex_written with Ok (p, _, _, _) => p | _ => [] end.
Definition ex_pidx : bytes := match ex_written with Ok (_, _, i, _) => i | _ => [] end.
Definition ex_ent : entity :=
  mk_entity match index_open ex_pidx with Ok ix => ix | _ => ex_ix end ex_pk.
Lemma ex_good : Forall (good_obj (fun r => r)) ex_wobjs /\ Forall sha_ok (map wo_binsha ex_wobjs) /\ NoDup (map wo_binsha ex_wobjs) /\
  len ex_wobjs <= 2 ^ 31.
Proof.
  split; [|split; [|split]].
  - repeat constructor; [exists 3|exists 2]; repeat split; try (cbn; tauto); apply bytes_check; reflexivity.
  - repeat constructor; cbn; try lia; easy.
  - repeat constructor; cbn; intros H; repeat destruct H as [H|H]; try easy.
  - cbn. lia.
Qed.
Lemma stored_chunks_dense level chunks d : is_bytes d -> concat chunks = d -> dense stored_laws (zc_all stored (zc_new stored level) chunks) d.
Proof.
  intros Hb <-. assert (zc_all stored (zc_new stored level) chunks = s_compress (concat chunks)) as ->; [|now apply s_compress_dense].
  change (zc_new stored level) with (@nil Z). change (concat chunks) with ([] ++ concat chunks). generalize (@nil Z). clear.
  induction chunks as [|c l IH]; intros acc; cbn [zc_all concat].
  - now rewrite app_nil_r.
  - cbn [stored zc_compress]. rewrite app_nil_l, IH. now rewrite app_assoc.
Qed.

(** ** C28 *)
(** Full statement: stream_iter on a pack written by write_pack yields the written objects in
    order and ends.  False: a pack whose first object is empty makes it loop for ever (here
    the pack write_pack makes of one empty blob). *)
Theorem C28_empty_object_diverges_refuted :
  forall (K : zlib) (L : zlib_laws K) (sha1 : bytes -> bytes) (pagesize : Z) (e : pentry) (es : list (Z * pentry)) (pack : bytes),
  (forall d, len (sha1 d) = 20) -> 0 < pagesize ->
  pack_file L sha1 ((12, e) :: es) pack -> pn_data e = [] ->
  diverges (fun f => stream_iter K pagesize f pack 0).
Proof. intros K L sha1 pagesize e es pack Hsha Hps. exact (iter_empty L sha1 Hsha pagesize Hps e es pack). Qed.
Print Assumptions C28_empty_object_diverges_refuted.
Definition ex_empty_pack : bytes :=
  match write_pack stored toy_sha 1 file_read 20 0 [mk_wobj (PBytes str_blob_type) 0 ex_s3 []] None with Ok (p, _, _, _) => p | _ => [] end.
Example C28_empty_example :
  pack_file stored_laws toy_sha [(12, mk_pentry 3 NoDelta [] (s_compress []))] ex_empty_pack.
Proof.
  exists ([48] ++ s_compress [] ++ []), (12 + 1 + len (s_compress [])). split; [|split; [reflexivity|vm_compute; reflexivity]].
  apply (es_cons stored_laws 12 (mk_pentry 3 NoDelta [] (s_compress [])) [48] (s_compress []) [] []); [|constructor].
  apply eb_full; [cbn; tauto|apply (ph_short 3 0); lia|apply s_compress_stream; constructor].
Qed.
(** False for large objects too: if the first object is longer than a chunk and the zlib stream
    shorter than what is left for the last chunk, the iteration never yields the entries,
    whatever follows: the bytes behind the stream are counted twice (zlib leaves them in
    unconsumed_tail as well as in unused_data), so the next offset comes out too small. *)
Theorem C28_large_object_refuted :
  forall (K : zlib) (L : zlib_laws K) (sha1 : bytes -> bytes) (pagesize : Z) (e : pentry) (es : list (Z * pentry)) (pack : bytes) (q k : Z),
  (forall d, len (sha1 d) = 20) -> 0 < pagesize ->
  pack_file L sha1 ((12, e) :: es) pack ->
  len (pn_data e) = q * chunk_size pagesize + k -> 1 <= q -> len (pn_z e) < k <= chunk_size pagesize ->
  forall f os, stream_iter K pagesize f pack 0 = Ok os -> ~ Forall2 yields ((12, e) :: es) os.
Proof. intros K L sha1 pagesize e es pack q k Hsha Hps. exact (iter_big L sha1 Hsha pagesize Hps e es pack q k). Qed.
Print Assumptions C28_large_object_refuted.
(** The pack write_pack makes of 1500 equal bytes and a tree, with a page size of 1 (chunks of
    1000 bytes): the offset after the first object comes out as -5, and reading there raises. *)
Definition ex_big : bytes := repeat 65 (Z.to_nat 1500).
Definition ex_big_pack : bytes :=
  match write_pack rle toy_sha 1 file_read 20 0 [mk_wobj (PBytes str_blob_type) 1500 ex_s3 ex_big; mk_wobj (PBytes str_tree_type) 6 ex_s1 ex_tree] None with
  | Ok (p, _, _, _) => p | _ => [] end.
Example C28_large_example :
  let es := [(12, mk_pentry 3 NoDelta ex_big (rl_encode ex_big)); (27, mk_pentry 2 NoDelta ex_tree (rl_encode ex_tree))] in
  pack_file rle_laws toy_sha es ex_big_pack /\
  (len ex_big = 1 * chunk_size 1 + 500 /\ len (rl_encode ex_big) = 13) /\
  bind (iter_step rle 1 50 ex_big_pack 12) (fun p => Ok (po_offset (fst p), snd p)) = Ok (12, -5) /\
  stream_iter rle 1 50 ex_big_pack 0 = Raise IndexError.
Proof.
  intros es. split; [|split; [|split]]; [|vm_compute; split; reflexivity|vm_compute; reflexivity|vm_compute; reflexivity].
  exists ([188; 93] ++ rl_encode ex_big ++ [38] ++ rl_encode ex_tree ++ []), 39. split; [|split; [reflexivity|vm_compute; reflexivity]].
  apply (es_cons rle_laws 12 (mk_pentry 3 NoDelta ex_big (rl_encode ex_big)) [188; 93] (rl_encode ex_big)).
  - apply eb_full; [cbn; tauto| |apply rl_encode_at; apply bytes_check; vm_compute; reflexivity].
    replace (len ex_big) with (12 + 16 * 93) by (vm_compute; reflexivity). apply (ph_long 3 12 [93] 93); [lia|]. constructor; lia.
  - replace (12 + len [188; 93] + len (rl_encode ex_big)) with 27 by (vm_compute; reflexivity).
    apply (es_cons rle_laws 27 (mk_pentry 2 NoDelta ex_tree (rl_encode ex_tree)) [38] (rl_encode ex_tree)).
    + apply eb_full; [cbn; tauto|apply (ph_short 2 6); lia|apply rl_encode_at; apply bytes_check; vm_compute; reflexivity].
    + replace 39 with (27 + len [38] + len (rl_encode ex_tree)) by (vm_compute; reflexivity). constructor.
Qed.
(** For every pack laid out as documented (not only written by this library): if every entry
    has data, not more than one chunk of it (4 MB), and a single read delivers it, the
    iteration ends and yields the entries in order.  Missing: empty objects (see above),
    larger objects, other zlib streams. *)
Theorem C28_iterate_any_pack_partial :
  forall (K : zlib) (L : zlib_laws K) (sha1 : bytes -> bytes) (pagesize : Z) (es : list (Z * pentry)) (pack : bytes),
  (forall d, len (sha1 d) = 20) -> 0 < pagesize ->
  pack_file L sha1 es pack -> Forall (fun p => pack_entry_readable L pagesize (snd p)) es ->
  exists os, evaluates (fun f => stream_iter K pagesize f pack 0) (Ok os) /\ Forall2 yields es os.
Proof. intros K L sha1 pagesize es pack Hsha Hps. exact (iter_entries L sha1 Hsha pagesize Hps es pack). Qed.
Print Assumptions C28_iterate_any_pack_partial.
(** What write_pack writes is such a pack. *)
Theorem C28_iterate_written_partial :
  forall (K : zlib) (L : zlib_laws K) (sha1 : bytes -> bytes) (pagesize : Z) (R : Type) (oread : R -> Z -> res (bytes * R)) (content : R -> bytes),
  (forall d, len (sha1 d) = 20) -> 0 < pagesize -> stream_reader oread content ->
  forall (level : Z) (objs : list wobj) (fuel : nat) (pack psha idx isha : bytes),
  Forall (good_obj content) objs -> Forall sha_ok (map wo_binsha objs) -> NoDup (map wo_binsha objs) -> len objs <= 2 ^ 31 ->
  Forall (fun o => let d := content (wo_stream o) in d <> [] /\ len d <= chunk_size pagesize /\
            forall chunks, concat chunks = d -> whole L (zc_all K (zc_new K level) chunks) d) objs ->
  evaluates (fun f => write_pack K sha1 pagesize oread f level objs None) (Ok (pack, psha, idx, isha)) ->
  exists es os,
    pack_file L sha1 es pack /\
    Forall2 (fun o p => type_id_to_type (pn_type (snd p)) = Ok (wo_type o) /\ pn_delta (snd p) = NoDelta /\
                        pn_data (snd p) = content (wo_stream o)) objs es /\
    evaluates (fun f => stream_iter K pagesize f pack 0) (Ok os) /\ Forall2 yields es os.
Proof.
  intros K L sha1 pagesize R oread content Hsha Hps Hrd level objs fuel pack psha idx isha Hg Hok Hnd Hn Hall [f0 He].
  destruct (write_read L sha1 Hsha pagesize Hps oread content Hrd level objs None Hg Hok Hnd Hn eq_refl) as (v & [f1 Hv] & Hm).
  assert (v = Ok (pack, psha, idx, isha)) as -> by (rewrite <- (He (Nat.max f0 f1)), <- (Hv (Nat.max f0 f1)) by lia; reflexivity).
  destruct Hm as ((es & Hes & HF) & _).
  destruct (iter_entries L sha1 Hsha pagesize Hps es pack Hes) as (os & H1 & H2).
  { clear -HF Hall. induction HF as [|o p objs es (_ & _ & Hd & chunks & Hc & Hz) HF IH]; [constructor|].
    inversion Hall as [|? ? (A & B & C) Hall']; subst. constructor; [|now apply IH]. cbv zeta in *. unfold pack_entry_readable.
    rewrite Hd, Hz. split; [|now split]. now apply C. }
  exists es, os. split; [exact Hes|]. split; [|now split].
  clear -HF. induction HF as [|o p objs es (A & B & C & _) HF IH]; constructor; [now repeat split|exact IH].
Qed.
Print Assumptions C28_iterate_written_partial.
Example C28_example :
  (Forall (fun o => let d := wo_stream o in d <> [] /\ len d <= chunk_size 1 /\
            forall chunks, concat chunks = d -> whole stored_laws (zc_all stored (zc_new stored 0) chunks) d) ex_wobjs) /\
  (let! os := stream_iter stored 1 50 ex_pk 0 in Ok (map (fun o => (po_offset o, po_type_id o, po_size o)) os)) = Ok [(12, 3, 6); (30, 2, 6)].
Proof.
  split; [|vm_compute; reflexivity].
  repeat (apply Forall_cons; [split; [discriminate|]; split; [discriminate|]; intros chunks Hc; left; apply stored_chunks_dense; [now apply bytes_check|exact Hc]|]).
  apply Forall_nil.
Qed.

(** ** C29 *)
(** Writing succeeds (struct.error aside, which means an offset too large for the index) and
    the result is opened and read by name.  Partial: that a single read() returns all of the
    content, and that all reads are exact, depends on zlib's output (see [reads_back]). *)
Theorem C29_read_back_partial :
  forall (K : zlib) (L : zlib_laws K) (sha1 : bytes -> bytes) (pagesize : Z) (R : Type) (oread : R -> Z -> res (bytes * R)) (content : R -> bytes),
  (forall d, len (sha1 d) = 20) -> 0 < pagesize -> stream_reader oread content ->
  forall (level : Z) (objs : list wobj),
  Forall (good_obj content) objs -> Forall sha_ok (map wo_binsha objs) -> NoDup (map wo_binsha objs) -> len objs <= 2 ^ 31 ->
  exists v, evaluates (fun f => write_pack K sha1 pagesize oread f level objs None) v /\
  match v with
  | Diverge => False
  | Raise e => e = StructError
  | Ok (pack, psha, idx, isha) =>
      len pack < 2 ^ 64 -> exists ix, index_open idx = Ok ix /\
        (forall o, In o objs -> reads_back L content level (mk_entity ix pack) o) /\
        missing_objects (K := K) (mk_entity ix pack) objs
  end.
Proof.
  intros K L sha1 pagesize R oread content Hsha Hps Hrd level objs Hg Hok Hnd Hn.
  destruct (write_read L sha1 Hsha pagesize Hps oread content Hrd level objs None Hg Hok Hnd Hn eq_refl) as (v & Hv & Hm).
  exists v. split; [exact Hv|]. destruct v as [[[[pack psha] idx] isha]|e|]; [|exact Hm|exact Hm].
  destruct Hm as (_ & Hm). intros Hl. destruct (Hm Hl) as (ix & A & B & C & _). now exists ix.
Qed.
Print Assumptions C29_read_back_partial.
Example C29_example :
  (stream_reader file_read (fun r => r) /\ forall d, len (toy_sha d) = 20) /\
  map (entity_info stored 20 ex_ent) [ex_s3; ex_s1; ex_s2] =
    [Ok (mk_oinfo ex_s3 (PBytes str_blob_type) 6); Ok (mk_oinfo ex_s1 (PBytes str_tree_type) 6); Raise BadObject] /\
  (let! st := entity_stream stored 20 ex_ent ex_s1 in run_stream (os_read 20) os_seek0 st [Read 2; Read (-1); Rewind; Read 1]) =
    Ok [[116; 114]; [101; 101; 0; 9]; []; [116]].
Proof. split; [split; [exact file_stream_reader|reflexivity]|]. vm_compute. split; reflexivity. Qed.

(** ** C30 *)
(** Whatever the streams deliver: if a pack is written, each of the first n objects (n as
    announced) delivered exactly its declared size, and the header says n. *)
Theorem C30_count_and_sizes :
  forall (K : zlib) (sha1 : bytes -> bytes) (pagesize : Z) (R : Type) (oread : R -> Z -> res (bytes * R))
    (level : Z) (objs : list wobj) (object_count : option Z) (fuel : nat) (pack psha idx isha : bytes),
  write_pack K sha1 pagesize oread fuel level objs object_count = Ok (pack, psha, idx, isha) ->
  exists n parts, 0 <= n <= len objs /\ announced objs object_count n /\ len parts = n /\
    Forall2 (written_as (K := K) pagesize oread level) (firstn (Z.to_nat n) objs) parts /\
    pack = (pack_head n ++ concat parts) ++ sha1 (pack_head n ++ concat parts).
Proof. intros K sha1 pagesize R oread. exact (write_checks sha1 pagesize oread). Qed.
Print Assumptions C30_count_and_sizes.
(** Too few objects, and an object whose stream has another size, are reported. *)
Theorem C30_too_few_objects :
  forall (K : zlib) (sha1 : bytes -> bytes) (pagesize : Z) (R : Type) (oread : R -> Z -> res (bytes * R)) (level : Z) (objs : list wobj) (n : Z),
  Forall (complete_obj pagesize oread) objs -> len objs < n < 2 ^ 32 ->
  evaluates (fun f => write_pack K sha1 pagesize oread f level objs (Some n)) (Raise ValueError).
Proof.
  intros K sha1 pagesize R oread level objs n Hc Hn. destruct (parts_complete (K := K) pagesize oread level objs Hc 12) as (ps & ens & Hp). apply (write_pack_few sha1 pagesize oread level objs (Some n) ps ens Hp).
  unfold count_of. pose proof (len_nonneg _ objs). destruct (n =? 0) eqn:E; [apply Z.eqb_eq in E; lia|exact Hn].
Qed.
Print Assumptions C30_too_few_objects.
Theorem C30_wrong_size :
  forall (K : zlib) (sha1 : bytes -> bytes) (pagesize : Z) (R : Type) (oread : R -> Z -> res (bytes * R)) (level : Z)
    (objs : list wobj) (o : wobj) (rest : list wobj) (t : Z) (chunks : list bytes),
  Forall (complete_obj pagesize oread) objs -> len (objs ++ o :: rest) < 2 ^ 32 ->
  type_to_type_id (wo_type o) = Ok t -> 0 <= wo_size o ->
  chunks_read oread (chunk_size pagesize) (wo_stream o) chunks -> len (concat chunks) <> wo_size o ->
  evaluates (fun f => write_pack K sha1 pagesize oread f level (objs ++ o :: rest) None) (Raise AssertionError).
Proof.
  intros K sha1 pagesize R oread level objs o rest t chunks Hcs Hn Ht Hs Hc Hl.
  destruct (parts_complete (K := K) pagesize oread level objs Hcs 12) as (ps & ens & Hp).
  destruct (create_pack_object_header_ok t (wo_size o) (type_id_range _ _ Ht) Hs) as (hdr & Hh & _).
  apply (write_pack_bad sha1 pagesize oread level objs o rest None ps ens t hdr chunks Hp); try assumption.
  unfold count_of. split; [|exact Hn]. rewrite len_app, len_cons. pose proof (len_nonneg _ rest). lia.
Qed.
Print Assumptions C30_wrong_size.
Example C30_example :
  ex_pk = (pack_head 2 ++ ([54] ++ s_compress ex_hi) ++ ([38] ++ s_compress ex_tree)) ++ repeat 48 20 /\
  write_pack stored toy_sha 1 file_read 20 0 ex_wobjs (Some 3) = Raise ValueError /\
  write_pack stored toy_sha 1 file_read 20 0 [mk_wobj (PBytes str_blob_type) 5 ex_s3 ex_hi] None = Raise AssertionError /\
  chunks_read file_read (chunk_size 1) ex_hi [ex_hi] /\
  Forall (complete_obj 1 file_read) ex_wobjs.
Proof.
  split; [vm_compute; reflexivity|]. split; [vm_compute; reflexivity|]. split; [vm_compute; reflexivity|]. split.
  - apply (cr_last file_read (chunk_size 1) ex_hi ex_hi []); [vm_compute; reflexivity|discriminate].
  - repeat (apply Forall_cons; [|]); [| |apply Forall_nil]; [exists 3, [ex_hi]|exists 2, [ex_tree]]; (split; [reflexivity|]; split; [|reflexivity]);
      [apply (cr_last file_read (chunk_size 1) ex_hi ex_hi [])|apply (cr_last file_read (chunk_size 1) ex_tree ex_tree [])]; vm_compute; try reflexivity; discriminate.
Qed.

(** ** C31 *)
Theorem C31_crc_accepts_written :
  forall (K : zlib) (L : zlib_laws K) (sha1 : bytes -> bytes) (pagesize : Z) (R : Type) (oread : R -> Z -> res (bytes * R)) (content : R -> bytes),
  (forall d, len (sha1 d) = 20) -> 0 < pagesize -> stream_reader oread content ->
  forall (level : Z) (objs : list wobj) (pack psha idx isha : bytes),
  Forall (good_obj content) objs -> Forall sha_ok (map wo_binsha objs) -> NoDup (map wo_binsha objs) -> len objs <= 2 ^ 31 ->
  evaluates (fun f => write_pack K sha1 pagesize oread f level objs None) (Ok (pack, psha, idx, isha)) ->
  len pack < 2 ^ 31 ->
  exists ix, index_open idx = Ok ix /\
    forall o, In o objs -> evaluates (fun f => is_valid_crc pagesize f (mk_entity ix pack) (wo_binsha o)) (Ok true).
Proof.
  intros K L sha1 pagesize R oread content Hsha Hps Hrd level objs pack psha idx isha Hg Hok Hnd Hn [f0 He] H31.
  destruct (write_read L sha1 Hsha pagesize Hps oread content Hrd level objs None Hg Hok Hnd Hn eq_refl) as (v & [f1 Hv] & Hm).
  assert (v = Ok (pack, psha, idx, isha)) as -> by (rewrite <- (He (Nat.max f0 f1)), <- (Hv (Nat.max f0 f1)) by lia; reflexivity).
  destruct Hm as (_ & Hm). destruct Hm as (ix & A & _ & _ & B); [change (2 ^ 31) with 2147483648 in H31; change (2 ^ 64) with 18446744073709551616; lia|].
  exists ix. split; [exact A|]. now apply B.
Qed.
Print Assumptions C31_crc_accepts_written.
Example C31_example : map (is_valid_crc 1 20 ex_ent) [ex_s3; ex_s1] = [Ok true; Ok true].
Proof. vm_compute. reflexivity. Qed.

(** ** C32 *)
(** For every index of version 2 with offsets below 2 GiB: if the check accepts the data of an
    object, it rejects it with any one byte of it (header included) changed. *)
Theorem C32_single_byte_partial :
  forall (pagesize : Z) (shas : list bytes) (crcs offs : list Z) (trailer : bytes) (ix : pidx),
  0 < pagesize -> strictly_sorted_shas shas -> length crcs = length shas -> Forall (fun c => 0 <= c < 2 ^ 32) crcs ->
  length offs = length shas -> Forall (fun o => 0 <= o < 2 ^ 31) offs -> len shas < 2 ^ 32 ->
  index_open (v2_file shas crcs offs [] trailer) = Ok ix ->
  forall (before after : bytes) (b b' : Z) (sha : bytes) (off next : Z),
  found_at shas offs sha off -> object_end offs (len (before ++ b :: after) - 20) off next ->
  off <= len before < next -> is_bytes (before ++ b :: after) -> is_byte b' -> b <> b' ->
  evaluates (fun f => is_valid_crc pagesize f (mk_entity ix (before ++ b :: after)) sha) (Ok true) ->
  evaluates (fun f => is_valid_crc pagesize f (mk_entity ix (before ++ b' :: after)) sha) (Ok false).
Proof. intros pagesize shas crcs offs trailer ix H1 H2 H3 H4 H5 H6 H7 H8 before after b b'.
  exact (crc_detects pagesize H1 shas crcs offs trailer ix H2 H3 H4 H5 H6 H7 H8 before b b' after).
Qed.
Print Assumptions C32_single_byte_partial.
Definition ex_broken : bytes := firstn 35 ex_pk ++ [77] ++ skipn 36 ex_pk.
Example C32_example :
  (exists b, ex_pk = firstn 35 ex_pk ++ [b] ++ skipn 36 ex_pk /\ b <> 77) /\
  is_valid_crc 1 20 (mk_entity (en_index ex_ent) ex_broken) ex_s1 = Ok false /\
  is_valid_crc 1 20 (mk_entity (en_index ex_ent) ex_broken) ex_s3 = Ok true.
Proof.
  split; [exists 0; split; [vm_compute; reflexivity|discriminate]|]. vm_compute. split; reflexivity.
Qed.
(** Full statement: whatever the offset.  False: for an object at 2 GiB or beyond the check
    raises KeyError whatever the pack holds (C17: offsets() does not look into the 64-bit
    table). *)
Definition far_idx : bytes := v2_file [ex_s1] [77] [2 ^ 31] [2 ^ 31 + 5] (repeat 7 40).
Theorem C32_far_object_refuted :
  index_file 2 [ex_s1] [77] [2 ^ 31 + 5] far_idx /\
  exists ix, index_open far_idx = Ok ix /\ ix_offset ix 0 = Ok (2 ^ 31 + 5) /\
    forall pagesize fuel pack, is_valid_crc pagesize fuel (mk_entity ix pack) ex_s1 = Raise KeyError.
Proof.
  split.
  - apply (idx_v2 [ex_s1] [77] [2 ^ 31 + 5] [2 ^ 31] [2 ^ 31 + 5]); try reflexivity.
    + repeat constructor; cbn; try lia; easy.
    + repeat constructor; cbn; lia.
    + constructor; [|constructor]. right. exists O. repeat split; lia.
    + repeat constructor; lia.
  - destruct (index_open far_idx) as [ix| |] eqn:E; [|vm_compute in E; discriminate E|vm_compute in E; discriminate E].
    exists ix. split; [reflexivity|].
    assert (ix = match index_open far_idx with Ok ix => ix | _ => ex_ix end) as Hix by now rewrite E. clear E.
    assert (ix_offset ix 0 = Ok (2 ^ 31 + 5)) as H1 by (rewrite Hix; vm_compute; reflexivity).
    assert (ix_version ix = 2) as H2 by (rewrite Hix; vm_compute; reflexivity).
    assert (sha_to_index ix ex_s1 = Ok (Some 0)) as H3 by (rewrite Hix; vm_compute; reflexivity).
    assert (ix_offsets ix = Ok [2 ^ 31]) as H4 by (rewrite Hix; vm_compute; reflexivity).
    split; [exact H1|]. clear Hix. intros pagesize fuel pack. unfold is_valid_crc, entity_index, next_offset. cbn [en_index en_pack].
    rewrite H2. change (2 <? 2) with false. cbv iota. rewrite H3. cbn [bind]. rewrite H1. cbn [bind]. rewrite H4. cbn [bind]. reflexivity.
Qed.
Print Assumptions C32_far_object_refuted.
(** So for every object at 4 GiB or beyond, in every pack. *)
Theorem C32_beyond_refuted :
  forall (shas : list bytes) (crcs offs : list Z) (d : bytes) (ix : pidx) (sha : bytes) (off : Z),
  index_file 2 shas crcs offs d -> strictly_sorted_shas shas -> index_open d = Ok ix -> found_at shas offs sha off -> 2 ^ 32 <= off ->
  forall pagesize fuel pack, is_valid_crc pagesize fuel (mk_entity ix pack) sha = Raise KeyError.
Proof. exact crc_beyond. Qed.
Print Assumptions C32_beyond_refuted.
Example C32_beyond_example :
  index_file 2 [ex_s1] [77] [2 ^ 32 + 5] (v2_file [ex_s1] [77] [2 ^ 31] [2 ^ 32 + 5] (repeat 7 40)) /\ strictly_sorted_shas [ex_s1] /\
  found_at [ex_s1] [2 ^ 32 + 5] ex_s1 (2 ^ 32 + 5).
Proof.
  split; [|split].
  - apply (idx_v2 [ex_s1] [77] [2 ^ 32 + 5] [2 ^ 31] [2 ^ 32 + 5]); try reflexivity.
    + repeat constructor; cbn; try lia; easy.
    + repeat constructor; cbn; lia.
    + constructor; [|constructor]. right. exists O. repeat split; lia.
    + repeat constructor; lia.
  - repeat constructor; cbn; try lia; easy.
  - exists 0. repeat split. discriminate.
Qed.

(** ** C33 *)
(** For every pack, index, hash function and fuel: never False; True only if the hash of
    type, size and what the object's stream delivers is the name. *)
Theorem C33_never_false :
  forall (K : zlib) (sha1 : bytes -> bytes) (pagesize : Z) (fuel : nat) (e : entity) (sha : bytes),
  is_valid_sha K sha1 pagesize fuel e sha <> Ok false.
Proof. exact @sha_never_false. Qed.
Print Assumptions C33_never_false.
Theorem C33_sound :
  forall (K : zlib) (sha1 : bytes -> bytes) (pagesize : Z) (fuel : nat) (e : entity) (sha : bytes),
  is_valid_sha K sha1 pagesize fuel e sha = Ok true ->
  exists o t ns outs ds, entity_stream K fuel e sha = Ok o /\ (os_type o = PBytes t \/ os_type o = PStr t) /\
    run_stream (os_read fuel) os_seek0 o (map Read ns) = Ok outs /\
    ds = fmt_i (os_size o) /\ (0 <= os_size o -> decimal ds (os_size o)) /\
    sha1 (t ++ [32] ++ ds ++ [0] ++ concat outs) = sha.
Proof.
  intros K sha1 pagesize fuel e sha H. destruct (@sha_sound K sha1 pagesize fuel e sha H) as (o & ns & outs & ds & E & Hr & Hd & Hs).
  exists o, (type_text (os_type o)), ns, outs, ds. split; [exact E|]. split; [destruct (os_type o); auto|]. repeat (split; [easy|]). split; [|exact Hs].
  intros Hp. rewrite Hd. now apply fmt_i_decimal.
Qed.
Print Assumptions C33_sound.
(** For an object that the code can resolve (see C69) the verdict is exact: True if the hash
    of its loose form is the name, AssertionError otherwise. *)
Theorem C33_verdict_partial :
  forall (K : zlib) (L : zlib_laws K) (sha1 : bytes -> bytes) (pagesize : Z) (v : Z) (shas : list bytes) (crcs offs : list Z) (idx : bytes) (ix : pidx)
    (pack sha : bytes) (off : Z) (l : list (Z * pentry)) (t : Z) (content : bytes),
  0 < pagesize -> index_file v shas crcs offs idx -> strictly_sorted_shas shas -> index_open idx = Ok ix -> index pack 0 = Ok 80 ->
  found_at shas offs sha off -> base_chain L pack shas offs off l -> ofs_then_refs l -> chain_object l t content -> chain_readable L l ->
  1 < len l \/ len content <= chunk_size pagesize \/ Forall (fun p => dense L (pn_z (snd p)) (pn_data (snd p))) l ->
  exists tn, type_id_to_type t = Ok (PBytes tn) /\
  forall obj, loose_form tn content obj ->
    evaluates (fun f => is_valid_sha K sha1 pagesize f (mk_entity ix pack) sha)
      (if beq (sha1 obj) sha then Ok true else Raise AssertionError).
Proof.
  intros K L sha1 pagesize v shas crcs offs idx ix pack sha off l t content Hps Hidx Hs Hopen Hsig Hf Hc Ho Hco Hd Hl.
  pose proof (index_answers _ _ _ _ _ _ Hidx Hs Hopen) as Ha.
  destruct (entity_stream_ok L pack ix shas offs Ha Hsig sha off l t content Hf (walk_chain L pack shas offs off l Hc Ho) Hco Hd) as (tn & o & Ht & Hst & Hty & Hsz & Hrun & Hone & _).
  destruct (chain_type L pack shas offs false off l t content tn (walk_chain L pack shas offs off l Hc Ho) Hco Ht) as (tb & ->).
  exists tb. split; [exact Ht|]. intros obj Hobj.
  destruct Hl as [Hl|[Hl|Hl]].
  - apply (sha_verdict sha1 pagesize Hps (mk_entity ix pack) sha o content Hst Hsz (Hrun (or_introl Hl))). now rewrite Hty.
  - apply (sha_verdict_once sha1 pagesize (mk_entity ix pack) sha o content Hst Hsz Hl Hone). now rewrite Hty.
  - apply (sha_verdict sha1 pagesize Hps (mk_entity ix pack) sha o content Hst Hsz (Hrun (or_intror Hl))). now rewrite Hty.
Qed.
Print Assumptions C33_verdict_partial.
(** Full statement: it raises in all other cases.  False: a delta naming itself as its base
    makes it run for ever (see C70). *)
Theorem C33_cycle_refuted :
  forall (K : zlib) (L : zlib_laws K) (sha1 : bytes -> bytes) (pagesize : Z) (v : Z) (shas : list bytes) (crcs offs : list Z) (idx : bytes) (ix : pidx)
    (pack sha : bytes) (off : Z) (e : pentry),
  index_file v shas crcs offs idx -> strictly_sorted_shas shas -> index_open idx = Ok ix -> index pack 0 = Ok 80 ->
  found_at shas offs sha off -> entry_at L pack off e -> pn_delta e = RefDelta sha ->
  diverges (fun f => is_valid_sha K sha1 pagesize f (mk_entity ix pack) sha).
Proof.
  intros K L sha1 pagesize v shas crcs offs idx ix pack sha off e Hidx Hs Hopen Hsig Hf He Hd.
  apply (ref_loop_stream L sha1 pagesize pack ix shas offs sha off e (index_answers _ _ _ _ _ _ Hidx Hs Hopen) Hsig Hf He Hd).
Qed.
Print Assumptions C33_cycle_refuted.

(** ** A pack with deltas for the examples: two blobs of 13 bytes, an OFS_DELTA copying the
    second one, a REF_DELTA copying the object of the OFS_DELTA, and the OFS_DELTA's twin
    referring by name. *)
Definition d_ones : bytes := repeat 49 13.
Definition d_twos : bytes := repeat 50 13.
Definition d_copy : bytes := [13; 13; 144; 13].
Definition d_app : bytes := [13; 14; 144; 13; 1; 33].
Definition e_x : pentry := mk_pentry 3 NoDelta [120] (s_compress [120]).
Definition e_ones : pentry := mk_pentry 3 NoDelta d_ones (s_compress d_ones).
Definition e_twos : pentry := mk_pentry 3 NoDelta d_twos (s_compress d_twos).
Definition e_ofs : pentry := mk_pentry 6 (OfsDelta 25) d_copy (s_compress d_copy).
Definition e_ref (s : bytes) : pentry := mk_pentry 7 (RefDelta s) d_app (s_compress d_app).
Definition h_x : bytes := [49].
Definition h_blob : bytes := [61].
Definition h_ofs : bytes := [100; 25].
Definition h_ref (s : bytes) : bytes := 118 :: s.
(** Offsets 12, 25, 50, 75, 92, 130 (ref to the OFS_DELTA at 75), 168 (ref to itself) *)
Definition s_ofs : bytes := ex_s1.
Definition s_ref : bytes := ex_s2.
Definition s_self : bytes := ex_s3.
Definition s_far : bytes := 201 :: repeat 1 19.
Definition s_base : bytes := 202 :: repeat 1 19.
Definition s_good : bytes := 203 :: repeat 1 19.
Definition d_pre : bytes := pack_head 7 ++ (h_x ++ s_compress [120]) ++ (h_blob ++ s_compress d_ones).
Definition d_pack : bytes :=
  d_pre ++ (h_blob ++ s_compress d_twos) ++ (h_ofs ++ s_compress d_copy) ++
  (h_ref s_ofs ++ s_compress d_app) ++ (h_ref s_self ++ s_compress d_app) ++ (h_ref s_base ++ s_compress d_app) ++
  (h_ref (repeat 255 20) ++ s_compress d_app) ++ repeat 0 20.
Definition d_shas : list bytes := [s_ofs; s_ref; s_self; s_far; s_base; s_good].
Definition d_offs : list Z := [75; 92; 130; 206; 50; 168].
Definition d_idx : bytes := v2_file d_shas (repeat 0 6) d_offs [] (repeat 7 40).
Definition d_ix : pidx := match index_open d_idx with Ok ix => ix | _ => ex_ix end.
Definition d_ent : entity := mk_entity d_ix d_pack.
Lemma d_index : index_file 2 d_shas (repeat 0 6) d_offs d_idx /\ strictly_sorted_shas d_shas /\ index_open d_idx = Ok d_ix /\ index d_pack 0 = Ok 80.
Proof.
  split; [|split; [|split; [vm_compute; reflexivity|reflexivity]]].
  - apply (idx_v2 d_shas (repeat 0 6) d_offs d_offs []); try reflexivity.
    + repeat constructor; cbn; try lia; easy.
    + repeat constructor; cbn; lia.
    + repeat (constructor; [left; split; [lia|reflexivity]|]). constructor.
    + constructor.
  - split; repeat constructor; cbn; try lia; easy.
Qed.
Lemma d_stream d : forallb (fun c => (0 <=? c) && (c <? 256)) d = true -> zl_stream stored_laws (s_compress d) d.
Proof. intros H. apply s_compress_stream. now apply bytes_check. Qed.
Lemma d_found sha off i : index d_shas (Z.of_nat i) = Ok sha -> index d_offs (Z.of_nat i) = Ok off -> found_at d_shas d_offs sha off.
Proof. intros H1 H2. exists (Z.of_nat i). split; [exact H1|]. split; [exact H2|lia]. Qed.
Lemma d_at_twos : entry_at stored_laws d_pack 50 e_twos.
Proof.
  exists d_pre, h_blob, (s_compress d_twos). eexists. split; [unfold d_pack; rewrite <- !app_assoc; reflexivity|]. split; [reflexivity|].
  apply eb_full; [cbn; tauto|apply (ph_short 3 13); lia|now apply d_stream].
Qed.
Lemma d_at_ones : entry_at stored_laws d_pack 25 e_ones.
Proof.
  exists (pack_head 7 ++ (h_x ++ s_compress [120])), h_blob, (s_compress d_ones). eexists. split; [unfold d_pack, d_pre; rewrite <- !app_assoc; reflexivity|]. split; [reflexivity|].
  apply eb_full; [cbn; tauto|apply (ph_short 3 13); lia|now apply d_stream].
Qed.
Lemma d_at_ofs : entry_at stored_laws d_pack 75 e_ofs.
Proof.
  exists (d_pre ++ (h_blob ++ s_compress d_twos)), ([100] ++ [25]), (s_compress d_copy). eexists.
  split; [unfold d_pack; rewrite <- !app_assoc; reflexivity|]. split; [reflexivity|].
  apply eb_ofs; [apply (ph_short 6 4); lia| |now apply d_stream].
  exists [], 25. repeat split; try lia. constructor.
Qed.
Lemma d_ref_bytes s : sha_ok s -> entry_bytes stored_laws (e_ref s) ([118] ++ s) (s_compress d_app).
Proof. intros Hs. apply (eb_ref stored_laws [118] s); [apply (ph_short 7 6); lia|exact Hs|now apply d_stream]. Qed.
Lemma d_at_ref : entry_at stored_laws d_pack 92 (e_ref s_ofs).
Proof.
  exists (d_pre ++ (h_blob ++ s_compress d_twos) ++ (h_ofs ++ s_compress d_copy)), ([118] ++ s_ofs), (s_compress d_app). eexists.
  split; [unfold d_pack; rewrite <- !app_assoc; reflexivity|]. split; [reflexivity|]. apply d_ref_bytes. split; [reflexivity|now apply bytes_check].
Qed.
Lemma d_at_self : entry_at stored_laws d_pack 130 (e_ref s_self).
Proof.
  exists (d_pre ++ (h_blob ++ s_compress d_twos) ++ (h_ofs ++ s_compress d_copy) ++ (h_ref s_ofs ++ s_compress d_app)), ([118] ++ s_self), (s_compress d_app). eexists.
  split; [unfold d_pack; rewrite <- !app_assoc; reflexivity|]. split; [reflexivity|]. apply d_ref_bytes. split; [reflexivity|now apply bytes_check].
Qed.
Lemma d_at_good : entry_at stored_laws d_pack 168 (e_ref s_base).
Proof.
  exists (d_pre ++ (h_blob ++ s_compress d_twos) ++ (h_ofs ++ s_compress d_copy) ++ (h_ref s_ofs ++ s_compress d_app) ++ (h_ref s_self ++ s_compress d_app)),
    ([118] ++ s_base), (s_compress d_app). eexists.
  split; [unfold d_pack; rewrite <- !app_assoc; reflexivity|]. split; [reflexivity|]. apply d_ref_bytes. split; [reflexivity|now apply bytes_check].
Qed.
Lemma d_at_far : entry_at stored_laws d_pack 206 (e_ref (repeat 255 20)).
Proof.
  exists (d_pre ++ (h_blob ++ s_compress d_twos) ++ (h_ofs ++ s_compress d_copy) ++ (h_ref s_ofs ++ s_compress d_app) ++ (h_ref s_self ++ s_compress d_app) ++
          (h_ref s_base ++ s_compress d_app)),
    ([118] ++ repeat 255 20), (s_compress d_app). eexists.
  split; [unfold d_pack; rewrite <- !app_assoc; reflexivity|]. split; [reflexivity|]. apply d_ref_bytes. split; [reflexivity|now apply bytes_check].
Qed.

(** The chain of the last but one object: a REF_DELTA to a blob. *)
Definition d_chain : list (Z * pentry) := [(168, e_ref s_base); (50, e_twos)].
Definition d_object : bytes := d_twos ++ [33].
Lemma d_chain_ok : base_chain stored_laws d_pack d_shas d_offs 168 d_chain /\ ofs_then_refs d_chain /\ chain_object d_chain 3 d_object.
Proof.
  split; [|split].
  - apply (bc_ref _ _ _ _ 168 (e_ref s_base) s_base 50 [(50, e_twos)]); [exact d_at_good|reflexivity|apply (d_found _ _ 4); reflexivity|].
    apply bc_full; [exact d_at_twos|reflexivity].
  - cbn. tauto.
  - exists [(168, e_ref s_base)], 50, e_twos. repeat (split; [reflexivity|]). apply (chain_cons _ d_app [] d_twos); [constructor|].
    exists [13], [14], [Copy 0 13; Insert [33]], [144; 13; 1; 33].
    split; [reflexivity|]. split; [apply varint_last; cbn; lia|]. split; [apply varint_last; cbn; lia|]. split; [cbn; lia|].
    split; [|split; [repeat constructor; cbn; lia|reflexivity]].
    apply (enc_cons (Copy 0 13) [Insert [33]] [144; 13] [1; 33]).
    + apply (enc_copy false false false false true false false 0 0 0 0 13 0 0); try easy. apply bytes_check. reflexivity.
    + apply (enc_cons (Insert [33]) [] [1; 33] []); [|constructor]. apply (enc_insert [33]); [cbn; lia|apply bytes_check; reflexivity].
Qed.
Lemma d_chain_dense : Forall (fun p => dense stored_laws (pn_z (snd p)) (pn_data (snd p))) d_chain.
Proof. repeat constructor; apply s_compress_dense, bytes_check; reflexivity. Qed.
Example C33_example :
  toy_sha (str_blob_type ++ [32; 49; 52; 0] ++ d_object) = repeat 22 20 /\
  is_valid_sha stored (fun d => if beq d (str_blob_type ++ [32; 49; 52; 0] ++ d_object) then s_good else []) 1 50 d_ent s_good = Ok true /\
  is_valid_sha stored toy_sha 1 50 d_ent s_good = Raise AssertionError.
Proof. vm_compute. repeat split; reflexivity. Qed.
Example C33_loose_example : loose_form str_blob_type d_object (str_blob_type ++ [32; 49; 52; 0] ++ d_object).
Proof. exists [49; 52]. split; [|reflexivity]. split; [easy|]. split; [repeat constructor; lia|]. split; [reflexivity|easy]. Qed.

(** ** C34 *)
(** Full statement: collect_streams terminates on every pack.  False: an OFS_DELTA with
    distance 0. *)
Theorem C34_zero_distance_refuted :
  forall (K : zlib) (L : zlib_laws K) (pack : bytes) (off : Z) (e : pentry),
  entry_at L pack off e -> pn_delta e = OfsDelta 0 -> diverges (fun f => collect_streams K f pack off).
Proof. intros K L. exact (collect_loop L). Qed.
Print Assumptions C34_zero_distance_refuted.
Example C34_example : entry_at stored_laws (pack_head 1 ++ [100; 0] ++ s_compress d_copy ++ repeat 0 20) 12
  (mk_pentry 6 (OfsDelta 0) d_copy (s_compress d_copy)).
Proof.
  exists (pack_head 1), ([100] ++ [0]), (s_compress d_copy), (repeat 0 20). split; [reflexivity|]. split; [reflexivity|].
  apply eb_ofs; [apply (ph_short 6 4); lia| |now apply d_stream]. exists [], 0. repeat split; try lia. constructor.
Qed.
(** That is the only way: any byte string without such an entry, from any offset on. *)
Theorem C34_terminates_partial :
  forall (K : zlib) (data : bytes) (off : Z), is_bytes data ->
  (forall off n o, pack_object_at K data off = Ok (n, o) -> po_delta o <> OfsDelta 0) ->
  forall fuel, (Z.to_nat (off + 1) < fuel)%nat -> collect_streams K fuel data off <> Diverge.
Proof. intros K data off Hb H fuel Hf. exact (collect_terminates data Hb H fuel off Hf). Qed.
Print Assumptions C34_terminates_partial.
Definition no_zero_at (data : bytes) (off : nat) : bool :=
  match pack_object_at stored data (Z.of_nat off) with Ok (_, o) => match po_delta o with OfsDelta 0 => false | _ => true end | _ => true end.
Example C34_terminates_example :
  (forall off n o, pack_object_at stored d_pack off = Ok (n, o) -> po_delta o <> OfsDelta 0) /\
  (let! l := collect_streams stored 200 d_pack 75 in Ok (map po_offset l)) = Ok [75; 50].
Proof.
  split; [|vm_compute; reflexivity]. intros off n o H Hd.
  assert (0 <= off < len d_pack) as Hoff.
  { unfold pack_object_at in H. apply bind_ok_inv in H as (r & H & _). unfold region in H. destruct ((0 <=? off) && (off <? len d_pack)) eqn:E; [|discriminate].
    apply andb_prop in E as [E1 E2]. apply Z.leb_le in E1. apply Z.ltb_lt in E2. now split. }
  assert (forallb (no_zero_at d_pack) (seq 0 (length d_pack)) = true) as Hall by (vm_compute; reflexivity).
  rewrite forallb_forall in Hall. specialize (Hall (Z.to_nat off)). unfold no_zero_at in Hall. rewrite Z2Nat.id, H, Hd in Hall by lia.
  discriminate Hall. apply in_seq. unfold len in Hoff. lia.
Qed.

(** ** C35 *)
(** Full statement: the chain is followed whatever the mixture.  False: an OFS_DELTA after a
    REF_DELTA; the distance is then taken for an offset.  The object is built on the blob of
    ones instead of the blob of twos. *)
Theorem C35_ofs_after_ref_refuted :
  base_chain stored_laws d_pack d_shas d_offs 92 [(92, e_ref s_ofs); (75, e_ofs); (50, e_twos)] /\
  found_at d_shas d_offs s_ref 92 /\
  index_file 2 d_shas (repeat 0 6) d_offs d_idx /\ index_open d_idx = Ok (en_index d_ent) /\
  evaluates (fun f => let! l := entity_collect_streams stored f d_ent s_ref in Ok (map po_offset l)) (Ok [92; 75; 25]) /\
  evaluates (fun f => let! st := entity_stream stored f d_ent s_ref in run_stream (os_read f) os_seek0 st [Read 0]) (Ok [d_ones ++ [33]]).
Proof.
  split; [|split; [|split; [|split; [|split]]]].
  - apply (bc_ref _ _ _ _ 92 (e_ref s_ofs) s_ofs 75); [exact d_at_ref|reflexivity|apply (d_found _ _ 0); reflexivity|].
    apply (bc_ofs _ _ _ _ 75 e_ofs 25); [exact d_at_ofs|reflexivity|]. apply bc_full; [exact d_at_twos|reflexivity].
  - apply (d_found _ _ 1); reflexivity.
  - apply d_index.
  - apply d_index.
  - exists 60%nat. intros f Hf. do 60 (destruct f as [|f]; [lia|]). clear Hf. vm_compute. reflexivity.
  - exists 60%nat. intros f Hf. do 60 (destruct f as [|f]; [lia|]). clear Hf. vm_compute. reflexivity.
Qed.
Print Assumptions C35_ofs_after_ref_refuted.
(** So for every REF_DELTA on an OFS_DELTA of distance n: the third entry is looked for n bytes
    from the start of the pack. *)
Theorem C35_every_ofs_after_ref_refuted :
  forall (K : zlib) (L : zlib_laws K) (v : Z) (shas : list bytes) (crcs offs : list Z) (idx : bytes) (ix : pidx)
    (pack sha sha' : bytes) (off off' n : Z) (e e' : pentry) (fuel : nat) (l : list (pobj K)),
  index_file v shas crcs offs idx -> strictly_sorted_shas shas -> index_open idx = Ok ix -> index pack 0 = Ok 80 ->
  found_at shas offs sha off -> entry_at L pack off e -> pn_delta e = RefDelta sha' ->
  found_at shas offs sha' off' -> entry_at L pack off' e' -> pn_delta e' = OfsDelta n -> 0 < n ->
  entity_collect_streams K fuel (mk_entity ix pack) sha = Ok l -> exists l', map po_offset l = off :: off' :: n :: l'.
Proof.
  intros K L v shas crcs offs idx ix pack sha sha' off off' n e e' fuel l Hf Hs Hix Hp.
  exact (ofs_after_ref L pack ix shas offs (index_answers _ _ _ _ _ _ Hf Hs Hix) Hp sha off e sha' off' e' n fuel l).
Qed.
Print Assumptions C35_every_ofs_after_ref_refuted.
(** It is followed correctly if no OFS_DELTA comes after a REF_DELTA. *)
Theorem C35_chain_partial :
  forall (K : zlib) (L : zlib_laws K) (v : Z) (shas : list bytes) (crcs offs : list Z) (idx : bytes) (ix : pidx)
    (pack sha : bytes) (off : Z) (l : list (Z * pentry)),
  index_file v shas crcs offs idx -> strictly_sorted_shas shas -> index_open idx = Ok ix -> index pack 0 = Ok 80 ->
  found_at shas offs sha off -> base_chain L pack shas offs off l -> ofs_then_refs l ->
  exists os, evaluates (fun f => entity_collect_streams K f (mk_entity ix pack) sha) (Ok os) /\
    Forall2 (fun p o => po_offset o = fst p /\ po_type_id o = pn_type (snd p) /\ po_delta o = pn_delta (snd p) /\ po_size o = len (pn_data (snd p))) l os.
Proof.
  intros K L v shas crcs offs idx ix pack sha off l Hidx Hs Hopen Hsig Hf Hc Ho.
  destruct (entity_collect L pack ix shas offs (index_answers _ _ _ _ _ _ Hidx Hs Hopen) Hsig sha off l Hf (walk_chain L pack shas offs off l Hc Ho)) as (os & HF & H).
  exists os. split; [eexists; exact H|]. clear -HF. induction HF as [|p o l os Ho HF IH]; constructor; [|exact IH].
  destruct (obj_fields L _ _ Ho) as (A & B & C & D). now repeat split.
Qed.
Print Assumptions C35_chain_partial.
Example C35_example :
  (let! l := entity_collect_streams stored 50 d_ent s_good in Ok (map po_offset l)) = Ok [168; 50] /\
  (let! l := entity_collect_streams stored 50 d_ent s_ofs in Ok (map po_offset l)) = Ok [75; 50].
Proof. vm_compute. split; reflexivity. Qed.

(** ** C69 *)
(** Full statement: every resolvable delta object.  Partial: chains without OFS_DELTA after
    REF_DELTA (C35); zlib streams of which any 8 bytes produce output (C23), or that are not
    longer than the data and belong to a delta of at most 512 bytes or a base of at most 1 MB
    ([chain_readable]).  An object that is not a delta is then read completely by one read;
    reading it in pieces needs the former. *)
Theorem C69_delta_objects_partial :
  forall (K : zlib) (L : zlib_laws K) (v : Z) (shas : list bytes) (crcs offs : list Z) (idx : bytes) (ix : pidx)
    (pack sha : bytes) (off : Z) (l : list (Z * pentry)) (t : Z) (content : bytes),
  index_file v shas crcs offs idx -> strictly_sorted_shas shas -> index_open idx = Ok ix -> index pack 0 = Ok 80 ->
  found_at shas offs sha off -> base_chain L pack shas offs off l -> ofs_then_refs l -> chain_object l t content -> chain_readable L l ->
  exists tn st, type_id_to_type t = Ok tn /\
    evaluates (fun f => entity_info K f (mk_entity ix pack) sha) (Ok (mk_oinfo sha tn (len content))) /\
    evaluates (fun f => entity_stream K f (mk_entity ix pack) sha) (Ok st) /\ os_type st = tn /\ os_size st = len content /\
    (1 < len l \/ Forall (fun p => dense L (pn_z (snd p)) (pn_data (snd p))) l ->
     forall ops, evaluates (fun f => run_stream (os_read f) os_seek0 st ops) (Ok (cursor content 0 ops))) /\
    forall n, n < 1 \/ len content <= n -> evaluates (fun f => run_stream (os_read f) os_seek0 st [Read n]) (Ok [content]).
Proof.
  intros K L v shas crcs offs idx ix pack sha off l t content Hidx Hs Hopen Hsig Hf Hc Ho Hco Hd.
  destruct (entity_stream_ok L pack ix shas offs (index_answers _ _ _ _ _ _ Hidx Hs Hopen) Hsig sha off l t content Hf (walk_chain L pack shas offs off l Hc Ho) Hco Hd)
    as (tn & o & Ht & Hst & Hty & Hsz & Hrun & (f1 & Hone) & Hinfo).
  exists tn, o. repeat (split; [assumption|]). split.
  - intros Hl ops. destruct (Hrun Hl) as (f0 & Hr). exists f0. intros f Hff. now apply Hr.
  - intros n Hn. exists f1. intros f Hff. now apply Hone.
Qed.
Print Assumptions C69_delta_objects_partial.
Example C69_example :
  entity_info stored 50 d_ent s_good = Ok (mk_oinfo s_good (PBytes str_blob_type) 14) /\
  (let! st := entity_stream stored 50 d_ent s_good in run_stream (os_read 50) os_seek0 st [Read 12; Read 9; Rewind; Read 1]) =
    Ok [repeat 50 12; [50; 33]; []; [50]].
Proof. vm_compute. split; reflexivity. Qed.

(** The full statement is false: the object at 92, a REF_DELTA to an OFS_DELTA of the blob of
    twos, comes out as made from the blob of ones (see C35). *)
Definition d_mixed : list (Z * pentry) := [(92, e_ref s_ofs); (75, e_ofs); (50, e_twos)].
Theorem C69_mixed_refuted :
  index_file 2 d_shas (repeat 0 6) d_offs d_idx /\ index_open d_idx = Ok (en_index d_ent) /\ index (en_pack d_ent) 0 = Ok 80 /\
  found_at d_shas d_offs s_ref 92 /\ base_chain stored_laws d_pack d_shas d_offs 92 d_mixed /\ en_pack d_ent = d_pack /\
  chain_object d_mixed 3 d_object /\ chain_readable stored_laws d_mixed /\
  exists out, out <> d_object /\
    evaluates (fun f => let! st := entity_stream stored f d_ent s_ref in run_stream (os_read f) os_seek0 st [Read 0]) (Ok [out]).
Proof.
  destruct C35_ofs_after_ref_refuted as (H1 & H2 & H3 & H4 & _ & H6).
  split; [exact H3|]. split; [exact H4|]. split; [reflexivity|]. split; [exact H2|]. split; [exact H1|]. split; [reflexivity|]. split; [|split].
  - clear H1 H2 H3 H4 H6. exists [(92, e_ref s_ofs); (75, e_ofs)], 50, e_twos. repeat (split; [reflexivity|]).
    destruct d_chain_ok as (_ & _ & ds & o & b & E & _ & _ & Hc). destruct ds as [|x [|y ds]]; cbn in E; try discriminate E.
    2:{ injection E as _ _ E. now destruct ds. }
    injection E as <- <- <-. cbn [map snd pn_data e_ref] in Hc. inversion Hc as [|? ? mid ? Hm Hd]; subst. inversion Hm; subst. cbn [map snd pn_data e_ref e_ofs].
    apply (chain_cons _ d_app [d_copy] d_twos); [|exact Hd]. apply (chain_cons _ d_copy [] d_twos); [constructor|].
    exists [13], [13], [Copy 0 13], [144; 13].
    split; [reflexivity|]. split; [apply varint_last; cbn; lia|]. split; [apply varint_last; cbn; lia|]. split; [cbn; lia|].
    split; [|split; [repeat constructor; cbn; lia|reflexivity]].
    apply (enc_cons (Copy 0 13) [] [144; 13] []); [|constructor].
    apply (enc_copy false false false false true false false 0 0 0 0 13 0 0); try easy. apply bytes_check. reflexivity.
  - clear H1 H2 H3 H4 H6. assert (Hd : forall e, is_bytes (pn_data e) -> pn_z e = s_compress (pn_data e) -> forall n, at_once stored_laws n e).
    { intros e He Hz n. left. rewrite Hz. now apply s_compress_dense. }
    exists [(92, e_ref s_ofs); (75, e_ofs)], (50, e_twos). split; [reflexivity|].
    split; [constructor; [|constructor; [|constructor]]|]; (apply Hd; [apply bytes_check; reflexivity|reflexivity]).
  - exists (d_ones ++ [33]). split; [intros E; discriminate E|exact H6].
Qed.
Print Assumptions C69_mixed_refuted.

(** ** C70 *)
(** Full statement: every query by sha terminates.  False: an object naming itself as its
    base. *)
Theorem C70_ref_cycle_refuted :
  forall (K : zlib) (L : zlib_laws K) (v : Z) (shas : list bytes) (crcs offs : list Z) (idx : bytes) (ix : pidx)
    (pack sha : bytes) (off : Z) (e : pentry),
  index_file v shas crcs offs idx -> strictly_sorted_shas shas -> index_open idx = Ok ix -> index pack 0 = Ok 80 ->
  found_at shas offs sha off -> entry_at L pack off e -> pn_delta e = RefDelta sha ->
  diverges (fun f => entity_collect_streams K f (mk_entity ix pack) sha) /\
  diverges (fun f => entity_info K f (mk_entity ix pack) sha) /\
  diverges (fun f => entity_stream K f (mk_entity ix pack) sha).
Proof.
  intros K L v shas crcs offs idx ix pack sha off e Hidx Hs Hopen Hsig Hf He Hd.
  pose proof (index_answers _ _ _ _ _ _ Hidx Hs Hopen) as Ha. split; [exact (ref_loop L pack ix shas offs Ha Hsig sha off e Hf He Hd)|].
  destruct (ref_loop_stream L (fun d => d) 1 pack ix shas offs sha off e Ha Hsig Hf He Hd) as (A & B & _). now split.
Qed.
Print Assumptions C70_ref_cycle_refuted.
Example C70_example : found_at d_shas d_offs s_self 130 /\ entry_at stored_laws d_pack 130 (e_ref s_self) /\ pn_delta (e_ref s_self) = RefDelta s_self.
Proof. split; [apply (d_found _ _ 2); reflexivity|]. split; [exact d_at_self|reflexivity]. Qed.

(** ** C71 *)
(** Full statement: every chain.  False: an OFS_DELTA after a REF_DELTA is followed to the
    wrong place (C35), so that the missing base is not looked for.  In this pack the chain of
    [s_ref] is a REF_DELTA (118) to an OFS_DELTA (101) on a REF_DELTA (63) to an object that
    is not in the pack; the object is built on the blob at offset 38. *)
Definition u_filler : bytes := repeat 48 14.
Definition u_ofs : pentry := mk_pentry 6 (OfsDelta 38) d_copy (s_compress d_copy).
Definition u_pre : bytes := pack_head 5 ++ ([62] ++ s_compress u_filler) ++ (h_blob ++ s_compress d_ones).
Definition u_pack : bytes :=
  u_pre ++ (h_ref (repeat 255 20) ++ s_compress d_app) ++ ([100; 38] ++ s_compress d_copy) ++ (h_ref s_ofs ++ s_compress d_app) ++ repeat 0 20.
Definition u_shas : list bytes := [s_ofs; s_ref].
Definition u_offs : list Z := [101; 118].
Definition u_idx : bytes := v2_file u_shas (repeat 0 2) u_offs [] (repeat 7 40).
Definition u_ix : pidx := match index_open u_idx with Ok ix => ix | _ => ex_ix end.
Definition u_ent : entity := mk_entity u_ix u_pack.
Lemma u_index : index_file 2 u_shas (repeat 0 2) u_offs u_idx /\ strictly_sorted_shas u_shas /\ index_open u_idx = Ok u_ix /\ index u_pack 0 = Ok 80.
Proof.
  split; [|split; [|split; [vm_compute; reflexivity|reflexivity]]].
  - apply (idx_v2 u_shas (repeat 0 2) u_offs u_offs []); try reflexivity.
    + repeat constructor; cbn; try lia; easy.
    + repeat constructor; cbn; lia.
    + repeat (constructor; [left; split; [lia|reflexivity]|]). constructor.
    + constructor.
  - split; repeat constructor; cbn; try lia; easy.
Qed.
Lemma u_chain : base_chain stored_laws u_pack u_shas u_offs 118 [(118, e_ref s_ofs); (101, u_ofs); (63, e_ref (repeat 255 20))].
Proof.
  apply (bc_ref _ _ _ _ 118 (e_ref s_ofs) s_ofs 101); [|reflexivity|exists 0; repeat split; try lia|].
  - exists (u_pre ++ (h_ref (repeat 255 20) ++ s_compress d_app) ++ ([100; 38] ++ s_compress d_copy)), ([118] ++ s_ofs), (s_compress d_app). eexists.
    split; [unfold u_pack; rewrite <- !app_assoc; reflexivity|]. split; [reflexivity|]. apply d_ref_bytes. split; [reflexivity|now apply bytes_check].
  - apply (bc_ofs _ _ _ _ 101 u_ofs 38); [|reflexivity|].
    + exists (u_pre ++ (h_ref (repeat 255 20) ++ s_compress d_app)), ([100] ++ [38]), (s_compress d_copy). eexists.
      split; [unfold u_pack; rewrite <- !app_assoc; reflexivity|]. split; [reflexivity|].
      apply eb_ofs; [apply (ph_short 6 4); lia| |now apply d_stream]. exists [], 38. repeat split; try lia. constructor.
    + apply (bc_unknown _ _ _ _ 63 (e_ref (repeat 255 20)) (repeat 255 20)); [|reflexivity|intros H; cbn in H; repeat destruct H as [H|H]; easy].
      exists u_pre, ([118] ++ repeat 255 20), (s_compress d_app). eexists.
      split; [unfold u_pack; rewrite <- !app_assoc; reflexivity|]. split; [reflexivity|]. apply d_ref_bytes. split; [reflexivity|now apply bytes_check].
Qed.
Theorem C71_mixed_chain_refuted :
  index_file 2 u_shas (repeat 0 2) u_offs u_idx /\ strictly_sorted_shas u_shas /\ index_open u_idx = Ok (en_index u_ent) /\
  found_at u_shas u_offs s_ref 118 /\
  base_chain stored_laws u_pack u_shas u_offs 118 [(118, e_ref s_ofs); (101, u_ofs); (63, e_ref (repeat 255 20))] /\ ~ In (repeat 255 20) u_shas /\
  evaluates (fun f => let! i := entity_info stored f u_ent s_ref in Ok (oi_size i)) (Ok 14) /\
  evaluates (fun f => let! st := entity_stream stored f u_ent s_ref in run_stream (os_read f) os_seek0 st [Read 0]) (Ok [d_ones ++ [33]]).
Proof.
  destruct u_index as (A & B & C & _).
  split; [exact A|]. split; [exact B|]. split; [exact C|]. split; [exists 1; repeat split; try lia|]. split; [exact u_chain|].
  split; [intros H; cbn in H; repeat destruct H as [H|H]; easy|].
  split; exists 60%nat; intros f Hf; do 60 (destruct f as [|f]; [lia|]); clear Hf; vm_compute; reflexivity.
Qed.
Print Assumptions C71_mixed_chain_refuted.
(** It holds if no OFS_DELTA comes after a REF_DELTA. *)
Theorem C71_unknown_base_partial :
  forall (K : zlib) (L : zlib_laws K) (v : Z) (shas : list bytes) (crcs offs : list Z) (idx : bytes) (ix : pidx)
    (pack sha : bytes) (off : Z) (ds : list (Z * pentry)) (off' : Z) (last : pentry) (base : bytes),
  index_file v shas crcs offs idx -> strictly_sorted_shas shas -> index_open idx = Ok ix -> index pack 0 = Ok 80 ->
  found_at shas offs sha off -> base_chain L pack shas offs off (ds ++ [(off', last)]) -> ofs_then_refs (ds ++ [(off', last)]) ->
  pn_delta last = RefDelta base ->
  evaluates (fun f => entity_stream K f (mk_entity ix pack) sha) (Raise ValueError) /\
  forall f i, entity_info K f (mk_entity ix pack) sha <> Ok i.
Proof.
  intros K L v shas crcs offs idx ix pack sha off ds off' last base Hidx Hs Hopen Hsig Hf Hc Ho Hb.
  apply (unknown_base L pack ix shas offs sha off _ off' last base (index_answers _ _ _ _ _ _ Hidx Hs Hopen) Hsig Hf (walk_chain L pack shas offs off _ Hc Ho)); [now exists ds|exact Hb].
Qed.
Print Assumptions C71_unknown_base_partial.
Example C71_example :
  base_chain stored_laws d_pack d_shas d_offs 206 [(206, e_ref (repeat 255 20))] /\ found_at d_shas d_offs s_far 206 /\
  entity_info stored 50 d_ent s_far = Raise BadObject /\
  (let! st := entity_stream stored 50 d_ent s_far in Ok (os_size st)) = Raise ValueError.
Proof.
  split; [|split; [apply (d_found _ _ 3); reflexivity|vm_compute; split; reflexivity]].
  apply (bc_unknown _ _ _ _ 206 (e_ref (repeat 255 20)) (repeat 255 20)); [exact d_at_far|reflexivity|].
  intros H. cbn in H. repeat destruct H as [H|H]; easy.
Qed.
