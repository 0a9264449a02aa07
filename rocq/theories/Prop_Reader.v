(** Properties C21-C27 and C68 of properties.jsonl: DecompressMemMapReader and
    loose_object_header_info, over every zlib satisfying the laws of ZlibModel.v. *)
From Verif Require Import Py PyFacts FunModel FunSpec FunProofs ZlibModel ZlibProofs ReaderModel StreamSpec ReaderProofs RewindSpec RewindProofs QuietProofs.

Notation seek0 := (fun r => seek r 0 0).

(** ** Streams used by the examples and witnesses *)
Lemma bytes_check l : forallb (fun c => (0 <=? c) && (c <? 256)) l = true -> is_bytes l.
Proof.
  intros H. rewrite forallb_forall in H. apply Forall_forall. intros x Hx. specialize (H x Hx).
  apply andb_prop in H as [H1 H2]. apply Z.leb_le in H1. apply Z.ltb_lt in H2. now split.
Qed.
Lemma stored_check z d : s_run (SHead []) (1, 0) z = Some d ->
  forallb (fun c => (0 <=? c) && (c <? 256)) z = true -> zl_stream stored_laws z d.
Proof.
  intros H1 H2. apply bytes_check in H2. split; [easy|]. split; [easy|]. eapply s_run_bytes; eauto.
Qed.
Lemma run_eval {K} (r : reader K) ops v f : run_stream (read f) seek0 r ops = Ok v ->
  evaluates (fun f => run_stream (read f) seek0 r ops) (Ok v).
Proof.
  intros H. exists f. intros f' Hf. eapply run_stream_mono; [|exact H]. intros s n w. now apply read_mono.
Qed.
Lemma read_object_eval {K} m ops v f : read_object (K := K) m f ops = Ok v ->
  evaluates (fun f => read_object (K := K) m f ops) (Ok v).
Proof.
  intros H. exists f. intros f' Hf. unfold read_object in *.
  apply bind_ok_inv in H as ([[t n] r] & H1 & H2). unfold reader_new in *. rewrite (parse_mono _ _ _ _ Hf H1). cbn [bind].
  apply bind_ok_inv in H2 as (outs & H2 & H3).
  rewrite (run_stream_mono (read f) (read f') seek0 (fun s n w => read_mono f f' s n w Hf) _ _ _ H2). exact H3.
Qed.

Lemma read_then_cbr {K} (r0 : reader K) pagesize ops outs n f :
  (let! (outs, r) := run_state (read f) seek0 r0 ops in
   let! (n, _) := compressed_bytes_read pagesize f r in Ok (outs, n)) = Ok (outs, n) ->
  evaluates (fun f => let! (outs, r) := run_state (read f) seek0 r0 ops in
                      let! (n, _) := compressed_bytes_read pagesize f r in Ok (outs, n)) (Ok (outs, n)).
Proof.
  intros H. exists f. intros f' Hf. apply bind_ok_inv in H as ([o r] & H1 & H2).
  apply bind_ok_inv in H2 as ([k r'] & H2 & H3).
  rewrite (run_state_mono (read f) (read f') seek0 (fun s n w => read_mono f f' s n w Hf) _ _ _ H1). cbn [bind].
  rewrite (cbr_mono _ _ _ _ _ Hf H2). exact H3.
Qed.

(** ** C21 *)
(** A reader of known size (objects in packs): any sequence of reads and rewinds. *)
Theorem C21_known_size_contiguous :
  forall (K : zlib) (L : zlib_laws K) (z d rest : bytes) (ops : list rop), zl_stream L z d ->
  exists outs,
    evaluates (fun f => run_stream (read f) seek0 (reader_init K (z ++ rest) (Some (len d))) ops) (Ok outs) /\
    contiguous d 0 ops outs /\ within_request ops outs.
Proof. intros. now apply (known_contiguous L). Qed.
Print Assumptions C21_known_size_contiguous.
(** A reader that parsed the object header, any sequence of reads. *)
Theorem C21_object_contiguous :
  forall (K : zlib) (L : zlib_laws K) (t c z rest : bytes) (f : nat) (t' : bytes) (r : reader K),
  zl_stream L z (loose_object_header t (len c) ++ c) -> ~ In BYTE_SPACE t -> ~ In NULL_BYTE t ->
  reader_new K f (z ++ rest) = Ok (t', len c, r) ->
  t' = t /\ forall ns, exists outs,
    evaluates (fun f => run_stream (read f) seek0 r (map Read ns)) (Ok outs) /\ contiguous c 0 (map Read ns) outs.
Proof. intros K L t c z rest f t' r. apply (object_contiguous L). Qed.
Print Assumptions C21_object_contiguous.

(** ** C22 *)
Theorem C22_known_size_exact :
  forall (K : zlib) (L : zlib_laws K) (z d rest : bytes) (ops : list rop), zl_stream L z d -> dense L z d ->
  evaluates (fun f => run_stream (read f) seek0 (reader_init K (z ++ rest) (Some (len d))) ops) (Ok (cursor d 0 ops)).
Proof. intros. now apply (known_exact L). Qed.
Print Assumptions C22_known_size_exact.
(** Without that condition on the stream: a read that asks for at least as many bytes as the
    zlib stream has is exact. *)
Theorem C22_long_read :
  forall (K : zlib) (L : zlib_laws K) (z d rest : bytes) (ops : list rop) (n : Z), zl_stream L z d ->
  exists outs o,
    evaluates (fun f => run_stream (read f) seek0 (reader_init K (z ++ rest) (Some (len d))) (ops ++ [Read n])) (Ok (outs ++ [o])) /\
    contiguous d 0 (ops ++ [Read n]) (outs ++ [o]) /\
    let p := position 0 ops outs in
    let e := if n <? 1 then skipn p d else firstn (Z.to_nat n) (skipn p d) in
    (len z <= len e -> o = e).
Proof. intros K L z d rest ops n. exact (known_long L z d rest ops n). Qed.
Print Assumptions C22_long_read.
Example C22_example :
  (forall d, is_bytes d -> zl_stream stored_laws (s_compress d) d /\ dense stored_laws (s_compress d) d) /\
  run_stream (read 50) seek0 (reader_init stored (s_compress [5; 6; 7; 8] ++ [1; 2; 3]) (Some 4))
    [Read 1; Read 2; Rewind; Read 3; Read 0; Read 5] = Ok [[5]; [6; 7]; []; [5; 6; 7]; [8]; []].
Proof.
  split; [intros d Hd; split; [now apply s_compress_stream|now apply s_compress_dense]|].
  vm_compute. reflexivity.
Qed.

(** ** C23 *)
(** Full statement: on a reader of known size over any valid zlib stream, read(n), n >= 1,
    does not return an empty string before the end.  False: the 8 bytes looked at by the
    first read(1) can belong to block headers entirely. *)
Definition slow_z : bytes := [120; 1] ++ s_block false [] ++ s_block true [7; 8; 9] ++ adler_bytes (adler [7; 8; 9]).
Theorem C23_empty_read_refuted :
  zl_stream stored_laws slow_z [7; 8; 9] /\
  evaluates (fun f => run_stream (read f) seek0 (reader_init stored slow_z (Some 3)) [Read 1; Read 1; Read 1])
    (Ok [[]; [7]; [8]]).
Proof.
  split; [now apply stored_check|]. apply (run_eval _ _ _ 50). vm_compute. reflexivity.
Qed.
Print Assumptions C23_empty_read_refuted.
(** In general: a first read of n bytes gives nothing if decompressing the first n bytes of
    the stream (8 if that is more) gives nothing. *)
Theorem C23_silent_start_refuted :
  forall (K : zlib) (L : zlib_laws K) (z d rest : bytes) (n : Z) (st : zs K),
  zl_stream L z d -> 1 <= n <= len d -> zs_decompress K (zs_new K) (firstn (Z.to_nat (Z.max 8 n)) (z ++ rest)) n = Ok ([], st) ->
  evaluates (fun f => run_stream (read f) seek0 (reader_init K (z ++ rest) (Some (len d))) [Read n]) (Ok [[]]).
Proof.
  intros K L z d rest n st Hz Hn Hst. destruct (zl_start K L _ _ Hz) as (_ & _ & Ht & _).
  assert (Es : (if n <? 1 then len d else Z.min n (len d)) = n) by (destruct (Z.ltb_spec n 1); lia).
  apply (first_read_empty K (z ++ rest) (len d) n st Ht); rewrite Es; [lia|exact Hst].
Qed.
Print Assumptions C23_silent_start_refuted.
Example C23_silent_start_example : zl_stream stored_laws slow_z [7; 8; 9] /\
  exists st, zs_decompress stored (zs_new stored) (firstn (Z.to_nat (Z.max 8 1)) (slow_z ++ [5])) 1 = Ok ([], st).
Proof. split; [now apply stored_check|]. vm_compute. eexists. reflexivity. Qed.
(** It holds when any 8 bytes of the stream produce output (missing: other streams). *)
Theorem C23_nonempty_read_partial :
  forall (K : zlib) (L : zlib_laws K) (z d rest : bytes) (ops : list rop) (n : Z),
  zl_stream L z d -> dense L z d -> 1 <= n ->
  exists outs o,
    evaluates (fun f => run_stream (read f) seek0 (reader_init K (z ++ rest) (Some (len d))) (ops ++ [Read n]))
      (Ok (outs ++ [o])) /\
    ((position 0 ops outs < length d)%nat -> o <> []).
Proof. intros. now apply (known_nonempty L). Qed.
Print Assumptions C23_nonempty_read_partial.

(** ** C24, C25, C26: streams of loose objects *)
(** Full statement of C24: read(n), n >= 1, returns at most n bytes.  Here read(8190) on an
    object of 8200 bytes returns all 8200. *)
Definition big_c : bytes := repeat 0 (Z.to_nat 8200).
Definition big_d : bytes := loose_object_header str_blob_type 8200 ++ big_c.
Definition big_z : bytes :=
  [120; 1] ++ s_block false (firstn (Z.to_nat 8196) big_d) ++ s_block true (skipn (Z.to_nat 8196) big_d) ++ adler_bytes (adler big_d).
Theorem C24_read_too_much_refuted :
  zl_stream stored_laws big_z (loose_object_header str_blob_type (len big_c) ++ big_c) /\
  evaluates (fun f => read_object (K := stored) big_z f [Read 8190]) (Ok (str_blob_type, 8200, [big_c])) /\
  len big_c = 8200.
Proof.
  split; [|split; [|reflexivity]].
  - apply stored_check; vm_compute; reflexivity.
  - apply (read_object_eval _ _ _ 100). vm_compute. reflexivity.
Qed.
Print Assumptions C24_read_too_much_refuted.
(** Full statement of C25: read() on a fresh stream returns everything.  Here it returns
    12044 of 20200 bytes. *)
Definition long_c : bytes := repeat 0 (Z.to_nat 8200) ++ concat (repeat [7; 9] (Z.to_nat 6000)).
Definition long_d : bytes := loose_object_header str_blob_type 20200 ++ long_c.
Definition long_z : bytes :=
  [120; 1] ++ s_block false (loose_object_header str_blob_type 20200 ++ repeat 0 (Z.to_nat 8200)) ++
  concat (repeat (s_block false [7; 9]) (Z.to_nat 6000)) ++ s_block true [] ++ adler_bytes (adler long_d).
Theorem C25_read_all_short_refuted :
  zl_stream stored_laws long_z (loose_object_header str_blob_type (len long_c) ++ long_c) /\
  exists out, evaluates (fun f => read_object (K := stored) long_z f [Read (-1)]) (Ok (str_blob_type, 20200, [out])) /\
    len out < len long_c.
Proof.
  split.
  - apply stored_check; vm_compute; reflexivity.
  - eexists. split.
    + apply (read_object_eval _ _ _ 2000). vm_compute. reflexivity.
    + vm_compute. reflexivity.
Qed.
Print Assumptions C25_read_all_short_refuted.
(** Full statement of C26: after seek(0) the object is delivered from its start.  Here
    read(1), seek(0), read(1) raises ValueError: the old buffer is taken for the header. *)
Definition tiny_c : bytes := [104; 105; 32; 121; 111].
Definition tiny_z : bytes := s_compress (loose_object_header str_blob_type 5 ++ tiny_c).
Example C21_example :
  zl_stream stored_laws tiny_z (loose_object_header str_blob_type (len tiny_c) ++ tiny_c) /\ ~ In BYTE_SPACE str_blob_type /\ ~ In NULL_BYTE str_blob_type /\
  (let! (t, n, r) := reader_new stored 40 (tiny_z ++ [1; 2]) in let! outs := run_stream (read 40) seek0 r (map Read [2; 1; 9]) in Ok (t, n, outs)) =
  Ok (str_blob_type, len tiny_c, [[104; 105]; [32]; [121; 111]]).
Proof.
  split; [apply s_compress_stream; apply bytes_check; vm_compute; reflexivity|].
  split; [intros H; cbn in H; repeat destruct H as [H|H]; easy|]. split; [intros H; cbn in H; repeat destruct H as [H|H]; easy|]. vm_compute. reflexivity.
Qed.
Theorem C26_seek_after_partial_read_refuted :
  zl_stream stored_laws tiny_z (loose_object_header str_blob_type (len tiny_c) ++ tiny_c) /\
  forall f, (20 <= f)%nat -> read_object (K := stored) tiny_z f [Read 1; Rewind; Read 1] = Raise ValueError.
Proof.
  split; [apply s_compress_stream; apply bytes_check; vm_compute; reflexivity|].
  intros f Hf. do 20 (destruct f as [|f]; [lia|]). clear Hf. vm_compute. reflexivity.
Qed.
Print Assumptions C26_seek_after_partial_read_refuted.
(** They hold for every use whose reads stay in the first part of the content (what fits into
    8192 bytes together with the header), or go on beyond it by at least as many bytes as the
    compressed object has, and which rewinds only after that part; and, if any 8 bytes of the
    zlib stream produce output, for any reads after that part.  Missing: shorter reads across
    the end of that part, rewinds before it. *)
Theorem C24_object_reads_partial :
  forall (K : zlib) (L : zlib_laws K) (t c z rest : bytes) (ops : list rop),
  zl_stream L z (loose_object_header t (len c) ++ c) -> ~ In BYTE_SPACE t -> ~ In NULL_BYTE t ->
  len (loose_object_header t (len c)) <= 8192 ->
  dense L z (loose_object_header t (len c) ++ c) \/ len z <= 8192 ->
  respects (dense L z (loose_object_header t (len c) ++ c)) (Z.to_nat (Z.min (len c) (8192 - len (loose_object_header t (len c))))) (length z) c 0 ops ->
  evaluates (fun f => read_object (K := K) (z ++ rest) f ops) (Ok (t, len c, cursor c 0 ops)).
Proof. intros. now apply (object_exact L). Qed.
Print Assumptions C24_object_reads_partial.
(** In particular objects of at most 8192 bytes including the header, whose compressed form
    has at most 8192 bytes, too; no condition on zlib. *)
Lemma respects_reads A w c : forall ns pos, respects A (length c) w c pos (map Read ns).
Proof.
  induction ns as [|n ns IH]; intros pos; cbn [map respects]; [easy|]. split; [left|apply IH].
  destruct (n <? 1); rewrite ?firstn_length, skipn_length; lia.
Qed.
Lemma respects_app A B w c : forall ops1 pos ops2, respects A B w c pos ops1 ->
  respects A B w c (position pos ops1 (cursor c pos ops1)) ops2 -> respects A B w c pos (ops1 ++ ops2).
Proof.
  induction ops1 as [|[n|] ops1 IH]; intros pos ops2 H1 H2; cbn [app respects position cursor] in *; [easy| |].
  - destruct H1 as [H1 H1']. split; [easy|]. now apply IH.
  - destruct H1 as [H1 H1']. split; [easy|]. now apply IH.
Qed.
Lemma position_reads c : forall ns pos, (pos <= length c)%nat ->
  (position pos (map Read ns) (cursor c pos (map Read ns)) <= length c)%nat.
Proof.
  induction ns as [|n ns IH]; intros pos Hp; cbn [map position cursor]; [easy|]. apply IH.
  destruct (n <? 1); rewrite ?firstn_length, skipn_length; lia.
Qed.
Lemma small_object_reads K (L : zlib_laws K) t c z rest ns ms :
  zl_stream L z (loose_object_header t (len c) ++ c) -> ~ In BYTE_SPACE t -> ~ In NULL_BYTE t ->
  len z <= 8192 -> len (loose_object_header t (len c) ++ c) <= 8192 ->
  evaluates (fun f => read_object (K := K) (z ++ rest) f (map Read ns)) (Ok (t, len c, cursor c 0 (map Read ns))) /\
  evaluates (fun f => read_object (K := K) (z ++ rest) f (map Read ns ++ [Read 0; Rewind] ++ map Read ms))
    (Ok (t, len c, cursor c 0 (map Read ns ++ [Read 0; Rewind] ++ map Read ms))).
Proof.
  intros Hz H1 H2 H3 H4.
  assert (len (loose_object_header t (len c)) <= 8192) as Hh by (rewrite len_app in H4; pose proof (len_nonneg _ c); lia).
  split; (apply (object_exact L); [easy|easy|easy|easy|now right|]); rewrite bufpos_all by easy.
  - apply respects_reads.
  - apply respects_app; [apply respects_reads|]. set (p := position _ _ _).
    assert (p <= length c)%nat by (apply position_reads; lia).
    cbn [app respects]. change (0 <? 1) with true. cbv iota. rewrite skipn_length.
    split; [left; lia|]. split; [lia|]. apply respects_reads.
Qed.
Theorem C25_small_object_partial :
  forall (K : zlib) (L : zlib_laws K) (t c z rest : bytes),
  zl_stream L z (loose_object_header t (len c) ++ c) -> ~ In BYTE_SPACE t -> ~ In NULL_BYTE t ->
  len z <= 8192 -> len (loose_object_header t (len c) ++ c) <= 8192 ->
  evaluates (fun f => read_object (K := K) (z ++ rest) f [Read (-1)]) (Ok (t, len c, [c])).
Proof.
  intros K L t c z rest H1 H2 H3 H4 H5.
  exact (proj1 (small_object_reads K L t c z rest [-1] [] H1 H2 H3 H4 H5)).
Qed.
Print Assumptions C25_small_object_partial.
(** And objects of which compression saves at least 8192 bytes, whatever zlib stream it is, if
    the header has been read. *)
Theorem C25_compressed_partial :
  forall (K : zlib) (L : zlib_laws K) (t c z rest : bytes) (f : nat) (t' : bytes) (r : reader K) (n : Z),
  zl_stream L z (loose_object_header t (len c) ++ c) -> ~ In BYTE_SPACE t -> ~ In NULL_BYTE t ->
  reader_new K f (z ++ rest) = Ok (t', len c, r) ->
  len z + 8192 <= len (loose_object_header t (len c) ++ c) -> n < 1 \/ len c <= n ->
  evaluates (fun f => run_stream (read f) seek0 r [Read n]) (Ok [c]).
Proof.
  intros K L t c z rest f t' r n Hz H1 H2 Hnew Hl Hn.
  destruct (object_long L t c z rest f t' r Hz H1 H2 Hnew [] n) as (outs & o & Hev & Hc & He).
  destruct outs as [|x outs]; [|exfalso; destruct Hc as [_ Hc]; destruct outs; destruct Hc].
  cbn [map app position] in *. cbv zeta in He. cbn [skipn] in He.
  set (e := if n <? 1 then _ else _) in He. assert (Ee : e = c).
  { unfold e. destruct (Z.ltb_spec n 1); [easy|]. rewrite firstn_all2; [easy|unfold len in *; lia]. }
  rewrite Ee in He.
  rewrite He in Hev; [exact Hev| |]; rewrite len_app in Hl; [|lia].
  destruct (new_contiguous L t c z rest Hz H1 H2 (Nat.max f (2 * length (loose_object_header t (len c) ++ c) + 8)) t' r) as (_ & B & HB & _); [lia| |lia].
  unfold reader_new in *. eapply parse_mono; [|exact Hnew]. lia.
Qed.
Print Assumptions C25_compressed_partial.
(** After any reads, a read that extends far enough beyond the first 8192 bytes returns
    exactly what was asked for. *)
Theorem C24_long_read_partial :
  forall (K : zlib) (L : zlib_laws K) (t c z rest : bytes) (f : nat) (t' : bytes) (r : reader K) (ns : list Z) (n : Z),
  zl_stream L z (loose_object_header t (len c) ++ c) -> ~ In BYTE_SPACE t -> ~ In NULL_BYTE t ->
  reader_new K f (z ++ rest) = Ok (t', len c, r) ->
  exists outs o,
    evaluates (fun f => run_stream (read f) seek0 r (map Read ns ++ [Read n])) (Ok (outs ++ [o])) /\
    contiguous c 0 (map Read ns ++ [Read n]) (outs ++ [o]) /\
    let p := position 0 (map Read ns) outs in
    let e := if n <? 1 then skipn p c else firstn (Z.to_nat n) (skipn p c) in
    (len z <= len e -> 8192 + len z <= len (loose_object_header t (len c)) + Z.of_nat p + len e -> o = e).
Proof. intros K L t c z rest f t' r ns n Hz H1 H2 Hnew. exact (object_long L t c z rest f t' r Hz H1 H2 Hnew ns n). Qed.
Print Assumptions C24_long_read_partial.
(** Missing: rewinding before everything has been read; larger objects are covered by
    C24_object_reads_partial. *)
Theorem C26_small_object_partial :
  forall (K : zlib) (L : zlib_laws K) (t c z rest : bytes) (ns ms : list Z),
  zl_stream L z (loose_object_header t (len c) ++ c) -> ~ In BYTE_SPACE t -> ~ In NULL_BYTE t ->
  len z <= 8192 -> len (loose_object_header t (len c) ++ c) <= 8192 ->
  evaluates (fun f => read_object (K := K) (z ++ rest) f (map Read ns ++ [Read 0; Rewind] ++ map Read ms))
    (Ok (t, len c, cursor c 0 (map Read ns ++ [Read 0; Rewind] ++ map Read ms))).
Proof.
  intros K L t c z rest ns ms H1 H2 H3 H4 H5.
  exact (proj2 (small_object_reads K L t c z rest ns ms H1 H2 H3 H4 H5)).
Qed.
Print Assumptions C26_small_object_partial.
(** What seek(0) does to a small object in general.  What has not been read yet stays in the
    buffer and stands before the header when that is parsed again ([kept]).  If it contains
    neither a space nor a null byte, whenever seek(0) is called, the object is delivered
    from its start: *)
Theorem C26_clean_rest_partial :
  forall (K : zlib) (L : zlib_laws K) (t c z rest : bytes) (ops : list rop),
  zl_stream L z (loose_object_header t (len c) ++ c) -> ~ In BYTE_SPACE t -> ~ In NULL_BYTE t ->
  len z + len c <= 8192 -> len (loose_object_header t (len c)) + 2 * len c <= 8192 ->
  clean_seeks c 0 c ops ->
  evaluates (fun f => read_object (K := K) (z ++ rest) f ops) (Ok (t, len c, cursor c 0 ops)).
Proof. intros K L t c z rest ops H1 H2 H3 H4 H5. exact (seeks_exact L t c z rest H1 H2 H3 H4 H5 ops). Qed.
Print Assumptions C26_clean_rest_partial.
(** if it contains a space and no null byte, or not exactly one space before the first null
    byte, the next read raises ValueError, whatever object it is: *)
Theorem C26_spoilt_rest_refuted :
  forall (K : zlib) (L : zlib_laws K) (t c z rest : bytes) (pre : list rop) (n : Z) (post : list rop),
  zl_stream L z (loose_object_header t (len c) ++ c) -> ~ In BYTE_SPACE t -> ~ In NULL_BYTE t ->
  len z + len c <= 8192 -> len (loose_object_header t (len c)) + 2 * len c <= 8192 ->
  clean_seeks c 0 c pre -> spoils (kept c 0 c pre) ->
  evaluates (fun f => read_object (K := K) (z ++ rest) f (pre ++ Rewind :: Read n :: post)) (Raise ValueError).
Proof. intros K L t c z rest pre n post H1 H2 H3 H4 H5. exact (seeks_spoilt L t c z rest H1 H2 H3 H4 H5 pre n post). Qed.
Print Assumptions C26_spoilt_rest_refuted.
(** and if it begins like a header, it is taken for the header: the content of the object
    decides what is delivered instead of the object. *)
Theorem C26_forged_header_refuted :
  forall (K : zlib) (L : zlib_laws K) (t c z rest : bytes) (pre : list rop) (x : bytes) (n : Z) (y : bytes) (m : Z),
  zl_stream L z (loose_object_header t (len c) ++ c) -> ~ In BYTE_SPACE t -> ~ In NULL_BYTE t ->
  len z + len c <= 8192 -> len (loose_object_header t (len c)) + 2 * len c <= 8192 ->
  clean_seeks c 0 c pre -> kept c 0 c pre = loose_object_header x n ++ y -> ~ In BYTE_SPACE x -> ~ In NULL_BYTE x ->
  0 <= n <= len (y ++ loose_object_header t (len c) ++ c) ->
  evaluates (fun f => read_object (K := K) (z ++ rest) f (pre ++ [Rewind; Read m]))
    (Ok (t, len c, cursor c 0 pre ++
       [[]; firstn (Z.to_nat (if m <? 1 then n else Z.min m n)) (y ++ loose_object_header t (len c) ++ c)])).
Proof. intros K L t c z rest pre x n y m H1 H2 H3 H4 H5. exact (seeks_forged L t c z rest H1 H2 H3 H4 H5 pre x n y m). Qed.
Print Assumptions C26_forged_header_refuted.
(** An object of 5 bytes: seek(0) when two bytes without a space are left, when four with a
    space are; an object of 9 bytes that contains a header. *)
Definition forger_c : bytes := [97; 98; 32; 51; 0; 120; 121; 122; 33].
Definition forger_z : bytes := s_compress (loose_object_header str_blob_type 9 ++ forger_c).
Example C26_example :
  (zl_stream stored_laws tiny_z (loose_object_header str_blob_type (len tiny_c) ++ tiny_c) /\
   len tiny_z + len tiny_c <= 8192 /\ len (loose_object_header str_blob_type (len tiny_c)) + 2 * len tiny_c <= 8192) /\
  (clean_seeks tiny_c 0 tiny_c [Read 3; Rewind; Rewind; Read 2; Read 9; Rewind; Read 1] /\
   read_object (K := stored) tiny_z 50 [Read 3; Rewind; Rewind; Read 2; Read 9; Rewind; Read 1] =
     Ok (str_blob_type, 5, [[104; 105; 32]; []; []; [104; 105]; [32; 121; 111]; []; [104]])) /\
  (clean_seeks tiny_c 0 tiny_c [Read 3; Rewind; Read 1] /\ spoils (kept tiny_c 0 tiny_c [Read 3; Rewind; Read 1]) /\
   read_object (K := stored) tiny_z 50 [Read 3; Rewind; Read 1; Rewind; Read 1] = Raise ValueError) /\
  (zl_stream stored_laws forger_z (loose_object_header str_blob_type (len forger_c) ++ forger_c) /\
   kept forger_c 0 forger_c [Read 1] = loose_object_header [98] 3 ++ [120; 121; 122; 33] /\
   read_object (K := stored) forger_z 50 [Read 1; Rewind; Read 0] = Ok (str_blob_type, 9, [[97]; []; [120; 121; 122]])).
Proof.
  split; [|split; [|split]].
  - split; [apply s_compress_stream; apply bytes_check; vm_compute; reflexivity|]. split; vm_compute; discriminate.
  - split; [|vm_compute; reflexivity]. cbn. repeat split; intros H; repeat destruct H as [H|H]; easy.
  - split; [cbn; repeat split; intros H; repeat destruct H as [H|H]; easy|].
    split; [|vm_compute; reflexivity]. left. change (kept tiny_c 0 tiny_c [Read 3; Rewind; Read 1]) with [105; 32; 121; 111]. split; [|right; left; reflexivity].
    intros H; repeat destruct H as [H|H]; easy.
  - split; [apply s_compress_stream; apply bytes_check; vm_compute; reflexivity|]. split; vm_compute; reflexivity.
Qed.
(** For readers of known size C26 holds without restriction on the history. *)
Theorem C26_known_size_partial :
  forall (K : zlib) (L : zlib_laws K) (z d rest : bytes) (ops1 ops2 : list rop), zl_stream L z d -> dense L z d ->
  evaluates (fun f => run_stream (read f) seek0 (reader_init K (z ++ rest) (Some (len d))) (ops1 ++ [Rewind] ++ ops2))
    (Ok (cursor d 0 ops1 ++ [[]] ++ cursor d 0 ops2)).
Proof.
  intros K L z d rest ops1 ops2 H1 H2.
  pose proof (known_exact L z d rest (ops1 ++ [Rewind] ++ ops2) H1 H2) as H. rewrite cursor_app in H. exact H.
Qed.
Print Assumptions C26_known_size_partial.
(** Every other seek raises ValueError. *)
Theorem C26_only_start :
  forall (K : zlib) (r : reader K) (offset whence : Z), offset <> 0 \/ whence <> 0 -> seek r offset whence = Raise ValueError.
Proof. intros K r offset whence H. unfold seek. now replace (negb (offset =? 0) || negb (whence =? 0)) with true by lia. Qed.
Print Assumptions C26_only_start.
Example C24_example :
  (zl_stream stored_laws tiny_z (loose_object_header str_blob_type (len tiny_c) ++ tiny_c) /\
   ~ In BYTE_SPACE str_blob_type /\ ~ In NULL_BYTE str_blob_type /\
   len tiny_z <= 8192 /\ len (loose_object_header str_blob_type (len tiny_c) ++ tiny_c) <= 8192) /\
  read_object (K := stored) tiny_z 50 [Read 2; Read 0; Rewind; Read 3; Read 9] =
    Ok (str_blob_type, 5, [[104; 105]; [32; 121; 111]; []; [104; 105; 32]; [121; 111]]).
Proof.
  split; [|vm_compute; reflexivity].
  split; [apply s_compress_stream; apply bytes_check; vm_compute; reflexivity|].
  split; [intros H; cbn in H; repeat destruct H as [H|H]; easy|].
  split; [intros H; cbn in H; repeat destruct H as [H|H]; easy|].
  vm_compute. split; discriminate.
Qed.

(** ** C27 *)
(** Full statement: once a non-empty object has been read completely,
    compressed_bytes_read() is the length of the zlib stream, whatever was read before and
    whatever follows the stream.  False: 20 bytes read one at a time, three bytes after the
    stream; the length is 31, the result is 28.  (The bytes after the stream are then both
    in unconsumed_tail and in unused_data and are subtracted twice.) *)
Definition twenty : bytes := repeat 5 20.
Theorem C27_wrong_length_refuted :
  zl_stream stored_laws (s_compress twenty) twenty /\ len (s_compress twenty) = 31 /\
  evaluates (fun f =>
      let! (outs, r) := run_state (read f) seek0 (reader_init stored (s_compress twenty ++ [1; 2; 3]) (Some 20))
                          (repeat (Read 1) 20) in
      let! (n, _) := compressed_bytes_read 4096 f r in Ok (outs, n))
    (Ok (repeat [5] 20, 28)).
Proof.
  split; [apply s_compress_stream, bytes_check; vm_compute; reflexivity|]. split; [reflexivity|].
  apply (read_then_cbr _ _ _ _ _ 50). vm_compute. reflexivity.
Qed.
Print Assumptions C27_wrong_length_refuted.
(** In general: after any reads that end at the end of the content, the result is the length
    of the stream less the length of the decompressor's unconsumed_tail, which then is the
    beginning of what follows the stream.  The result is wrong exactly when that attribute
    is not empty. *)
Theorem C27_every_length_refuted :
  forall (K : zlib) (L : zlib_laws K) (z d rest : bytes) (pagesize : Z) (ops : list rop),
  zl_stream L z d -> d <> [] -> 0 < pagesize ->
  exists outs r r',
    evaluates (fun f => run_state (read f) seek0 (reader_init K (z ++ rest) (Some (len d))) ops) (Ok (outs, r)) /\
    (position 0 ops outs = length d ->
     prefix (zs_tail K (r_zip r)) rest /\
     evaluates (fun f => compressed_bytes_read pagesize f r) (Ok (len z - len (zs_tail K (r_zip r)), r'))).
Proof.
  intros K L z d rest pagesize ops Hz Hd Hp.
  destruct (known_cbr_exact L z d rest pagesize ops Hz Hd Hp) as (outs & r & r' & H1 & H2 & _). now exists outs, r, r'.
Qed.
Print Assumptions C27_every_length_refuted.
Example C27_every_length_example :
  match run_state (read 50) seek0 (reader_init stored (s_compress twenty ++ [1; 2; 3]) (Some 20)) (repeat (Read 1) 20) with
  | Ok (outs, r) => position 0 (repeat (Read 1) 20) outs = 20%nat /\ zs_tail stored (r_zip r) = [1; 2; 3]
  | _ => False
  end.
Proof. vm_compute. split; reflexivity. Qed.
(** For an object without content the call does not end at all (why the property asks for
    one byte). *)
Theorem C27_empty_object_diverges_refuted :
  forall (K : zlib) (L : zlib_laws K) (z rest : bytes) (pagesize : Z), zl_stream L z [] ->
  diverges (fun f => compressed_bytes_read pagesize f (reader_init K (z ++ rest) (Some 0))).
Proof. intros. now apply (cbr_empty L). Qed.
Print Assumptions C27_empty_object_diverges_refuted.
(** It holds if nothing follows the stream, or if every read asks for all that is left.
    Missing: reading in pieces with something following (see above). *)
Theorem C27_exact_length_partial :
  forall (K : zlib) (L : zlib_laws K) (z d rest : bytes) (pagesize : Z) (ops : list rop),
  zl_stream L z d -> d <> [] -> 0 < pagesize ->
  rest = [] \/ Forall (fun op => match op with Read n => n < 1 \/ len d <= n | Rewind => True end) ops ->
  exists outs r r',
    evaluates (fun f => run_state (read f) seek0 (reader_init K (z ++ rest) (Some (len d))) ops) (Ok (outs, r)) /\
    (position 0 ops outs = length d ->
     evaluates (fun f => compressed_bytes_read pagesize f r) (Ok (len z, r'))).
Proof. intros. now apply (known_cbr L). Qed.
Print Assumptions C27_exact_length_partial.
Example C27_example :
  (let! (outs, r) := run_state (read 50) seek0 (reader_init stored (s_compress twenty ++ [1; 2; 3]) (Some 20)) [Read 0] in
   let! (n, _) := compressed_bytes_read 4096 50 r in Ok (outs, n)) = Ok ([twenty], 31).
Proof. vm_compute. reflexivity. Qed.

(** ** C68 *)
Theorem C68_header_info :
  forall (K : zlib) (L : zlib_laws K) (t c z rest : bytes),
  zl_stream L z (loose_object_header t (len c) ++ c) -> ~ In BYTE_SPACE t -> ~ In NULL_BYTE t ->
  len (loose_object_header t (len c)) <= 8192 ->
  loose_object_header_info K (z ++ rest) = Ok (t, len c).
Proof. intros K L. exact (header_info_ok L). Qed.
Print Assumptions C68_header_info.
Example C68_example : loose_object_header_info stored tiny_z = Ok (str_blob_type, 5).
Proof. vm_compute. reflexivity. Qed.
