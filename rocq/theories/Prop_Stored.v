(** Properties C22-C25 of properties.jsonl for zlib streams of stored blocks.  That is what zlib
    makes of data that cannot be compressed: gitdb compresses with level 1, where zlib ends a
    block after 16383 symbols, that is a little more than 16383 bytes. *)
From Verif Require Import Py PyFacts FunModel FunSpec FunProofs ZlibModel ZlibProofs DeflateModel DeflateProofs DeflateDense CompressModel
  ReaderModel StreamSpec ReaderProofs CrossProofs CutProofs StoredBlocks StoredReads Prop_Reader IndexModel IndexSpec Prop_Deflate.

(** [stored_stream blocks]: header, the blocks with their lengths, the checksum; blocks have 1
    to 65535 bytes ([block_ok]). *)
Lemma stored_inflates blocks : Forall block_ok blocks -> is_bytes (concat blocks) -> inflates (stored_stream blocks) (concat blocks).
Proof. intros. now apply stored_stream_ok. Qed.

(** ** C22, C23: readers of known size *)
Theorem C22_stored_blocks :
  forall (blocks : list bytes) (rest : bytes) (ops : list rop), Forall block_ok blocks -> is_bytes (concat blocks) ->
  inflates (stored_stream blocks) (concat blocks) /\
  evaluates (fun f => run_stream (read f) seek0 (reader_init deflate (stored_stream blocks ++ rest) (Some (len (concat blocks)))) ops)
    (Ok (cursor (concat blocks) 0 ops)).
Proof.
  intros blocks rest ops H1 H2. split; [now apply stored_inflates|]. apply (known_exact deflate_laws); [now apply stored_stream_ok|now apply stored_dense].
Qed.
Print Assumptions C22_stored_blocks.
Theorem C23_stored_blocks_partial :
  forall (blocks : list bytes) (rest : bytes) (ops : list rop) (n : Z), Forall block_ok blocks -> is_bytes (concat blocks) -> 1 <= n ->
  exists outs o,
    evaluates (fun f => run_stream (read f) seek0 (reader_init deflate (stored_stream blocks ++ rest) (Some (len (concat blocks)))) (ops ++ [Read n]))
      (Ok (outs ++ [o])) /\
    ((position 0 ops outs < length (concat blocks))%nat -> o <> []).
Proof. intros blocks rest ops n H1 H2 Hn. apply (known_nonempty deflate_laws); [now apply stored_stream_ok|now apply stored_dense|exact Hn]. Qed.
Print Assumptions C23_stored_blocks_partial.
Example C22_stored_blocks_example :
  Forall block_ok [[1; 2; 3]; [4]; [5; 6; 7; 8]] /\ is_bytes (concat [[1; 2; 3]; [4]; [5; 6; 7; 8]]) /\
  stored_stream [[1; 2; 3]; [4]; [5; 6; 7; 8]] =
    [120; 1] ++ [0; 3; 0; 252; 255; 1; 2; 3] ++ [0; 1; 0; 254; 255; 4] ++ [1; 4; 0; 251; 255; 5; 6; 7; 8] ++ [0; 128; 0; 37] /\
  cursor (concat [[1; 2; 3]; [4]; [5; 6; 7; 8]]) 0 [Read 5; Rewind; Read 2; Read 0] = [[1; 2; 3; 4; 5]; []; [1; 2]; [3; 4; 5; 6; 7; 8]].
Proof.
  split; [apply Forall_cons; [|apply Forall_cons; [|apply Forall_cons; [|apply Forall_nil]]]; unfold block_ok; cbn; lia|]. split; [now apply bytes_check|]. split; vm_compute; reflexivity. Qed.

(** ** C24, C25: loose objects *)
(** The reads of an object, on every stream of which any 8 bytes give output: each continues
    where the last one ended, and is exact unless it crosses the end of the header buffer; then
    there are three possible lengths ([crossing_length]).  Missing in comparison with C24: that
    it is never the third; the theorems below tell when it is. *)
Theorem C24_crossing_partial :
  forall (K : zlib) (L : zlib_laws K) (t c z rest : bytes) (ns : list Z),
  zl_stream L z (loose_object_header t (len c) ++ c) -> ~ In BYTE_SPACE t -> ~ In NULL_BYTE t -> dense L z (loose_object_header t (len c) ++ c) ->
  len (loose_object_header t (len c)) <= 8192 ->
  exists outs, reads_like (Z.min (len c) (8192 - len (loose_object_header t (len c)))) c 0 ns outs /\
    evaluates (fun f => read_object (K := K) (z ++ rest) f (map Read ns)) (Ok (t, len c, outs)).
Proof. intros K L t c z rest ns Hz H1 H2 Hd Hl. exact (object_law L t c z rest Hz H1 H2 Hd ns Hl). Qed.
Print Assumptions C24_crossing_partial.
(** So read() gives the object, or the object without as many bytes as the buffer has. *)
Theorem C25_all_or_buffer_partial :
  forall (K : zlib) (L : zlib_laws K) (t c z rest : bytes),
  zl_stream L z (loose_object_header t (len c) ++ c) -> ~ In BYTE_SPACE t -> ~ In NULL_BYTE t -> dense L z (loose_object_header t (len c) ++ c) ->
  len (loose_object_header t (len c)) <= 8192 ->
  exists out, evaluates (fun f => read_object (K := K) (z ++ rest) f [Read (-1)]) (Ok (t, len c, [out])) /\
    (out = c \/ (8192 < len (loose_object_header t (len c) ++ c) /\ out = firstn (Z.to_nat (len c - (8192 - len (loose_object_header t (len c))))) c)).
Proof.
  intros K L t c z rest Hz H1 H2 Hd Hl. destruct (object_law L t c z rest Hz H1 H2 Hd [-1] Hl) as (outs & Hr & He).
  destruct outs as [|out [|o outs]]; [destruct Hr| |now destruct Hr as (_ & _ & [])].
  exists out. split; [exact He|]. destruct Hr as (Ho & Hk & _). cbn [skipn Z.to_nat] in Ho. unfold crossing_length, asked in Hk. change (-1 <? 1) with true in Hk. cbv iota in Hk.
  rewrite Z.sub_0_r in Hk. set (h := len (loose_object_header t (len c))) in *. rewrite len_app. fold h.
  destruct ((0 <? Z.min (len c) (8192 - h)) && (Z.min (len c) (8192 - h) <? 0 + len c)) eqn:E.
  - destruct Hk as [Hk|[Hk|Hk]]; [left|right|left].
    + rewrite Ho. apply firstn_all2. unfold len in Hk. lia.
    + split; [lia|]. rewrite Ho. f_equal. unfold len in *. lia.
    + rewrite Ho. apply firstn_all2. unfold len in *. lia.
  - left. rewrite Ho. apply firstn_all2. unfold len in Hk. lia.
Qed.
Print Assumptions C25_all_or_buffer_partial.

(** An object in stored blocks, the first of them longer than the header buffer. *)
Definition in_blocks (t c first : bytes) (l : list bytes) : Prop :=
  ~ In BYTE_SPACE t /\ ~ In NULL_BYTE t /\ is_bytes t /\ is_bytes c /\ len (loose_object_header t (len c)) <= 8192 /\
  Forall block_ok (first :: l) /\ 8200 <= len first /\ l <> [] /\ loose_object_header t (len c) ++ c = concat (first :: l).
(** Full statement of C24: read(n), n >= 1, returns at most n bytes.  Instead every read that
    goes beyond the first block returns the whole object, if it has at most 1 + 8192 / 5 blocks
    or so: with zlib, 26 MB. *)
Theorem C24_stored_blocks_refuted :
  forall (t c first : bytes) (l : list bytes) (rest : bytes) (n : Z), in_blocks t c first l ->
  5 * len l <= 8192 - len (loose_object_header t (len c)) ->
  len first < len (loose_object_header t (len c)) + n -> 1 <= n < len c ->
  inflates (stored_stream (first :: l)) (loose_object_header t (len c) ++ c) /\
  evaluates (fun f => read_object (K := deflate) (stored_stream (first :: l) ++ rest) f [Read n]) (Ok (t, len c, [c])).
Proof.
  intros t c first l rest n (H1 & H2 & H3 & H4 & H5 & H6 & H7 & H8 & H9) H10 H11 H12.
  split; [exact (object_stream t c first l H3 H4 H6 H9)|]. apply object_few; try assumption. unfold asked. destruct (Z.ltb_spec n 1); lia.
Qed.
Print Assumptions C24_stored_blocks_refuted.
(** Such objects meet C25. *)
Theorem C25_few_blocks_partial :
  forall (t c first : bytes) (l : list bytes) (rest : bytes) (n : Z), in_blocks t c first l ->
  5 * len l <= 8192 - len (loose_object_header t (len c)) -> n < 1 \/ len c <= n ->
  evaluates (fun f => read_object (K := deflate) (stored_stream (first :: l) ++ rest) f [Read n]) (Ok (t, len c, [c])).
Proof.
  intros t c first l rest n (H1 & H2 & H3 & H4 & H5 & H6 & H7 & H8 & H9) H10 H11.
  apply object_few; try assumption. pose proof (object_len t c first l H9) as HL.
  assert (0 < len (concat l)).
  { destruct l as [|b l]; [easy|]. inversion H6 as [|? ? ? H]. inversion H as [|? ? [Hb _] _]. cbn [concat]. rewrite len_app. pose proof (len_nonneg _ (concat l)). lia. }
  unfold asked. destruct (Z.ltb_spec n 1); lia.
Qed.
Print Assumptions C25_few_blocks_partial.
(** Full statement of C25: read() on a fresh stream returns everything.  For every object with
    more blocks than that (of at least 5 bytes for each block there is, except the last one) it
    leaves out as many bytes as the buffer has. *)
Theorem C25_many_blocks_refuted :
  forall (t c first : bytes) (l : list bytes) (rest : bytes) (n : Z), in_blocks t c first l ->
  Forall (fun b => 5 * len (first :: l) <= len b) (removelast (first :: l)) -> 8192 - len (loose_object_header t (len c)) < 5 * (len (first :: l) - 3) ->
  n < 1 \/ len c <= n ->
  inflates (stored_stream (first :: l)) (loose_object_header t (len c) ++ c) /\
  evaluates (fun f => read_object (K := deflate) (stored_stream (first :: l) ++ rest) f [Read n])
    (Ok (t, len c, [firstn (Z.to_nat (len c - (8192 - len (loose_object_header t (len c))))) c])).
Proof.
  intros t c first l rest n (H1 & H2 & H3 & H4 & H5 & H6 & H7 & H8 & H9) H10 H11 H12.
  split; [exact (object_stream t c first l H3 H4 H6 H9)|]. now apply object_many.
Qed.
Print Assumptions C25_many_blocks_refuted.

(** Blobs of [k] + 1 blocks of 16383 bytes *)
Definition sample_size (k : Z) : Z := 16383 * (k + 1) - 14.
Definition sample_first (k : Z) : bytes := loose_object_header str_blob_type (sample_size k) ++ repeat 7 (Z.to_nat 16369).
Definition sample_more (k : Z) : list bytes := repeat (repeat 7 (Z.to_nat 16383)) (Z.to_nat k).
Definition sample (k : Z) : bytes := repeat 7 (Z.to_nat 16369) ++ concat (sample_more k).
Lemma len_repeat {A} (x : A) n : len (repeat x n) = Z.of_nat n.
Proof. unfold len. now rewrite repeat_length. Qed.
Lemma len_concat_repeat (x : bytes) n : len (concat (repeat x n)) = Z.of_nat n * len x.
Proof. induction n as [|n IH]; [reflexivity|]. cbn [repeat concat]. rewrite len_app, IH. lia. Qed.
Lemma sample_blocks k : 1 <= k -> len (loose_object_header str_blob_type (sample_size k)) = 14 -> len (sample k) = sample_size k /\ in_blocks str_blob_type (sample k) (sample_first k) (sample_more k).
Proof.
  intros Hk Hh. assert (L16 : len (repeat 7 (Z.to_nat 16383)) = 16383) by (rewrite len_repeat; lia).
  assert (Hb7 : forall m, is_bytes (repeat 7 m)) by (intros m; apply Forall_forall; intros x Hx; apply repeat_spec in Hx as ->; unfold is_byte; lia).
  assert (L : len (sample k) = sample_size k).
  { unfold sample, sample_more, sample_size. rewrite len_app, len_concat_repeat, L16, len_repeat. lia. }
  assert (Lf : len (sample_first k) = 16383) by (unfold sample_first; rewrite len_app, Hh, len_repeat; lia).
  split; [exact L|]. unfold in_blocks. rewrite L, Hh, Lf. split; [|split; [|split; [now apply bytes_check|split; [|split; [lia|split; [|split; [lia|split]]]]]]].
  - intros H. vm_compute in H. now repeat destruct H as [H|H].
  - intros H. vm_compute in H. now repeat destruct H as [H|H].
  - unfold sample. apply Forall_app. split; [apply Hb7|]. apply Forall_concat, Forall_forall. intros x Hx. apply repeat_spec in Hx as ->. apply Hb7.
  - apply Forall_cons; [unfold block_ok; rewrite Lf; lia|]. apply Forall_forall. intros x Hx. apply repeat_spec in Hx as ->. unfold block_ok. rewrite L16. lia.
  - unfold sample_more. destruct (Z.to_nat k) eqn:E; [lia|]. discriminate.
  - cbn [concat]. unfold sample_first, sample. now rewrite <- app_assoc.
Qed.
(** Of 620 blocks, 10 MB, read(20000) returns everything; of 1701 blocks, 27.9 MB, read() leaves
    out 8178 bytes. *)
Example C24_stored_blocks_example :
  len (sample 619) = 10157446 /\ in_blocks str_blob_type (sample 619) (sample_first 619) (sample_more 619) /\
  5 * len (sample_more 619) <= 8192 - 14 /\ len (sample_first 619) < 14 + 20000.
Proof.
  destruct (sample_blocks 619 ltac:(lia) ltac:(vm_compute; reflexivity)) as [H1 H2]. split; [exact H1|]. split; [exact H2|].
  unfold sample_more, sample_first. rewrite len_repeat, len_app, len_repeat. split; [lia|]. replace (len (loose_object_header _ _)) with 14 by (vm_compute; reflexivity). lia.
Qed.
Example C25_many_blocks_example :
  len (sample 1700) = 27867469 /\ in_blocks str_blob_type (sample 1700) (sample_first 1700) (sample_more 1700) /\
  Forall (fun b => 5 * len (sample_first 1700 :: sample_more 1700) <= len b) (removelast (sample_first 1700 :: sample_more 1700)) /\
  8192 - 14 < 5 * (len (sample_first 1700 :: sample_more 1700) - 3).
Proof.
  destruct (sample_blocks 1700 ltac:(lia) ltac:(vm_compute; reflexivity)) as [H1 H2]. split; [exact H1|]. split; [exact H2|].
  assert (L : len (sample_first 1700 :: sample_more 1700) = 1701) by (unfold sample_more; rewrite len_cons, len_repeat; lia). rewrite L. split; [|lia].
  apply Forall_forall. intros x Hx. assert (In x (sample_first 1700 :: sample_more 1700)) as [<-|Hin].
  { assert (forall (A : Type) (y : A) m, In y (removelast m) -> In y m) as Hr.
    { intros A y m. induction m as [|z [|w m] IH]; [easy|easy|]. intros [->|H]; [now left|right; now apply IH]. }
    now apply Hr. }
  - unfold sample_first. rewrite len_app, len_repeat. replace (len (loose_object_header _ _)) with 14 by (vm_compute; reflexivity). lia.
  - apply repeat_spec in Hin as ->. rewrite len_repeat. lia.
Qed.
(** [crossing_length]'s second case occurs: C25_many_blocks_refuted; so does its third: C24_stored_blocks_refuted. *)
