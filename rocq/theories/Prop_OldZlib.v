(** Property C110 of properties.jsonl: DecompressMemMapReader with zlib 1.2.5 or 1.2.7, the
    first branch at gitdb/stream.py:297 (OldZlibModel.v). *)
From Coq Require Import ZifyBool ZifyNat.
From Verif Require Import Py PyFacts FunModel FunSpec ZlibModel ZlibProofs StreamSpec ReaderModel ReaderProofs PackModel PackSpec PackProofs OldZlibModel OldZlibProofs Prop_Reader Prop_Index Prop_Pack.
Ltac Zify.zify_post_hook ::= Z.div_mod_to_equations.


(** What is read: the same as with every other zlib version, byte for byte and error for
    error, for any map, any size and any sequence of reads and rewinds (and any zlib). *)
Theorem C110_same_content :
  forall (K : zlib) (m : bytes) (size : option Z) (ops : list rop) (fuel : nat),
  run_stream (read_old fuel) seek0 (reader_init K m size) ops = run_stream (read fuel) seek0 (reader_init K m size) ops.
Proof. intros K m size ops fuel. exact (stream_same fuel ops (reader_init K m size) 0). Qed.
Print Assumptions C110_same_content.
Example C110_example_content :
  run_stream (read_old 50) seek0 (reader_init stored (s_compress twenty ++ [1; 2; 3]) (Some 20)) [Read 7; Rewind; Read 0] = Ok [repeat 5 7; []; twenty].
Proof. vm_compute. reflexivity. Qed.

(** DecompressMemMapReader.new(): the same type, size and errors. *)
Theorem C110_same_header :
  forall (K : zlib) (m : bytes) (fuel : nat),
  (let! (t, s, _) := reader_new_old (K := K) fuel m in Ok (t, s)) = (let! (t, s, _) := reader_new K fuel m in Ok (t, s)).
Proof.
  intros K m fuel. pose proof (new_same (K := K) fuel m) as H. 
  destruct (reader_new_old (K := K) fuel m) as [[[t s] r]| |], (reader_new K fuel m) as [[[t' s'] r']| |]; try contradiction; cbn [bind].
  - now destruct H as (-> & -> & _).
  - now rewrite H.
  - reflexivity.
Qed.
Print Assumptions C110_same_header.
Example C110_example_header :
  (let! (t, s, _) := reader_new_old (K := stored) 50 (s_compress (loose_object_header str_blob_type 5 ++ [1; 2; 3; 4; 5])) in Ok (t, s))
  = Ok (str_blob_type, 5).
Proof. vm_compute. reflexivity. Qed.

(** Full statement: once a non-empty object has been read completely,
    compressed_bytes_read() is the length of the zlib stream.  False: 20 bytes read at once,
    three bytes after the stream; the length is 31, the result is 34. *)
Theorem C110_wrong_length_refuted :
  zl_stream stored_laws (s_compress twenty) twenty /\ len (s_compress twenty) = 31 /\
  evaluates (fun f =>
      let! (outs, r) := run_state (read_old f) seek0 (reader_init stored (s_compress twenty ++ [1; 2; 3]) (Some 20)) [Read 0] in
      let! (n, _) := compressed_bytes_read_old 4096 f r in Ok (outs, n))
    (Ok ([twenty], 34)).
Proof.
  split; [apply s_compress_stream, bytes_check; vm_compute; reflexivity|]. split; [reflexivity|].
  apply (read_then_cbr_old _ _ _ 50). vm_compute. reflexivity.
Qed.
Print Assumptions C110_wrong_length_refuted.
(** It is so for every stream with something behind it, whenever every read asked for all
    that was left: the result is larger than the length of the stream. *)
Theorem C110_every_length_refuted :
  forall (K : zlib) (L : zlib_laws K) (z d rest : bytes) (pagesize : Z) (ops : list rop),
  zl_stream L z d -> d <> [] -> 0 < pagesize -> rest <> [] ->
  Forall (fun op => match op with Read n => n < 1 \/ len d <= n | Rewind => True end) ops ->
  exists outs r,
    evaluates (fun f => run_state (read_old f) seek0 (reader_init K (z ++ rest) (Some (len d))) ops) (Ok (outs, r)) /\
    (position 0 ops outs = length d -> exists n r',
     len z < n <= len z + len rest /\ evaluates (fun f => compressed_bytes_read_old pagesize f r) (Ok (n, r'))).
Proof.
  intros K L z d rest pagesize ops Hz Hd Hp Hr Hall.
  destruct (known_cbr_old L z d rest pagesize ops Hz Hd Hp) as (outs & r & H1 & H2 & H3).
  exists outs, r. split; [exact H1|]. intros E. destruct (H2 E) as (u & r' & H4 & (q & H5) & H6 & _).
  exists (len z + len u), r'. split; [|exact H4]. specialize (H6 Hr (H3 Hall)).
  assert (0 < len u) by (destruct u as [|x u]; [easy|rewrite len_cons; pose proof (len_nonneg _ u); lia]).
  apply (f_equal len) in H5. rewrite len_app in H5. pose proof (len_nonneg _ q). unfold bytes in *. lia.
Qed.
Print Assumptions C110_every_length_refuted.
Example C110_example_every_length :
  Forall (fun op => match op with Read n => n < 1 \/ len twenty <= n | Rewind => True end) [Read 0; Rewind; Read 20] /\
  match run_state (read_old 50) seek0 (reader_init stored (s_compress twenty ++ [1; 2; 3]) (Some 20)) [Read 0; Rewind; Read 20] with
  | Ok (outs, r) => position 0 [Read 0; Rewind; Read 20] outs = 20%nat
  | _ => False
  end.
Proof. split; [repeat constructor; vm_compute; intuition discriminate|vm_compute; reflexivity]. Qed.
(** It holds if nothing follows the stream, or if the decompressor's unconsumed_tail is not
    empty in the end, which is where the other branch is wrong (C27).  Missing: see above. *)
Theorem C110_exact_length_partial :
  forall (K : zlib) (L : zlib_laws K) (z d rest : bytes) (pagesize : Z) (ops : list rop),
  zl_stream L z d -> d <> [] -> 0 < pagesize ->
  exists outs r,
    evaluates (fun f => run_state (read_old f) seek0 (reader_init K (z ++ rest) (Some (len d))) ops) (Ok (outs, r)) /\
    (position 0 ops outs = length d -> rest = [] \/ zs_tail K (r_zip r) <> [] ->
     exists r', evaluates (fun f => compressed_bytes_read_old pagesize f r) (Ok (len z, r'))).
Proof.
  intros K L z d rest pagesize ops Hz Hd Hp.
  destruct (known_cbr_old L z d rest pagesize ops Hz Hd Hp) as (outs & r & H1 & H2 & _).
  exists outs, r. split; [exact H1|]. intros E Hcase. destruct (H2 E) as (u & r' & H4 & (q & H5) & _ & H6).
  assert (u = []) as ->.
  { destruct Hcase as [-> |Ht]; [|now apply H6]. symmetry in H5. now apply app_eq_nil in H5. }
  exists r'. now rewrite len_nil, Z.add_0_r in H4.
Qed.
Print Assumptions C110_exact_length_partial.
Example C110_example_exact :
  match run_state (read_old 50) seek0 (reader_init stored (s_compress twenty ++ [1; 2; 3]) (Some 20)) (repeat (Read 1) 20) with
  | Ok (outs, r) => position 0 (repeat (Read 1) 20) outs = 20%nat /\ zs_tail stored (r_zip r) = [1; 2; 3] /\
      match compressed_bytes_read_old 4096 50 r with Ok (n, _) => n = 31 | _ => False end
  | _ => False
  end.
Proof. vm_compute. repeat split; reflexivity. Qed.
Example C110_example_last :
  (let! (outs, r) := run_state (read_old 50) seek0 (reader_init stored (s_compress twenty) (Some 20)) [Read 0] in
   let! (n, _) := compressed_bytes_read_old 4096 50 r in Ok (outs, n)) = Ok ([twenty], 31).
Proof. vm_compute. reflexivity. Qed.

(** So no pack of two or more objects can be walked (PackFile.stream_iter, which works with
    other zlib versions, C28_iterate_any_pack_partial): if the first object is not empty and
    is copied in one piece, the offset of the second one comes out too large. *)
Theorem C110_walk_refuted :
  forall (K : zlib) (L : zlib_laws K) (sha1 : bytes -> bytes) (pagesize : Z) (e : pentry) (e2 : Z * pentry) (es : list (Z * pentry)) (pack : bytes),
  (forall d, len (sha1 d) = 20) -> 0 < pagesize ->
  pack_file L sha1 ((12, e) :: e2 :: es) pack -> pack_entry_readable L pagesize e ->
  ~ exists os, evaluates (fun f => stream_iter_old (K := K) pagesize f pack 0) (Ok os) /\ Forall2 yields ((12, e) :: e2 :: es) os.
Proof.
  intros K L sha1 pagesize e e2 es pack Hsha Hps Hp He (os & H1 & H2).
  exact (iter_old L sha1 Hsha pagesize Hps e e2 es pack Hp He os H1 H2).
Qed.
Print Assumptions C110_walk_refuted.
(** The pack of Prop_Pack.v: a blob and a tree; the offset of the tree comes out as
    37 instead of 30. *)
Example C110_walk_example :
  let e := mk_pentry 3 NoDelta ex_hi (s_compress ex_hi) in
  let e2 := mk_pentry 2 NoDelta ex_tree (s_compress ex_tree) in
  pack_file stored_laws toy_sha [(12, e); (30, e2)] ex_pk /\ pack_entry_readable stored_laws 1 e /\
  bind (stream_iter stored 1 50 ex_pk 0) (fun os => Ok (map po_offset os)) = Ok [12; 30] /\
  bind (iter_step_old (K := stored) 1 50 ex_pk 12) (fun p => Ok (po_offset (fst p), snd p)) = Ok (12, 37).
Proof.
  intros e e2. split; [|split; [|split]]; [| |vm_compute; reflexivity|vm_compute; reflexivity].
  - exists ([54] ++ s_compress ex_hi ++ [38] ++ s_compress ex_tree ++ []), 48. split; [|split; [reflexivity|vm_compute; reflexivity]].
    apply (es_cons stored_laws 12 e [54] (s_compress ex_hi)).
    + apply eb_full; [cbn; tauto|apply (ph_short 3 6); lia|apply s_compress_stream, bytes_check; vm_compute; reflexivity].
    + replace (12 + len [54] + len (s_compress ex_hi)) with 30 by (vm_compute; reflexivity).
      apply (es_cons stored_laws 30 e2 [38] (s_compress ex_tree)).
      * apply eb_full; [cbn; tauto|apply (ph_short 2 6); lia|apply s_compress_stream, bytes_check; vm_compute; reflexivity].
      * replace 48 with (30 + len [38] + len (s_compress ex_tree)) by (vm_compute; reflexivity). constructor.
  - split; [left; apply s_compress_dense, bytes_check; vm_compute; reflexivity|]. split; [discriminate|vm_compute; discriminate].
Qed.
