(** A first read that gives nothing although there is content (C23). *)
From Coq Require Import ZifyBool ZifyNat.
From Verif Require Import Py PyFacts FunModel FunSpec FunProofs ZlibModel ReaderModel StreamSpec ReaderProofs.

Lemma slice_front (m : bytes) k : 0 <= k -> slice m 0 k = firstn (Z.to_nat k) m.
Proof. intros Hk. rewrite slice_spec by lia. now rewrite Z.sub_0_r. Qed.
Lemma window_front size : window 0 0 [] size = (0, Z.max 8 size).
Proof. unfold window. cbn [len length Z.of_nat Z.eqb negb]. rewrite Z.add_0_l, Z.sub_0_r. destruct (size <? 8) eqn:E; f_equal; lia. Qed.
Lemma read_s_step {K} f s (r : reader K) size n : r_buf r = None -> (if size <? 1 then s - r_br r else Z.min size (s - r_br r)) = n -> n <> 0 ->
  read_s (S f) s r size = read_rest f s r [] n.
Proof. intros Hb Hn H0. cbn [read_s]. rewrite Hn, Hb. now replace (n =? 0) with false by lia. Qed.
Lemma read_rest_none {K} f s (r r1 : reader K) size : inflate_some r size = Ok ([], r1) -> read_rest (S f) s r [] size = Ok ([], r1).
Proof. intros H. cbn [read_rest]. now rewrite H. Qed.
Lemma first_read_empty (K : zlib) (m : bytes) (s n : Z) st : zs_tail K (zs_new K) = [] ->
  let size := if n <? 1 then s else Z.min n s in
  1 <= size -> zs_decompress K (zs_new K) (firstn (Z.to_nat (Z.max 8 size)) m) size = Ok ([], st) ->
  evaluates (fun f => run_stream (read f) (fun r => seek r 0 0) (reader_init K m (Some s)) [Read n]) (Ok [[]]).
Proof.
  intros Ht size Hs Hz. exists 2%nat. intros f Hf. destruct f as [|[|f]]; [lia|lia|]. set (r := reader_init K m (Some s)).
  assert (Hi : exists r1, inflate_some r size = Ok ([], r1)).
  { unfold inflate_some. change (window (r_cws r) (r_cwe r) (zs_tail K (r_zip r)) size) with (window 0 0 (zs_tail K (zs_new K)) size). rewrite Ht, window_front. cbn beta iota zeta.
    change (r_m r) with m. change (r_zip r) with (zs_new K). rewrite slice_front by lia. replace (size <? 0) with false by lia. rewrite Hz. cbn [bind]. eexists. reflexivity. }
  destruct Hi as (r1 & Hi).
  assert (Hr : read (S (S f)) r n = Ok ([], r1)).
  { unfold read, get_s. change (r_s r) with (Some s). cbn [bind]. rewrite (read_s_step (S f) s r n size); [|reflexivity|unfold size; change (r_br r) with 0; now rewrite Z.sub_0_r|lia].
    now apply read_rest_none. }
  cbn [run_stream]. now rewrite Hr.
Qed.
