(** C100 and the cases in which C70 holds: what ends, whatever bytes the files have. *)
From Coq Require Import ZifyBool ZifyNat.
From Verif Require Import Py PyFacts FunModel FunSpec ZlibModel ZlibProofs ReaderModel StreamSpec DeflateModel IndexModel IndexSpec PackModel PackSpec StopSpec StopProofs StopZlib StopPack Prop_Reader Prop_Index Prop_Pack.

(** ** C100 *)
(** Opening an object file and reading it. *)
Theorem C100_object_file :
  forall (K : zlib) (ok : zs K -> Prop) (m : bytes) (ops : list rop), inflater K ok -> is_bytes m ->
  stops (fun f => let! (t, n, r) := reader_new K f m in let! outs := run_stream (read f) (fun r => seek r 0 0) r ops in Ok (t, n, outs)).
Proof. intros K ok m ops HK Hm. exact (ends_stops _ _ (object_ends K ok HK m ops Hm)). Qed.
Print Assumptions C100_object_file.

(** The same for readers that are given the size of the content, as those for entries of packs;
    also with a wrong size. *)
Theorem C100_given_size :
  forall (K : zlib) (ok : zs K -> Prop) (m : bytes) (size : Z) (ops : list rop), inflater K ok -> is_bytes m ->
  stops (fun f => run_stream (read f) (fun r => seek r 0 0) (reader_init K m (Some size)) ops).
Proof. intros K ok m size ops HK Hm. exact (ends_stops _ _ (run_ends K ok HK ops _ (fine_init K ok HK m (Some size) Hm))). Qed.
Print Assumptions C100_given_size.

(** The header alone. *)
Theorem C100_header :
  forall (K : zlib) (ok : zs K -> Prop) (m : bytes), inflater K ok -> is_bytes m -> loose_object_header_info K m <> Diverge.
Proof. intros K ok m HK Hm. exact (header_info_ends K ok HK m Hm). Qed.
Print Assumptions C100_header.

(** The decoder of DeflateModel.v is such a zlib.  The file of the object abc, its checksum
    damaged: an error.  Cut off: the size of the header, and less content.  A size in the
    header that is too large: the bytes there are. *)
Definition stop_file : bytes := [120; 1] ++ [1; 10; 0; 245; 255] ++ [98; 108; 111; 98; 32; 51; 0; 97; 98; 99] ++ adler_bytes (adler [98; 108; 111; 98; 32; 51; 0; 97; 98; 99]).
Definition stop_run (m : bytes) (f : nat) : res (bytes * Z * list bytes) :=
  let! (t, n, r) := reader_new deflate f m in
  let! outs := run_stream (read f) (fun r => seek r 0 0) r [Read 2; Rewind; Read (-1)] in Ok (t, n, outs).
Example C100_example :
  inflater deflate inflate_fine /\ inflater stored (fun _ => True) /\ is_bytes stop_file /\
  stop_run stop_file 9 = Ok (str_blob_type, 3, [[97; 98]; []; [97; 98; 99]]) /\
  stop_run (slice_to stop_file (-1) ++ [0]) 9 = Raise ZlibError /\
  stop_run (slice_to stop_file (-5)) 9 = Ok (str_blob_type, 3, [[97; 98]; []; [97; 98]]).
Proof.
  split; [exact deflate_inflater|]. split; [exact stored_inflater|]. split; [apply bytes_check; reflexivity|].
  split; [vm_compute; reflexivity|]. split; vm_compute; reflexivity.
Qed.

(** ** C70, where it holds *)
(** Full statement: every query by sha terminates.  It is false (C70_ref_cycle_refuted).  What
    is true: a query ends exactly if the chain of the object does, whatever else is in the pack;
    nothing is asked of the data of the entries. *)
Theorem C70_ends_iff_partial :
  forall (K : zlib) (ok : zs K -> Prop) (v : Z) (shas : list bytes) (crcs offs : list Z) (idx : bytes) (ix : pidx) (pack sha : bytes),
  inflater K ok -> index_file v shas crcs offs idx -> strictly_sorted_shas shas -> index_open idx = Ok ix -> is_bytes pack -> is_bytes sha ->
  let its_chain_ends := forall off, found_at shas offs sha off -> chain_ends pack shas offs false off in
  (stops (fun f => entity_collect_streams K f (mk_entity ix pack) sha) <-> its_chain_ends) /\
  (stops (fun f => entity_info K f (mk_entity ix pack) sha) <-> its_chain_ends) /\
  (stops (fun f => entity_stream K f (mk_entity ix pack) sha) <-> its_chain_ends).
Proof.
  intros K ok v shas crcs offs idx ix pack sha HK Hi Hs Ho Hp Hsha. cbn zeta.
  assert (W : forall A (r : nat -> res A), stops r -> exists f, r f <> Diverge) by (intros A r (w & W1 & f0 & W2); exists f0; now rewrite W2).
  split; [|split]; (split; [intros H; apply W in H as (f & H)|intros H; eapply ends_stops]).
  - exact (entity_collect_back K ok HK pack Hp v shas crcs offs idx ix Hi Hs Ho f sha H).
  - exact (entity_collect_ends K ok HK (fun d => d) pack Hp v shas crcs offs idx ix Hi Hs Ho sha Hsha H).
  - exact (entity_info_back K ok HK (fun d => d) pack Hp v shas crcs offs idx ix Hi Hs Ho f sha H).
  - exact (entity_info_ends K ok HK (fun d => d) pack Hp v shas crcs offs idx ix Hi Hs Ho sha Hsha H).
  - exact (entity_stream_back K ok HK (fun d => d) pack Hp v shas crcs offs idx ix Hi Hs Ho f sha H).
  - exact (entity_stream_ends K ok HK (fun d => d) pack Hp v shas crcs offs idx ix Hi Hs Ho sha Hsha H).
Qed.
Print Assumptions C70_ends_iff_partial.

(** Then reading from the stream and checking the object end, too. *)
Theorem C70_use_ends_partial :
  forall (K : zlib) (ok : zs K -> Prop) (sha1 : bytes -> bytes) (pagesize v : Z) (shas : list bytes) (crcs offs : list Z) (idx : bytes) (ix : pidx) (pack sha : bytes) (ops : list rop),
  inflater K ok -> 1 <= pagesize -> index_file v shas crcs offs idx -> strictly_sorted_shas shas -> index_open idx = Ok ix -> is_bytes pack -> is_bytes sha ->
  (forall off, found_at shas offs sha off -> chain_ends pack shas offs false off) ->
  stops (fun f => let! o := entity_stream K f (mk_entity ix pack) sha in run_stream (os_read f) os_seek0 o ops) /\
  stops (fun f => is_valid_sha K sha1 pagesize f (mk_entity ix pack) sha).
Proof.
  intros K ok sha1 pagesize v shas crcs offs idx ix pack sha ops HK Hpage Hi Hs Ho Hp Hsha H. split; eapply ends_stops.
  - exact (entity_run_ends K ok HK (fun d => d) pack Hp v shas crcs offs idx ix Hi Hs Ho sha ops Hsha H).
  - exact (valid_sha_ends K ok HK sha1 pagesize Hpage pack Hp v shas crcs offs idx ix Hi Hs Ho sha Hsha H).
Qed.
Print Assumptions C70_use_ends_partial.

(** In the pack of Prop_Pack.v the chain of one delta ends, that of another does not. *)
Lemma d_found_inv s p : found_at d_shas d_offs s p -> In (s, p) (combine d_shas d_offs).
Proof.
  intros (i & H1 & H2 & H3). apply index_ok_split in H1 as (a & b & E & L1); [|exact H3]. apply index_ok_split in H2 as (a' & b' & E' & L2); [|exact H3].
  rewrite E, E'. assert (length a = length a') as L by (unfold len in *; lia). clear - L. revert a' L. induction a as [|x a IH]; intros [|y a'] L; try discriminate L; [now left|]. right. apply IH. now injection L.
Qed.
Lemma d_leaf after off n o : pack_object_at stored d_pack off = Ok (n, o) -> po_delta o = NoDelta -> chain_ends d_pack d_shas d_offs after off.
Proof.
  intros E Ed. constructor.
  - intros d H. destruct (ofs_object stored _ _ _ H) as (n' & o' & E' & Ed' & _). congruence.
  - intros s p H H2. destruct (ref_object stored _ _ _ H) as (n' & o' & E' & Ed' & _); [|congruence]. apply d_found_inv in H2. cbn in H2. repeat (destruct H2 as [H2|H2]; [now injection H2 as <- <-|]). destruct H2.
Qed.
Definition delta_at (off : Z) : option delta_info := match pack_object_at stored d_pack off with Ok (_, o) => Some (po_delta o) | _ => None end.
Lemma delta_168 : delta_at 168 = Some (RefDelta s_base).
Proof. vm_compute. reflexivity. Qed.
Lemma delta_50 : delta_at 50 = Some NoDelta.
Proof. vm_compute. reflexivity. Qed.
Example C70_ends_example :
  (forall off, found_at d_shas d_offs s_good off -> chain_ends d_pack d_shas d_offs false off) /\
  found_at d_shas d_offs s_good 168 /\
  ~ (forall off, found_at d_shas d_offs s_self off -> chain_ends d_pack d_shas d_offs false off) /\ is_bytes d_pack.
Proof.
  assert (Hb : is_bytes d_pack) by (apply bytes_check; reflexivity).
  destruct d_index as (I1 & I2 & I3 & I4). split; [|split; [apply (d_found _ _ 5); reflexivity|split; [|exact Hb]]].
  - intros off H. apply d_found_inv in H. assert (off = 168) as -> by (cbn in H; repeat (destruct H as [H|H]; [injection H; intros; subst; (reflexivity || discriminate)|]); destruct H).
    constructor.
    + intros d Hd. destruct (ofs_object stored _ _ _ Hd) as (n & o & E & Ed & _). exfalso. pose proof delta_168 as D. unfold delta_at in D. rewrite E in D. congruence.
    + intros s p Hr Hq. assert (len s = 20) as Hl by (apply d_found_inv in Hq; cbn in Hq; repeat (destruct Hq as [Hq|Hq]; [now injection Hq as <- <-|]); destruct Hq).
      destruct (ref_object stored _ _ _ Hr Hl) as (n & o & E & Ed & _). assert (s = s_base) as ->.
      { pose proof delta_168 as D. unfold delta_at in D. rewrite E in D. congruence. }
      apply d_found_inv in Hq. assert (p = 50) as -> by (cbn in Hq; repeat (destruct Hq as [Hq|Hq]; [injection Hq; intros; subst; (reflexivity || discriminate)|]); destruct Hq).
      pose proof delta_50 as D. unfold delta_at in D. destruct (pack_object_at stored d_pack 50) as [[m o']| |] eqn:E50; [|discriminate D|discriminate D]. apply (d_leaf true 50 m o' E50). congruence.
  - intros H. destruct (C70_ref_cycle_refuted stored stored_laws 2 d_shas (repeat 0 6) d_offs d_idx d_ix d_pack s_self 130 (e_ref s_self) I1 I2 I3 I4 ltac:(apply (d_found _ _ 2); reflexivity) d_at_self eq_refl) as (D & _).
    assert (is_bytes s_self) as Hs by (apply bytes_check; reflexivity).
    destruct (proj2 (proj1 (C70_ends_iff_partial stored (fun _ => True) 2 d_shas (repeat 0 6) d_offs d_idx d_ix d_pack s_self stored_inflater I1 I2 I3 Hb Hs)) H) as (w & W1 & f0 & W2).
    apply W1. rewrite <- (W2 f0 (le_n _)). exact (D f0).
Qed.
