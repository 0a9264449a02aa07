(** Property C84 of properties.jsonl: storing through an output stream. *)
From Verif Require Import Py PyFacts FunModel FunSpec FunProofs IndexSpec ZlibModel ZlibProofs ReaderModel StreamSpec PackSpec
  OsModel LooseModel LooseSpec LooseTop OstreamModel OstreamSpec OstreamProofs Prop_Index Prop_Pack Prop_Loose.

(** ** C84 *)
(** An object stored through a new Sha1Writer or ZippedStoreShaWriter: store makes no system
    call at all, the name is the hash of header and content, the writer has digested exactly
    these, and the value of a ZippedStoreShaWriter is a zlib stream of them. *)
Theorem C84_store_through_stream :
  forall (K : zlib) (L : zlib_laws K) (sha1 : bytes -> bytes) (pagesize : Z) (R : Type) (rd : R -> Z -> res (bytes * R)) (content : R -> bytes),
  (forall d, sha_ok (sha1 d)) -> 0 < pagesize -> stream_reader rd content ->
  forall (fuel : nat) (db : ldb) (w : writer K) (i : istream R),
  unused w -> proper content i -> (length (content (is_stream i)) < fuel)%nat ->
  exists sha f r' w', name_of sha1 (object_of content i) sha /\ loose_form (is_type i) (content (is_stream i)) f /\
    content r' = [] /\ digested w' = Some f /\
    (forall seen zip buf, w = WZip seen zip buf -> exists z, w_zip_value K w' = ret z /\ zl_stream L z f) /\
    db_store K sha1 pagesize rd fuel (mk_wdb db (Some w)) i = ret (mk_istream (Some sha) (is_type i) (is_size i) r', mk_wdb db (Some w')).
Proof. intros K L sha1 pagesize R rd content Hsha Hpage HR. exact (single_store sha1 Hsha pagesize Hpage rd content HR L). Qed.
Print Assumptions C84_store_through_stream.
(** With a sha the stream is written as it is. *)
Theorem C84_preset_sha :
  forall (K : zlib) (sha1 : bytes -> bytes) (pagesize : Z) (R : Type) (rd : R -> Z -> res (bytes * R)) (content : R -> bytes),
  0 < pagesize -> stream_reader rd content ->
  forall (fuel : nat) (db : ldb) (w : writer K) (seen : bytes) (i : istream R) (sha : bytes),
  is_binsha i = Some sha -> sha_ok sha -> len (content (is_stream i)) <= maxsize -> (length (content (is_stream i)) < fuel)%nat ->
  digested w = Some seen ->
  exists r' w', content r' = [] /\ digested w' = Some (seen ++ content (is_stream i)) /\
    db_store K sha1 pagesize rd fuel (mk_wdb db (Some w)) i = ret (mk_istream (Some sha) (is_type i) (is_size i) r', mk_wdb db (Some w')).
Proof. intros K sha1 pagesize R rd content Hpage HR. exact (raw_store sha1 pagesize Hpage rd content HR). Qed.
Print Assumptions C84_preset_sha.
(** Full statement: every object stored while a stream is set is given its own name.  False:
    a writer that stays set goes on digesting, so the n-th object gets the hash of the first
    n objects together. *)
Theorem C84_reused_writer_names :
  forall (K : zlib) (sha1 : bytes -> bytes) (pagesize : Z) (R : Type) (rd : R -> Z -> res (bytes * R)) (content : R -> bytes),
  (forall d, sha_ok (sha1 d)) -> 0 < pagesize -> stream_reader rd content ->
  forall (fuel : nat) (db : ldb) (w : writer K) (l : list (istream R)),
  unused w -> Forall (proper content) l -> Forall (fun i => length (content (is_stream i)) < fuel)%nat l ->
  exists outs w' fs, Forall2 (fun i f => loose_form (is_type i) (content (is_stream i)) f) l fs /\
    map is_binsha outs = map (fun n => Some (sha1 (concat (firstn n fs)))) (seq 1 (length l)) /\
    digested w' = Some (concat fs) /\ store_each sha1 pagesize rd fuel (mk_wdb db (Some w)) l = ret (outs, mk_wdb db (Some w')).
Proof. intros K sha1 pagesize R rd content Hsha Hpage HR. exact (several_stores sha1 Hsha pagesize Hpage rd content HR). Qed.
Print Assumptions C84_reused_writer_names.
Theorem C84_reused_writer_refuted :
  exists sha2 i1 i2 d, store_each toy_sha 1 file_read 20 (mk_wdb ex_db (Some (@WSha stored []))) [ex_i1; ex_i2] = ret ([i1; i2], d) /\
    is_binsha i2 = Some sha2 /\ proper (fun r => r) ex_i2 /\ ~ name_of toy_sha (object_of (fun r => r) ex_i2) sha2.
Proof.
  exists (repeat 22 20), (mk_istream (Some ex_n1) str_blob_type 6 []), (mk_istream (Some (repeat 22 20)) str_tree_type 2 []).
  exists (mk_wdb ex_db (Some (@WSha stored [98; 108; 111; 98; 32; 54; 0; 104; 105; 32; 121; 111; 117; 116; 114; 101; 101; 32; 50; 0; 7; 8]))). split; [by_vm|]. split; [reflexivity|]. split; [apply ex_proper|].
  intros H. apply name_form in H. vm_compute in H. discriminate.
Qed.
Print Assumptions C84_reused_writer_refuted.
(** A FlexibleSha1Writer can be set, but nothing can be stored: its write method returns None. *)
Theorem C84_flexible_writer_refuted :
  forall (K : zlib) (sha1 : bytes -> bytes) (pagesize : Z) (R : Type) (rd : R -> Z -> res (bytes * R))
    (fuel : nat) (d : wdb K) (i : istream R) (seen passed : bytes), is_binsha i = None ->
  exists old d', set_ostream d (Some (WFlex seen passed)) = (Ok old, d') /\ db_store K sha1 pagesize rd fuel d' i = throw TypeError.
Proof.
  intros K sha1 pagesize R rd fuel d i seen passed Hi. exists (wd_out d), (mk_wdb (wd_db d) (Some (WFlex seen passed))).
  split; [reflexivity|]. exact (store_flex sha1 pagesize rd fuel (wd_db d) seen passed i Hi).
Qed.
Print Assumptions C84_flexible_writer_refuted.
(** set_ostream gives the stream back that was set and keeps the new one; a writer without a
    sha is refused and changes nothing. *)
Theorem C84_set_ostream : forall (K : zlib) (d : wdb K) (stream : option (writer K)) x d', set_ostream d stream = (x, d') -> wd_db d' = wd_db d /\
  match stream with
  | None | Some (WSha _) | Some (WZip _ _ _) | Some (WFlex _ _) | Some (WFDC _ _ _) => x = Ok (ostream d) /\ ostream d' = stream
  | Some (WFD _ _) => x = Raise TypeError /\ ostream d' = ostream d
  end.
Proof. intros K d stream x d' H. destruct stream as [[]|]; injection H as <- <-; easy. Qed.
Print Assumptions C84_set_ostream.
Example C84_example :
  (proper (fun r => r) ex_i1 /\ unused (@WZip stored [] (zc_new stored 1) [])) /\
  (let w := @WZip stored [] (zc_new stored 1) [] in
   after (db_store stored toy_sha 1 file_read 20 (mk_wdb ex_db (Some w)) ex_i1) (fun r =>
     match r with
     | Ok (i, d) => match set_ostream d None with
                    | (Ok (Some w'), d') => do! z := w_zip_value stored w' in ret (is_binsha i, z, ostream d')
                    | _ => throw TypeError
                    end
     | _ => throw TypeError
     end)) = ret (Some ex_n1, s_compress (str_blob_type ++ [32; 54; 0] ++ ex_hi), None).
Proof. split; [split; [apply ex_proper|now right]|]. by_vm. Qed.
