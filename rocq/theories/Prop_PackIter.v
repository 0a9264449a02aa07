(** Properties C82 and C83 of properties.jsonl: going through a pack by its index, and the
    checksums of a written pack. *)
From Coq Require Import Sorting.Permutation.
From Verif Require Import Py PyFacts FunModel FunSpec FunProofs IndexModel IndexSpec ZlibModel ZlibProofs ReaderModel
  StreamSpec PackModel PackSpec PackProofs PackWriteProofs PackIterProofs Prop_Index Prop_Pack.
Ltac by_vm := match goal with |- ?a = ?b => exact (@eq_refl _ b <: a = b) end.

(** ** C82 *)
(** info_iter and stream_iter of a PackEntity are the answers to asking for each name of the
    index in order, whatever is in the pack, up to the first exception. *)
Theorem C82_iteration_asks_each_name :
  forall (K : zlib) (v : Z) (shas : list bytes) (crcs offs : list Z) (idx : bytes) (ix : pidx) (pack : bytes) (fuel : nat),
  index_file v shas crcs offs idx -> strictly_sorted_shas shas -> index_open idx = Ok ix ->
  entity_info_iter K fuel (mk_entity ix pack) = ask_each (entity_info K fuel (mk_entity ix pack)) shas /\
  entity_stream_iter K fuel (mk_entity ix pack) = ask_each (entity_stream K fuel (mk_entity ix pack)) shas.
Proof.
  intros K v shas crcs offs idx ix pack fuel Hf Hs Ho.
  exact (conj (iter_objects_ok (info_at K fuel (mk_entity ix pack)) v shas crcs offs idx ix pack Hf Hs Ho)
              (iter_objects_ok (stream_at K fuel (mk_entity ix pack)) v shas crcs offs idx ix pack Hf Hs Ho)).
Qed.
Print Assumptions C82_iteration_asks_each_name.
(** A pack with deltas, one of them naming itself as base: the first two names are answered,
    the third one for ever. *)
Example C82_example :
  (index_file 2 d_shas (repeat 0 6) d_offs d_idx /\ strictly_sorted_shas d_shas /\ index_open d_idx = Ok d_ix) /\
  entity_info_iter stored 20 d_ent = Diverge /\
  map (fun s => match entity_info stored 20 d_ent s with Ok _ => 1 | Raise _ => 2 | Diverge => 3 end) d_shas = [1; 1; 3; 2; 1; 1].
Proof.
  split; [split; [apply d_index|split; apply d_index]|]. split; by_vm.
Qed.

(** After write_pack: every written object is yielded once, in the order of the names, with
    its type and size; the streams are those a query by name gives, and they deliver the
    content. *)
Theorem C82_iterate_written :
  forall (K : zlib) (L : zlib_laws K) (sha1 : bytes -> bytes) (pagesize : Z) (R : Type) (oread : R -> Z -> res (bytes * R)) (content : R -> bytes),
  (forall d, len (sha1 d) = 20) -> 0 < pagesize -> stream_reader oread content ->
  forall (level : Z) (objs : list wobj),
  Forall (good_obj content) objs -> Forall sha_ok (map wo_binsha objs) -> NoDup (map wo_binsha objs) -> len objs <= 2 ^ 31 ->
  exists v, evaluates (fun f => write_pack K sha1 pagesize oread f level objs None) v /\
  match v with
  | Diverge => False
  | Raise e => e = StructError
  | Ok (pack, psha, idx, isha) =>
      len pack < 2 ^ 64 -> exists ix s, index_open idx = Ok ix /\ Permutation objs s /\ strictly_sorted_shas (map wo_binsha s) /\
        (forall f, entity_info_iter K f (mk_entity ix pack) =
           Ok (map (fun o => mk_oinfo (wo_binsha o) (wo_type o) (len (content (wo_stream o)))) s)) /\
        exists sts, (forall f, entity_stream_iter K f (mk_entity ix pack) = Ok sts) /\
          Forall2 (fun o st => forall f, entity_stream K f (mk_entity ix pack) (wo_binsha o) = Ok st) s sts /\
          Forall (reads_back L content level (mk_entity ix pack)) s
  end.
Proof. intros K L sha1 pagesize R oread content Hsha Hps Hrd. exact (iter_written L sha1 Hsha pagesize Hps oread content Hrd). Qed.
Print Assumptions C82_iterate_written.
Example C82_written_example :
  (stream_reader file_read (fun r => r) /\ Forall (good_obj (fun r => r)) ex_wobjs /\ NoDup (map wo_binsha ex_wobjs)) /\
  entity_info_iter stored 20 ex_ent =
    Ok [mk_oinfo ex_s1 (PBytes str_tree_type) 6; mk_oinfo ex_s3 (PBytes str_blob_type) 6].
Proof.
  split; [split; [exact file_stream_reader|split; apply ex_good]|by_vm].
Qed.

(** ** C83 *)
(** Whenever write_pack succeeds: the pack has version 2 and the announced number of objects,
    it ends with the sha of everything before, which is what PackFile.checksum gives, what
    write_pack returned and what the index records; the index ends with the sha of
    everything before it, and has as many entries as the pack has objects. *)
Theorem C83_checksums_agree :
  forall (K : zlib) (sha1 : bytes -> bytes) (pagesize : Z) (R : Type) (oread : R -> Z -> res (bytes * R))
    (level : Z) (objs : list wobj) (object_count : option Z) (fuel : nat) (pack psha idx isha : bytes),
  (forall d, len (sha1 d) = 20) ->
  write_pack K sha1 pagesize oread fuel level objs object_count = Ok (pack, psha, idx, isha) ->
  exists n body ibody, announced objs object_count n /\ pack_open pack = Ok (2, n) /\
    pack = body ++ psha /\ psha = sha1 body /\ pack_checksum pack = Ok psha /\ idx = ibody ++ isha /\ isha = sha1 ibody /\
    (forall ix, index_open idx = Ok ix -> packfile_checksum ix = psha /\ indexfile_checksum ix = isha) /\
    (Forall sha_ok (map wo_binsha objs) -> n <= 2 ^ 31 -> len pack < 2 ^ 64 -> exists ix, index_open idx = Ok ix /\ ix_size ix = Ok n).
Proof. intros K sha1 pagesize R oread. exact (written_checksums K sha1 pagesize oread). Qed.
Print Assumptions C83_checksums_agree.
Example C83_example :
  pack_open ex_pk = Ok (2, 2) /\ ix_size (en_index ex_ent) = Ok 2 /\
  pack_checksum ex_pk = Ok (packfile_checksum (en_index ex_ent)).
Proof. split; [|split]; vm_compute; reflexivity. Qed.
