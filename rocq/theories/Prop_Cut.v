(** Properties C25, C28, C29, C36, C38 and C69 of properties.jsonl: objects whose end is lost.
    Of bytes that do not repeat, followed by the 20 bytes b'aaacccbccacbbcbacabc', zlib makes
    stored blocks and a block with its own codes ([text_stream]; level 1, checked with zlib
    1.2.13 for three, four and five blocks of 16383 bytes, the size zlib gives them).  The first
    13 bytes of the last block give no output.  The window of compressed bytes, as long as what
    is asked for, ends among them; the next one has 8 bytes and gives nothing; so read() returns
    the object without its last 20 bytes, and no error. *)
From Verif Require Import Py PyFacts FunModel FunSpec FunProofs IndexModel IndexSpec ZlibModel ZlibProofs ReaderModel StreamSpec ReaderProofs DeflateModel DeflateProofs CompressModel CutProofs
  DeltaSpec PackModel PackSpec PackWriteProofs OsModel OsProofs LooseModel DbNames LooseSpec LooseProofs LooseTop LooseLive LooseQuery LooseConc MemModel MemSpec CutTop
  Prop_Index Prop_Reader Prop_Pack Prop_Loose Prop_Mem Prop_Deflate.

(** A compressor that writes such a stream for one content and stored blocks for all others. *)
Definition sometimes (chunks : list bytes) (level : Z) (d : bytes) : bytes := if beq d (with_text chunks) then text_stream chunks else s_compress d.
Lemma bytes_of_text : is_bytes text.
Proof. now apply bytes_check. Qed.
Lemma stored_part_bytes chunks : Forall is_bytes chunks -> parts_ok chunks -> is_bytes (stored_part chunks).
Proof.
  unfold parts_ok. induction chunks as [|c l IH]; intros H1 H2; [constructor|]. inversion H1; subst. inversion H2; subst. cbn [stored_part flat_map]. rewrite block_form. pose proof (len_nonneg _ c).
  apply Forall_app. split; [apply Forall_app; split; [|assumption]|now apply IH].
  unfold block_head. repeat apply Forall_cons; try apply Forall_nil; unfold is_byte; split; try apply Z.mod_pos_bound; try apply Z.div_pos; try apply Z.div_lt_upper_bound; lia.
Qed.
Lemma text_inflates chunks : Forall is_bytes chunks -> parts_ok chunks -> inflates (text_stream chunks) (with_text chunks).
Proof.
  intros H1 H2. split; [|split].
  - unfold text_stream. apply Forall_app. split; [now apply bytes_check|]. apply Forall_app. split; [now apply stored_part_bytes|]. apply Forall_app. split; [now apply bytes_check|apply adler_bytes_bytes].
  - apply Forall_app. split; [now apply Forall_concat|apply bytes_of_text].
  - now apply text_stream_run.
Qed.
Lemma sometimes_ok chunks : Forall is_bytes chunks -> parts_ok chunks -> forall level d, is_bytes d -> inflates (sometimes chunks level d) d.
Proof.
  intros H1 H2 level d Hd. unfold sometimes. destruct (beq d (with_text chunks)) eqn:E; [apply beq_eq in E as ->; now apply text_inflates|].
  split; [now destruct (s_compress_stream _ Hd) as (_ & ? & _)|]. split; [exact Hd|apply stored_run].
Qed.

(** ** C25 *)
(** Full statement of C25: read() on a fresh stream returns everything. *)
Theorem C25_truncated_refuted :
  forall (t out first : bytes) (chunks : list bytes) (rest : bytes) (n : Z),
  ~ In BYTE_SPACE t -> ~ In NULL_BYTE t -> len (loose_object_header t (len (out ++ text))) <= 8172 ->
  loose_object_header t (len (out ++ text)) ++ out = concat (first :: chunks) -> 8192 < len first ->
  Forall is_bytes (first :: chunks) -> parts_ok (first :: chunks) -> len chunks = 3 \/ len chunks = 4 -> n < 1 \/ len (out ++ text) <= n ->
  inflates (text_stream (first :: chunks)) (loose_object_header t (len (out ++ text)) ++ out ++ text) /\
  evaluates (fun f => read_object (K := deflate) (text_stream (first :: chunks) ++ rest) f [Read n]) (Ok (t, len (out ++ text), [out])).
Proof.
  intros t out first chunks rest n H1 H2 H3 H4 H5 H6 H7 H8 H9. split.
  - rewrite app_assoc, H4. now apply text_inflates.
  - exact (text_object (fun level d => if level =? 0 then s_compress d else fixed_compress d) t out first chunks rest n H1 H2 H3 H4 H5 H7 H8 H9).
Qed.
Print Assumptions C25_truncated_refuted.
(** A blob of 8206 bytes; with zlib, blocks of 16383 bytes make one of 65541. *)
Definition cut_out : bytes := repeat 7 (Z.to_nat 8186).
Definition cut_head : bytes := loose_object_header str_blob_type 8206.
Definition cut_first : bytes := cut_head ++ repeat 7 (Z.to_nat 8183).
Definition cut_more : list bytes := [[7]; [7]; [7]].
Lemma cut_form : cut_head ++ cut_out = concat (cut_first :: cut_more).
Proof. vm_compute. reflexivity. Qed.
Lemma cut_bytes : Forall is_bytes (cut_first :: cut_more) /\ parts_ok (cut_first :: cut_more).
Proof.
  split; (apply Forall_cons; [|apply Forall_cons; [|apply Forall_cons; [|apply Forall_cons; [|apply Forall_nil]]]]);
    first [apply bytes_check; vm_compute; reflexivity|apply Z.leb_le; vm_compute; reflexivity].
Qed.
Example C25_truncated_example :
  len (cut_out ++ text) = 8206 /\ cut_head ++ cut_out = concat (cut_first :: cut_more) /\ 8192 < len cut_first /\
  Forall is_bytes (cut_first :: cut_more) /\ parts_ok (cut_first :: cut_more) /\ len cut_more = 3 /\
  (let! (t, n, outs) := read_object (K := deflate) (text_stream (cut_first :: cut_more)) 20 [Read (-1); Read (-1)] in Ok (t, n, map len outs)) = Ok (str_blob_type, 8206, [8186; 20]).
Proof.
  split; [vm_compute; reflexivity|]. split; [exact cut_form|]. split; [vm_compute; reflexivity|]. split; [apply cut_bytes|]. split; [apply cut_bytes|]. split; vm_compute; reflexivity.
Qed.

(** ** C38 *)
(** Full statement: stream returns the content of a stored object.  Whatever is done before and
    after with the database: [out], not [out ++ text]. *)
Theorem C38_truncated_refuted :
  forall (comp : Z -> bytes -> bytes) (sha1 : bytes -> bytes) (pagesize : Z) (R : Type) (rd : R -> Z -> res (bytes * R)) (content : R -> bytes) (O : os) (fuel : nat),
  (forall level d, is_bytes d -> inflates (comp level d) d) -> (forall d, sha_ok (sha1 d)) -> 0 < pagesize -> stream_reader rd content ->
  forall db0 s0 ops1 db1 s1 i i' o s2 ops2 db2 s3 sha out first chunks n,
  can_read O -> l_cache db0 = [] -> wf s0 -> no_objects (l_root db0) s0 ->
  Forall (proper_op content) (ops1 ++ LStore i :: ops2) -> no_collision sha1 (objects_of content (ops1 ++ LStore i :: ops2)) ->
  lives (with_compressor comp) sha1 pagesize rd O fuel db0 s0 ops1 db1 s1 ->
  runs O (LooseModel.store (with_compressor comp) sha1 pagesize rd fuel db1 None i) s1 (Ok (i', o)) s2 ->
  lives (with_compressor comp) sha1 pagesize rd O fuel db1 s2 ops2 db2 s3 -> is_binsha i' = Some sha ->
  content (is_stream i) = out ++ text -> len (loose_object_header (is_type i) (is_size i)) <= 8172 ->
  loose_object_header (is_type i) (is_size i) ++ out = concat (first :: chunks) ->
  8192 < len first -> parts_ok (first :: chunks) -> len chunks = 3 \/ len chunks = 4 ->
  (forall level, comp level (with_text (first :: chunks)) = text_stream (first :: chunks)) -> n < 1 \/ is_size i <= n ->
  exists f0, forall f, (f0 <= f)%nat ->
    LooseSpec.yields O (read_stream (K := with_compressor comp) f db2 sha [Read n]) s3 (Ok (is_type i, is_size i, [out])).
Proof. intros comp sha1 pagesize R rd content O fuel Hcomp Hsha Hpage HR. exact (cut_loose comp Hcomp sha1 Hsha pagesize Hpage rd content HR O fuel). Qed.
Print Assumptions C38_truncated_refuted.
(** The blob of 8206 bytes stored into an empty database and read. *)
Notation cutz := (with_compressor (sometimes (cut_first :: cut_more))).
Definition cut_i : istream bytes := mk_istream None str_blob_type 8206 (cut_out ++ text).
Definition cut_store := LooseModel.store cutz toy_sha 1 file_read 20 ex_db None cut_i.
Definition cut_w : world := snd (run_plan (windows calm) [] cut_store ex_w0).
Definition cut_n : bytes := repeat 24 20.
Lemma none_out {A B : Type} (x : res (A * option B)) i :
  (match x with Ok (a, None) => Some a | _ => None end) = Some i -> x = Ok (i, None).
Proof. destruct x as [[a [b|]]|e|]; congruence. Qed.
Lemma raise_out {A : Type} (x : res A) e : (match x with Raise e => Some e | _ => None end) = Some e -> x = Raise e.
Proof. destruct x; congruence. Qed.
Example C38_truncated_example :
  (forall level d, is_bytes d -> inflates (sometimes (cut_first :: cut_more) level d) d) /\
  (forall level, sometimes (cut_first :: cut_more) level (with_text (cut_first :: cut_more)) = text_stream (cut_first :: cut_more)) /\
  proper (fun r => r) cut_i /\ no_objects (l_root ex_db) ex_w0 /\ no_collision toy_sha [object_of (fun r => r) cut_i] /\
  runs calm cut_store ex_w0 (Ok (mk_istream (Some cut_n) str_blob_type 8206 [], None)) cut_w /\
  (let! (t, n, outs) := fst (run_plan false [] (read_stream (K := cutz) 50 ex_db cut_n [Read (-1)]) cut_w) in Ok (t, n, map len outs)) = Ok (str_blob_type, 8206, [8186]).
Proof.
  split; [apply sometimes_ok; apply cut_bytes|]. split; [intros level; unfold sometimes; replace (beq _ _) with true by (symmetry; now apply beq_eq); reflexivity|].
  split; [|split; [exact ex_no_objects|split; [|split]]].
  - split; [by_vm|]. split; [by_vm|]. split; [apply bytes_check; reflexivity|]. split; [apply bytes_check; by_vm|]. split; not_in.
  - intros o1 o2 sha [<-|[]] [<-|[]] _ _. reflexivity.
  - unfold cut_w. apply plan_runs; [easy|by_vm|apply none_out; by_vm].
  - by_vm.
Qed.

(** ** C36 *)
(** Full statement: after stores and complete reads stream delivers the content.  The same blob
    in a MemoryDB. *)
Theorem C36_truncated_refuted :
  (forall level d, is_bytes d -> inflates (sometimes (cut_first :: cut_more) level d) d) /\ proper (fun r => r) cut_i /\
  exists outs, (match m_run cutz toy_sha 1 file_read 80 (mem_init cutz) [MStore cut_i; MUse cut_n [Read (-1)]] with Ret r => let! (l, _) := r in Ok l | _ => Raise NameError end) =
    Ok [Ok (OStored cut_n str_blob_type 8206); Ok (OStream cut_n str_blob_type 8206 outs)] /\ map len outs = [8186].
Proof.
  destruct C38_truncated_example as (H1 & _ & H2 & _). split; [exact H1|]. split; [exact H2|]. exists [cut_out]. split; by_vm.
Qed.
Print Assumptions C36_truncated_refuted.
(** So for every object of that form, in a database in any state. *)
Theorem C36_every_truncated_refuted :
  forall (comp : Z -> bytes -> bytes) (sha1 : bytes -> bytes) (pagesize : Z) (R : Type) (rd : R -> Z -> res (bytes * R)) (content : R -> bytes),
  (forall level d, is_bytes d -> inflates (comp level d) d) -> (forall d, sha_ok (sha1 d)) -> 0 < pagesize -> stream_reader rd content ->
  forall (i : istream R) (db : mdb (with_compressor comp)) (out first : bytes) (chunks : list bytes) (n : Z) (sha : bytes),
  proper content i -> name_of sha1 (object_of content i) sha ->
  content (is_stream i) = out ++ text -> len (loose_object_header (is_type i) (is_size i)) <= 8172 ->
  loose_object_header (is_type i) (is_size i) ++ out = concat (first :: chunks) ->
  8192 < len first -> parts_ok (first :: chunks) -> len chunks = 3 \/ len chunks = 4 ->
  comp 1 (with_text (first :: chunks)) = text_stream (first :: chunks) -> n < 1 \/ is_size i <= n ->
  exists f0, forall f, (f0 <= f)%nat -> exists db',
    m_run (with_compressor comp) sha1 pagesize rd f db [MStore i; MUse sha [Read n]] =
    ret ([Ok (OStored sha (is_type i) (is_size i)); Ok (OStream sha (is_type i) (is_size i) [out])], db').
Proof. intros comp sha1 pagesize R rd content Hcomp Hsha Hpage HR. exact (cut_memory comp Hcomp sha1 Hsha pagesize Hpage rd content HR). Qed.
Print Assumptions C36_every_truncated_refuted.

(** ** C29 *)
(** Full statement: stream returns the content of a written object.  Of an object in a pack
    whose data are three stored blocks and the text (with zlib 49169 bytes), read() returns
    all but the text. *)
Theorem C29_truncated_refuted :
  forall (comp : Z -> bytes -> bytes) (sha1 : bytes -> bytes) (pagesize : Z) (R : Type) (oread : R -> Z -> res (bytes * R)) (content : R -> bytes),
  (forall level d, is_bytes d -> inflates (comp level d) d) -> (forall d, len (sha1 d) = 20) -> 0 < pagesize -> stream_reader oread content ->
  forall (level : Z) (objs : list wobj) (o : wobj) (chunks : list bytes),
  Forall (good_obj content) objs -> Forall sha_ok (map wo_binsha objs) -> NoDup (map wo_binsha objs) -> len objs <= 2 ^ 31 ->
  In o objs -> content (wo_stream o) = with_text chunks -> parts_ok chunks -> len chunks = 3 -> comp level (with_text chunks) = text_stream chunks ->
  exists v, evaluates (fun f => write_pack (with_compressor comp) sha1 pagesize oread f level objs None) v /\
  match v with
  | Diverge => False
  | Raise e => e = StructError
  | Ok (pack, psha, idx, isha) =>
      len pack < 2 ^ 64 -> exists ix st, index_open idx = Ok ix /\
        (forall f, entity_stream (with_compressor comp) f (mk_entity ix pack) (wo_binsha o) = Ok st) /\ os_size st = len (with_text chunks) /\
        forall n, n < 1 \/ len (with_text chunks) <= n -> evaluates (fun f => run_stream (os_read f) os_seek0 st [Read n]) (Ok [concat chunks])
  end.
Proof.
  intros comp sha1 pagesize R oread content Hcomp Hsha Hps Hrd level objs o chunks Hg Hok Hnd Hn Hin Ho Hc H3 Hz.
  destruct (C29_read_back_partial _ (compressor_laws comp Hcomp) sha1 pagesize R oread content Hsha Hps Hrd level objs Hg Hok Hnd Hn) as (v & Hv & Hm).
  exists v. split; [exact Hv|]. destruct v as [[[[pack psha] idx] isha]|e|]; [|exact Hm|exact Hm].
  intros Hl. destruct (Hm Hl) as (ix & A & B & _). destruct (cut_back comp Hcomp content level _ o chunks (B o Hin) Ho Hz Hc H3) as (st & S1 & S2 & S3).
  now exists ix, st.
Qed.
Print Assumptions C29_truncated_refuted.
(** b'xyz' before the text, with a stored block for each letter. *)
Definition xyz : list bytes := [[120]; [121]; [122]].
Notation xyzz := (with_compressor (sometimes xyz)).
Lemma xyz_bytes : Forall is_bytes xyz /\ parts_ok xyz.
Proof.
  split; (apply Forall_cons; [|apply Forall_cons; [|apply Forall_cons; [|apply Forall_nil]]]);
    first [now apply bytes_check|apply Z.leb_le; vm_compute; reflexivity].
Qed.
Definition xyz_wobj : wobj (R := bytes) := mk_wobj (PBytes str_blob_type) 23 ex_s3 (with_text xyz).
Definition xyz_pack := write_pack xyzz toy_sha 1 file_read 20 1 [xyz_wobj] None.
Example C29_truncated_example :
  (forall level d, is_bytes d -> inflates (sometimes xyz level d) d) /\ sometimes xyz 1 (with_text xyz) = text_stream xyz /\
  good_obj (fun r => r) xyz_wobj /\ sha_ok (wo_binsha xyz_wobj) /\ parts_ok xyz /\ len xyz = 3 /\
  (let! (pack, psha, idx, isha) := xyz_pack in let! ix := index_open idx in let! st := entity_stream xyzz 20 (mk_entity ix pack) ex_s3 in
   run_stream (os_read 20) os_seek0 st [Read 0]) = Ok [[120; 121; 122]].
Proof.
  split; [apply sometimes_ok; apply xyz_bytes|]. split; [reflexivity|]. split; [|split; [split; [reflexivity|now apply bytes_check]|split; [apply xyz_bytes|split; [reflexivity|by_vm]]]].
  exists 3. split; [cbn; tauto|]. split; [reflexivity|]. split; [reflexivity|now apply bytes_check].
Qed.

(** ** C28 *)
(** Full statement: stream_iter yields the objects.  Such an object makes it raise
    AssertionError, here as the first one of the pack. *)
Theorem C28_truncated_refuted :
  forall (comp : Z -> bytes -> bytes) (L : zlib_laws (with_compressor comp)) (sha1 : bytes -> bytes) (pagesize : Z) (e : pentry) (es : list (Z * pentry)) (pack : bytes) (chunks : list bytes),
  (forall d, len (sha1 d) = 20) -> 0 < pagesize -> pack_file L sha1 ((12, e) :: es) pack ->
  pn_data e = with_text chunks -> pn_z e = text_stream chunks -> parts_ok chunks -> len chunks = 3 -> len (with_text chunks) <= chunk_size pagesize ->
  evaluates (fun f => stream_iter (with_compressor comp) pagesize f pack 0) (Raise AssertionError).
Proof. intros comp L sha1 pagesize e es pack chunks Hsha Hps. exact (cut_iter comp sha1 Hsha pagesize (L' := L) e es pack chunks). Qed.
Print Assumptions C28_truncated_refuted.
Definition xyz_laws := compressor_laws (sometimes xyz) (sometimes_ok xyz (proj1 xyz_bytes) (proj2 xyz_bytes)).
Definition xyz_file : bytes := match xyz_pack with Ok (p, _, _, _) => p | _ => [] end.
Definition e_xyz : pentry := mk_pentry 3 NoDelta (with_text xyz) (text_stream xyz).
Lemma xyz_entry : entry_bytes xyz_laws e_xyz [183; 1] (text_stream xyz).
Proof.
  apply (eb_full xyz_laws 3 [183; 1] (with_text xyz)); [cbn; tauto| |].
  - apply (ph_long 3 7 [1] 1); [lia|]. constructor; lia.
  - split; [now apply bytes_check|]. exists 1. reflexivity.
Qed.
Example C28_truncated_example :
  pack_file xyz_laws toy_sha [(12, e_xyz)] xyz_file /\ stream_iter xyzz 1 30 xyz_file 0 = Raise AssertionError.
Proof.
  split; [|apply raise_out; by_vm]. exists ([183; 1] ++ text_stream xyz ++ []), (12 + 2 + len (text_stream xyz)). split; [|split; [reflexivity|by_vm]].
  apply (es_cons xyz_laws 12 e_xyz [183; 1] (text_stream xyz) [] []); [exact xyz_entry|constructor].
Qed.

(** ** C69 *)
(** Full statement: a delta object is resolved to its content.  A delta copying all of such an
    object: the buffer into which the base is read ends with 20 zeros. *)
Definition xyz_delta : bytes := [23; 23; 144; 23].
Definition e_copy : pentry := mk_pentry 6 (OfsDelta (2 + len (text_stream xyz))) xyz_delta (s_compress xyz_delta).
Definition xyz_shas : list bytes := [ex_s1; ex_s2].
Definition xyz_off : Z := 14 + len (text_stream xyz).
Definition xyz_two : bytes := pack_head 2 ++ ([183; 1] ++ text_stream xyz) ++ ([100; 2 + len (text_stream xyz)] ++ s_compress xyz_delta) ++ repeat 0 20.
Definition xyz_idx : bytes := v2_file xyz_shas [0; 0] [12; xyz_off] [] (repeat 7 40).
Definition xyz_ix : pidx := match index_open xyz_idx with Ok ix => ix | _ => ex_ix end.
Definition xyz_chain : list (Z * pentry) := [(xyz_off, e_copy); (12, e_xyz)].
Lemma xyz_index : index_file 2 xyz_shas [0; 0] [12; xyz_off] xyz_idx /\ strictly_sorted_shas xyz_shas /\ index_open xyz_idx = Ok xyz_ix /\ index xyz_two 0 = Ok 80.
Proof.
  split; [|split; [|split; [vm_compute; reflexivity|reflexivity]]].
  - apply (idx_v2 xyz_shas [0; 0] [12; xyz_off] [12; xyz_off] []); try reflexivity.
    + repeat constructor; cbn; try lia; easy.
    + repeat constructor; cbn; lia.
    + change xyz_off with 57. repeat (constructor; [left; split; [lia|reflexivity]|]). constructor.
    + constructor.
  - split; repeat constructor; cbn; try lia; easy.
Qed.
Lemma xyz_small : zl_stream xyz_laws (s_compress xyz_delta) xyz_delta.
Proof. split; [now apply bytes_check|]. exists 0. reflexivity. Qed.
Lemma xyz_at_base : entry_at xyz_laws xyz_two 12 e_xyz.
Proof.
  exists (pack_head 2), [183; 1], (text_stream xyz). eexists. split; [unfold xyz_two; rewrite <- !app_assoc; reflexivity|]. split; [reflexivity|]. exact xyz_entry.
Qed.
Lemma xyz_at_copy : entry_at xyz_laws xyz_two xyz_off e_copy.
Proof.
  exists (pack_head 2 ++ [183; 1] ++ text_stream xyz), ([100] ++ [2 + len (text_stream xyz)]), (s_compress xyz_delta). eexists.
  split; [unfold xyz_two; rewrite <- !app_assoc; reflexivity|]. split; [reflexivity|].
  apply eb_ofs; [apply (ph_short 6 4); lia| |exact xyz_small].
  exists [], 45. repeat split; try lia. constructor.
Qed.
Theorem C69_truncated_refuted :
  (forall level d, is_bytes d -> inflates (sometimes xyz level d) d) /\
  index_file 2 xyz_shas [0; 0] [12; xyz_off] xyz_idx /\ strictly_sorted_shas xyz_shas /\ index_open xyz_idx = Ok xyz_ix /\ index xyz_two 0 = Ok 80 /\
  found_at xyz_shas [12; xyz_off] ex_s2 xyz_off /\ base_chain xyz_laws xyz_two xyz_shas [12; xyz_off] xyz_off xyz_chain /\ ofs_then_refs xyz_chain /\
  chain_object xyz_chain 3 (with_text xyz) /\
  evaluates (fun f => let! st := entity_stream xyzz f (mk_entity xyz_ix xyz_two) ex_s2 in run_stream (os_read f) os_seek0 st [Read 0]) (Ok [concat xyz ++ repeat 0 20]).
Proof.
  split; [apply sometimes_ok; apply xyz_bytes|]. split; [apply xyz_index|]. split; [apply xyz_index|]. split; [apply xyz_index|]. split; [apply xyz_index|].
  split; [exists 1; split; [reflexivity|split; [reflexivity|lia]]|]. split; [|split; [cbn; tauto|split]].
  - apply (bc_ofs _ _ _ _ xyz_off e_copy 45 [(12, e_xyz)]); [exact xyz_at_copy|reflexivity|]. apply bc_full; [exact xyz_at_base|reflexivity].
  - exists [(xyz_off, e_copy)], 12, e_xyz. repeat (split; [reflexivity|]). apply (chain_cons _ xyz_delta [] (with_text xyz)); [constructor|].
    exists [23], [23], [Copy 0 23], [144; 23].
    split; [reflexivity|]. split; [apply varint_last; cbn; lia|]. split; [apply varint_last; cbn; lia|]. split; [cbn; lia|].
    split; [|split; [repeat constructor; cbn; lia|reflexivity]].
    apply (enc_cons (Copy 0 23) [] [144; 23] []); [|constructor].
    apply (enc_copy false false false false true false false 0 0 0 0 23 0 0); try easy. apply bytes_check. reflexivity.
  - exists 30%nat. intros f Hf. do 30 (destruct f as [|f]; [lia|]). clear Hf. vm_compute. reflexivity.
Qed.
Print Assumptions C69_truncated_refuted.
