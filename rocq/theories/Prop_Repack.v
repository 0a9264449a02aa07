(** Property C106 of properties.jsonl: packing the objects of a database. *)
From Coq Require Import ZifyBool ZifyNat.
From Verif Require Import Py PyFacts FunModel FunSpec FunProofs IndexModel IndexSpec ZlibModel ZlibProofs ReaderModel StreamSpec ReaderProofs DeflateModel DeflateProofs CutProofs CutTop Prop_Deflate
  PackModel PackSpec PackCheckProofs PackWriteProofs OsModel OsProofs LooseModel LooseSpec LooseProofs LooseTop LooseQuery RepackSpec RepackProofs
  Prop_Index Prop_Reader Prop_Pack Prop_Loose Prop_Cut.
Ltac Zify.zify_post_hook ::= Z.div_mod_to_equations.

(** ** C106 *)
(** Full statement: a pack made of the objects of a database has these objects.

    Partial, wherever the streams come from: if reading them in chunks gives the contents, the
    pack and its index are those made of the contents in memory (for which see C29, C30, C81). *)
Theorem C106_same_pack_partial :
  forall (K : zlib) (sha1 : bytes -> bytes) (pagesize : Z) (R : Type) (rd : nat -> R -> Z -> res (bytes * R)) (rw : R -> res R)
    (level : Z) (object_count : option Z) (os : list wobj) (ds : list wobj),
  0 < pagesize -> Forall2 (alike_given pagesize rd rw) os ds ->
  exists f0, forall f fuel, (f0 <= f)%nat ->
    write_pack K sha1 pagesize (rd f) fuel level os object_count = write_pack K sha1 pagesize file_read fuel level ds object_count.
Proof.
  intros K sha1 pagesize R rd rw level oc os ds Hps H. destruct (given_alike R pagesize rd rw os ds Hps H) as (f0 & H0).
  exists f0. intros f fuel Hf. apply same_pack. now apply H0.
Qed.
Print Assumptions C106_same_pack_partial.
(** Objects of a LooseObjectDB that its streams give correctly (C38). *)
Theorem C106_loose_partial :
  forall (K : zlib) (L : zlib_laws K) (sha1 : bytes -> bytes) (pagesize : Z) (O : os) (db : ldb) (s : world) (level : Z) (xs : list (bytes * bytes * Z * bytes)),
  0 < pagesize -> can_read O -> Forall (kept K pagesize L db s) xs ->
  exists f0, forall f, (f0 <= f)%nat ->
    yields O (pack_loose K sha1 pagesize f db level (map sha_of xs)) s (write_pack K sha1 pagesize file_read f level (map in_memory xs) None).
Proof.
  intros K L sha1 pagesize O db s level xs Hps Hcr H. apply pack_loose_same; [exact Hps|exact Hcr|].
  refine (Forall_impl _ _ H). intros x. apply (kept_reads sha1 pagesize L).
Qed.
Print Assumptions C106_loose_partial.
(** Objects of up to 8192 bytes with their header, compressed to at most that, are among them. *)
Theorem C106_small_objects_kept :
  forall (K : zlib) (L : zlib_laws K) (pagesize : Z) (db : ldb) (s : world) (sha t c z form : bytes),
  0 < pagesize -> contents s (object_file (l_root db) sha) = Some z -> loose_form t c form -> zl_stream L z form -> ~ In 32 t -> ~ In 0 t ->
  len z <= 8192 -> len form <= 8192 -> kept K pagesize L db s (sha, t, len c, c).
Proof.
  intros K L pagesize db s sha t c z form Hps Hz Hf Hs H1 H2 Hl1 Hl2. exists z, form, (S (length c)).
  split; [exact Hz|]. split; [reflexivity|]. split; [exact Hf|]. split; [exact Hs|]. split; [exact H1|]. split; [exact H2|].
  pose proof (len_nonneg _ c). split; [lia|]. split; [now right|]. split.
  - unfold enough, chunk_size, len. rewrite Nat2Z.inj_succ. assert (1 <= 1000 * pagesize) by lia. generalize (length c). intros m. nia.
  - replace (Z.to_nat (Z.min (len c) (8192 - (len form - len c)))) with (length c) by (unfold len in *; lia).
    unfold chunk_reads. generalize (S (length c)). intros k. replace (repeat (Read (chunk_size pagesize)) k) with (map Read (repeat (chunk_size pagesize) k)) by (clear; induction k; cbn [repeat map]; congruence).
    apply respects_reads.
Qed.
Print Assumptions C106_small_objects_kept.
(** Such objects, of one of the four types: the pack has them all and no others. *)
Theorem C106_loose_read_back_partial :
  forall (K : zlib) (L : zlib_laws K) (sha1 : bytes -> bytes) (pagesize : Z) (O : os) (db : ldb) (s : world) (level : Z) (xs : list (bytes * bytes * Z * bytes)),
  (forall d, len (sha1 d) = 20) -> 0 < pagesize -> can_read O -> Forall (kept K pagesize L db s) xs ->
  Forall (fun x => let '(sha, t, n, c) := x in sha_ok sha /\ In t [str_commit_type; str_tree_type; str_blob_type; str_tag_type] /\ is_bytes c) xs ->
  NoDup (map sha_of xs) -> len xs <= 2 ^ 31 ->
  exists v f0, (forall f, (f0 <= f)%nat -> yields O (pack_loose K sha1 pagesize f db level (map sha_of xs)) s v) /\
  match v with
  | Diverge => False
  | Raise e => e = StructError
  | Ok (pack, psha, idx, isha) =>
      len pack < 2 ^ 64 -> exists ix, index_open idx = Ok ix /\
        (forall x, In x xs -> reads_back L (fun c => c) level (mk_entity ix pack) (in_memory x)) /\
        missing_objects (K := K) (mk_entity ix pack) (map in_memory xs)
  end.
Proof.
  intros K L sha1 pagesize O db s level xs Hsha Hps Hcr Hk Ht Hnd Hn.
  assert (Em : map wo_binsha (map in_memory xs) = map sha_of xs).
  { rewrite map_map. apply map_ext. now intros [[[sha t] n] c]. }
  destruct (C29_read_back_partial K L sha1 pagesize bytes file_read (fun c => c) Hsha Hps file_stream_reader level (map in_memory xs)) as (v & [f1 Hv] & Hm).
  - apply Forall_forall. intros d Hd. apply in_map_iff in Hd as ([[[sha t] n] c] & <- & Hin).
    rewrite Forall_forall in Hk, Ht. destruct (Hk _ Hin) as (z & form & k & _ & -> & _). destruct (Ht _ Hin) as (_ & Hty & Hb).
    destruct Hty as [<- | [<- | [<- | [<- | []]]]]; [exists 1|exists 2|exists 3|exists 4]; (split; [cbn; tauto|]; split; [reflexivity|]; split; [reflexivity|exact Hb]).
  - rewrite Em. apply Forall_map. refine (Forall_impl _ _ Ht). intros [[[sha t] n] c] (H & _). exact H.
  - now rewrite Em.
  - unfold len in *. now rewrite map_length.
  - destruct (C106_loose_partial K L sha1 pagesize O db s level xs Hps Hcr Hk) as (f0 & H0).
    exists v, (max f0 f1). split; [intros f Hf; rewrite <- (Hv f) by lia; apply H0; lia|].
    destruct v as [[[[pack psha] idx] isha]|e|]; [|exact Hm|exact Hm]. intros Hl. destruct (Hm Hl) as (ix & A & B & C).
    exists ix. split; [exact A|]. split; [|exact C]. intros x Hx. apply B. now apply in_map.
Qed.
Print Assumptions C106_loose_read_back_partial.
(** The objects of a pack: any that its streams give correctly, deltas or not. *)
Theorem C106_packed_partial :
  forall (K : zlib) (sha1 : bytes -> bytes) (pagesize : Z) (e : entity) (ds : list wobj) (level : Z),
  0 < pagesize -> Forall (served K pagesize e) ds ->
  exists f0, forall f, (f0 <= f)%nat ->
    repack K sha1 pagesize f e level (map wo_binsha ds) = write_pack K sha1 pagesize file_read f level ds None.
Proof. intros K sha1 pagesize e ds level Hps H. now apply repack_same. Qed.
Print Assumptions C106_packed_partial.
(** In particular, a pack written by write_pack gives the very same pack again. *)
Theorem C106_again_partial :
  forall (K : zlib) (L : zlib_laws K) (sha1 : bytes -> bytes) (pagesize : Z) (level : Z) (ds : list wobj) (pack psha idx isha : bytes),
  (forall d, len (sha1 d) = 20) -> 0 < pagesize ->
  Forall (good_obj (fun c => c)) ds -> Forall sha_ok (map wo_binsha ds) -> NoDup (map wo_binsha ds) -> len ds <= 2 ^ 31 ->
  Forall (fun d => forall chunks, concat chunks = wo_stream d ->
            dense L (zc_all K (zc_new K level) chunks) (wo_stream d) \/
            (whole L (zc_all K (zc_new K level) chunks) (wo_stream d) /\ len (wo_stream d) < chunk_size pagesize)) ds ->
  evaluates (fun f => write_pack K sha1 pagesize file_read f level ds None) (Ok (pack, psha, idx, isha)) -> len pack < 2 ^ 64 ->
  exists ix, index_open idx = Ok ix /\
    evaluates (fun f => repack K sha1 pagesize f (mk_entity ix pack) level (map wo_binsha ds)) (Ok (pack, psha, idx, isha)).
Proof.
  intros K L sha1 pagesize level ds pack psha idx isha Hsha Hps Hg Hok Hnd Hn Hd [f1 Hw] Hl.
  destruct (C29_read_back_partial K L sha1 pagesize bytes file_read (fun c => c) Hsha Hps file_stream_reader level ds Hg Hok Hnd Hn) as (v & [f2 Hv] & Hm).
  assert (Ev : v = Ok (pack, psha, idx, isha)) by (rewrite <- (Hv (max f1 f2)) by lia; apply Hw; lia). rewrite Ev in Hm. destruct (Hm Hl) as (ix & Hix & Hr & _).
  exists ix. split; [exact Hix|]. destruct (C106_packed_partial K sha1 pagesize (mk_entity ix pack) ds level Hps) as (f0 & H0).
  - apply Forall_forall. intros d Hin. rewrite Forall_forall in Hd, Hg. apply (written_served pagesize Hps L level); [|now apply Hr|now apply Hd].
    destruct (Hg d Hin) as (t & _ & _ & H & _). exact H.
  - exists (max f0 f1). intros f Hf. rewrite H0 by lia. apply Hw. lia.
Qed.
Print Assumptions C106_again_partial.

(** The two objects of the database of C38, and the pack of C29 packed again. *)
Definition two_loose : list (bytes * bytes * Z * bytes) := [(ex_n1, str_blob_type, 6, ex_hi); (ex_n2, str_tree_type, 2, [7; 8])].
Example C106_example :
  Forall (kept stored 1 stored_laws ex_db ex_w2) two_loose /\
  (let! (pack, _, _, _) := fst (run_plan false [] (pack_loose stored toy_sha 1 60 ex_db 0 (map sha_of two_loose)) ex_w2) in Ok pack)
    = Ok ((pack_head 2 ++ ([54] ++ s_compress ex_hi) ++ ([34] ++ s_compress [7; 8])) ++ repeat 44 20) /\
  (Forall (fun d : wobj => forall chunks, concat chunks = wo_stream d -> dense stored_laws (zc_all stored (zc_new stored 0) chunks) (wo_stream d)) ex_wobjs) /\
  (exists v, ex_written = Ok v /\ repack stored toy_sha 1 60 ex_ent 0 (map wo_binsha ex_wobjs) = Ok v).
Proof.
  split; [|split; [vm_compute; reflexivity|split]].
  - apply Forall_cons; [|apply Forall_cons; [|apply Forall_nil]].
    + apply (C106_small_objects_kept stored stored_laws 1 ex_db ex_w2 ex_n1 str_blob_type ex_hi (s_compress (str_blob_type ++ [32; 54; 0] ++ ex_hi)) (str_blob_type ++ [32; 54; 0] ++ ex_hi));
        [reflexivity|vm_compute; reflexivity|apply (loose_form_header str_blob_type ex_hi)|apply s_compress_stream, bytes_check; reflexivity|not_in|not_in|discriminate|discriminate].
    + apply (C106_small_objects_kept stored stored_laws 1 ex_db ex_w2 ex_n2 str_tree_type [7; 8] (s_compress (str_tree_type ++ [32; 50; 0] ++ [7; 8])) (str_tree_type ++ [32; 50; 0] ++ [7; 8]));
        [reflexivity|vm_compute; reflexivity|apply (loose_form_header str_tree_type [7; 8])|apply s_compress_stream, bytes_check; reflexivity|not_in|not_in|discriminate|discriminate].
  - repeat (apply Forall_cons; [intros chunks Hc; apply stored_chunks_dense; [now apply bytes_check|exact Hc]|]). apply Forall_nil.
  - eexists. split; vm_compute; reflexivity.
Qed.

(** The full statement is false: an object whose stream lacks its last bytes (C25) and that is to
    be packed, together with any others that are all right, makes write_pack fail. *)
Theorem C106_truncated_refuted :
  forall (sha1 : bytes -> bytes) (pagesize : Z) (O : os) (db : ldb) (s : world) (level : Z) (xs ys : list (bytes * bytes * Z * bytes))
    (sha t out first : bytes) (chunks : list bytes),
  0 < pagesize -> can_read O -> Forall (kept deflate pagesize deflate_laws db s) (xs ++ ys) ->
  Forall (fun x => let '(_, t, _, _) := x in In t [str_commit_type; str_tree_type; str_blob_type; str_tag_type]) ((sha, t, 0, []) :: xs) ->
  len (xs ++ ys) < 2 ^ 32 - 1 ->
  len (loose_object_header t (len (out ++ text))) <= 8172 ->
  loose_object_header t (len (out ++ text)) ++ out = concat (first :: chunks) -> 8192 < len first ->
  Forall is_bytes (first :: chunks) -> parts_ok (first :: chunks) -> len chunks = 3 \/ len chunks = 4 -> len (out ++ text) <= chunk_size pagesize ->
  contents s (object_file (l_root db) sha) = Some (text_stream (first :: chunks)) ->
  inflates (text_stream (first :: chunks)) (loose_object_header t (len (out ++ text)) ++ out ++ text) /\
  exists f0, forall f, (f0 <= f)%nat ->
    yields O (pack_loose deflate sha1 pagesize f db level (map sha_of xs ++ sha :: map sha_of ys)) s (Raise AssertionError).
Proof.
  intros sha1 pagesize O db s level xs ys sha t out first chunks Hps Hcr Hk Hty Hn Hh Hraw Hf Hb Hp Hc Hl Hz.
  apply Forall_app in Hk as (Hkx & Hky). inversion Hty as [|? ? Ht Htx]; subst.
  assert (Htt : ~ In 32 t /\ ~ In 0 t /\ exists i, type_to_type_id (PBytes t) = Ok i).
  { destruct Ht as [<- | [<- | [<- | [<- | []]]]]; (split; [not_in|split; [not_in|eexists; reflexivity]]). }
  destruct Htt as (Ht1 & Ht2 & ti & Hti).
  destruct (C25_truncated_refuted t out first chunks [] (chunk_size pagesize) Ht1 Ht2 Hh Hraw Hf Hb Hp Hc (or_intror Hl)) as (Hi & He). rewrite app_nil_r in He.
  split; [exact Hi|]. assert (Lo : len (out ++ text) = len out + 20) by now rewrite len_app.
  set (bad := (sha, t, len (out ++ text), out)).
  destruct (pack_loose_same (K := deflate) sha1 pagesize Hps O Hcr db s (xs ++ bad :: ys) level) as (f0 & H0).
  { apply Forall_app. split; [refine (Forall_impl _ _ Hkx); intros x; apply (kept_reads sha1 pagesize deflate_laws)|].
    constructor; [|refine (Forall_impl _ _ Hky); intros x; apply (kept_reads sha1 pagesize deflate_laws)].
    apply (short_reads sha1 pagesize) with (z := text_stream (first :: chunks)); [exact Hz|discriminate|lia|exact He]. }
  destruct (C30_wrong_size deflate sha1 pagesize bytes file_read level (map in_memory xs) (in_memory bad) (map in_memory ys) ti) with (chunks := [out]) as (f1 & H1).
  - apply Forall_forall. intros d Hd. apply in_map_iff in Hd as ([[[sha' t'] n'] c'] & <- & Hin). rewrite Forall_forall in Hkx, Htx.
    destruct (Hkx _ Hin) as (z & form & k & _ & -> & _). specialize (Htx _ Hin). cbv beta iota in Htx.
    destruct (file_chunks (chunk_size pagesize) c') as (l & L1 & L2); [unfold chunk_size; lia|].
    destruct Htx as [<- | [<- | [<- | [<- | []]]]]; (eexists; exists l; split; [reflexivity|]; split; [exact L1|]; now rewrite L2).
  - unfold len in *. rewrite app_length in *. cbn [length]. rewrite !map_length. lia.
  - exact Hti.
  - apply len_nonneg.
  - eapply cr_last; [unfold file_read; cbn [in_memory wo_stream bad]|].
    + replace (chunk_size pagesize <? 0) with false by (unfold chunk_size; lia). rewrite firstn_all2 by (unfold len in *; lia). reflexivity.
    + lia.
  - cbn [concat in_memory wo_size bad]. rewrite app_nil_r. lia.
  - exists (max f0 f1). intros f Hf'. specialize (H0 f ltac:(lia)). rewrite !map_app in H0. cbn [map] in H0. rewrite H1 in H0 by lia. exact H0.
Qed.
Print Assumptions C106_truncated_refuted.
(** The object of C25 after a small one. *)
Definition cut_sha : bytes := repeat 5 20.
Definition cut_world : world :=
  mk_world [(object_file ex_root ex_n1, 0%nat); (object_file ex_root cut_sha, 1%nat)] [ex_root]
    (fun i => if (i =? 0)%nat then s_compress (str_blob_type ++ [32; 54; 0] ++ ex_hi) else text_stream (cut_first :: cut_more)) 2%nat.
Example C106_truncated_example :
  Forall (kept deflate 9 deflate_laws ex_db cut_world) ([(ex_n1, str_blob_type, 6, ex_hi)] ++ []) /\
  len (cut_out ++ text) <= chunk_size 9 /\ contents cut_world (object_file (l_root ex_db) cut_sha) = Some (text_stream (cut_first :: cut_more)) /\
  fst (run_plan false [] (pack_loose deflate toy_sha 9 60 ex_db 0 [ex_n1; cut_sha]) cut_world) = Raise AssertionError.
Proof.
  split; [|split; [vm_compute; discriminate|split; [reflexivity|vm_compute; reflexivity]]].
  apply Forall_cons; [|apply Forall_nil].
  apply (C106_small_objects_kept deflate deflate_laws 9 ex_db cut_world ex_n1 str_blob_type ex_hi (s_compress (str_blob_type ++ [32; 54; 0] ++ ex_hi)) (str_blob_type ++ [32; 54; 0] ++ ex_hi));
    [reflexivity|vm_compute; reflexivity|apply (loose_form_header str_blob_type ex_hi)| |not_in|not_in|discriminate|discriminate].
  split; [apply bytes_check; vm_compute; reflexivity|]. split; [apply bytes_check; reflexivity|vm_compute; reflexivity].
Qed.
