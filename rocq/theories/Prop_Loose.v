(** Properties C38-C42, C45, C46, C61 and C72 of properties.jsonl: LooseObjectDB, over every
    zlib satisfying the laws of ZlibModel.v, every hash function and every behaviour of the
    system allowed by OsModel.v. *)
From Verif Require Import Py PyFacts FunModel FunSpec FunProofs IndexSpec ZlibModel ZlibProofs ReaderModel StreamSpec ReaderProofs PackSpec
  OsModel OsProofs LooseModel DbNames LooseSpec LooseProofs LooseTop LooseLive LooseQuery LooseConc LooseMain PackCheckProofs StoreAny StoreShort Prop_Index Prop_Reader Prop_Pack.

(** ** For the examples: an empty database with two objects stored one after the other *)
Lemma toy_sha_ok d : sha_ok (toy_sha d).
Proof.
  split; [apply len_repeat|]. unfold toy_sha. apply Forall_forall. intros x Hx. apply repeat_spec in Hx as ->. unfold is_byte. pose proof (Z.mod_pos_bound (len d) 256). lia.
Qed.
Definition ex_root : path := [[114]].
Definition ex_db : ldb := loose_init ex_root true.
Definition ex_w0 : world := no_files [ex_root].
Definition ex_i1 : istream bytes := mk_istream None str_blob_type 6 ex_hi.
Definition ex_i2 : istream bytes := mk_istream None str_tree_type 2 [7; 8].
Notation ex_store := (store stored toy_sha 1 file_read 20 ex_db None).
Definition ex_w1 : world := snd (run_plan (windows calm) [] (ex_store ex_i1) ex_w0).
Definition ex_w2 : world := snd (run_plan (windows calm) [] (ex_store ex_i2) ex_w1).
Definition ex_n1 : bytes := repeat 13 20.
Definition ex_n2 : bytes := repeat 9 20.
(** Computes without showing the result. *)
Ltac by_vm := match goal with |- ?a = ?b => exact (@eq_refl _ b <: a = b) end.
Lemma plan_runs O A (p : prog A) plan s r : (plan <> [] -> may_fail O KShort = true) -> plan_ok (windows O) plan p s = true ->
  fst (run_plan (windows O) plan p s) = r -> runs O p s r (snd (run_plan (windows O) plan p s)).
Proof. intros H1 H2 <-. now apply run_plan_runs. Qed.
Lemma settle_ok O A (p : prog A) db f s a s' : runs O p s (Ok a) s' -> runs O (settle p db f) s (Ok (f a)) s'.
Proof.
  unfold settle. intros H. induction p as [r|B c k IH] in s, H |- *.
  - apply runs_ret in H as [<- ->]. constructor.
  - inversion H as [|? ? ? ? ? ? H1 H2]; subst. destruct H1 as (b & Hs & ->). eapply steps_one; [exists b; split; [exact Hs|reflexivity]|]. now apply IH.
Qed.
Lemma ex_runs1 : runs calm (ex_store ex_i1) ex_w0 (Ok (mk_istream (Some ex_n1) str_blob_type 6 [], None)) ex_w1.
Proof. unfold ex_w1. apply plan_runs; [easy|by_vm|by_vm]. Qed.
Lemma ex_runs2 : runs calm (ex_store ex_i2) ex_w1 (Ok (mk_istream (Some ex_n2) str_tree_type 2 [], None)) ex_w2.
Proof. unfold ex_w2. apply plan_runs; [easy|by_vm|by_vm]. Qed.
Ltac not_in := let H := fresh in intros H; cbn in H; repeat destruct H as [H|H]; easy.
Lemma ex_proper : proper (fun r => r) ex_i1 /\ proper (fun r => r) ex_i2.
Proof.
  split; (split; [reflexivity|]; split; [reflexivity|]; split; [apply bytes_check; reflexivity|]; split; [apply bytes_check; reflexivity|]; split; not_in).
Qed.
Lemma ex_no_objects : no_objects ex_root ex_w0.
Proof.
  intros sha Hs. unfold path_exists. replace (is_file ex_w0 (object_file ex_root sha)) with false by reflexivity.
  reflexivity.
Qed.
Lemma ex_distinct : no_collision toy_sha [object_of (fun r => r) ex_i1; object_of (fun r => r) ex_i2].
Proof.
  intros o1 o2 sha H1 H2 N1 N2. apply name_form in N1, N2. cbn in H1, H2.
  destruct H1 as [<-|[<-|[]]], H2 as [<-|[<-|[]]]; try reflexivity; rewrite N1 in N2; vm_compute in N2; discriminate.
Qed.

(** ** C38 *)
(** An object stored in the middle of a history: its name is the hash of its header and
    content; whatever is stored, asked for or crashes later, has_object and info know it.
    (Reading the content: C38_stream_partial.) *)
Theorem C38_name_and_info :
  forall (K : zlib) (L : zlib_laws K) (sha1 : bytes -> bytes) (pagesize : Z) (R : Type) (rd : R -> Z -> res (bytes * R)) (content : R -> bytes) (O : os) (fuel : nat),
  (forall d, sha_ok (sha1 d)) -> 0 < pagesize -> stream_reader rd content ->
  forall db0 s0 ops1 db1 s1 i i' out s2 ops2 db2 s3,
  can_read O -> l_cache db0 = [] -> wf s0 -> no_objects (l_root db0) s0 ->
  Forall (proper_op content) (ops1 ++ LStore i :: ops2) -> no_collision sha1 (objects_of content (ops1 ++ LStore i :: ops2)) ->
  len (loose_object_header (is_type i) (is_size i)) <= 8192 ->
  lives K sha1 pagesize rd O fuel db0 s0 ops1 db1 s1 ->
  runs O (store K sha1 pagesize rd fuel db1 None i) s1 (Ok (i', out)) s2 ->
  lives K sha1 pagesize rd O fuel db1 s2 ops2 db2 s3 ->
  exists sha db3, is_binsha i' = Some sha /\ name_of sha1 (object_of content i) sha /\
    is_type i' = is_type i /\ is_size i' = is_size i /\
    yields O (has_object db2 sha) s3 (Ok (true, db3)) /\ yields O (info K db2 sha) s3 (Ok (sha, is_type i, is_size i)).
Proof. intros K L sha1 pagesize R rd content O fuel Hsha Hpage HR. exact (store_query L sha1 Hsha pagesize Hpage rd content HR O fuel). Qed.
Print Assumptions C38_name_and_info.
(** In a system without faults, a store into a directory without obstacles does succeed. *)
Theorem C38_store_succeeds :
  forall (K : zlib) (sha1 : bytes -> bytes) (pagesize : Z) (R : Type) (rd : R -> Z -> res (bytes * R)) (content : R -> bytes) (O : os),
  (forall d, sha_ok (sha1 d)) -> 0 < pagesize -> stream_reader rd content -> faultless O ->
  forall fuel db i s r s',
  match is_binsha i with
  | None => is_size i = len (content (is_stream i))
  | Some sha => sha_ok sha /\ len (content (is_stream i)) <= 2 ^ 63 - 1
  end ->
  (length (content (is_stream i)) < fuel)%nat -> (forall sha, sha_ok sha -> room_for (l_root db) sha s) ->
  runs O (store K sha1 pagesize rd fuel db None i) s r s' -> exists v, r = Ok v.
Proof. intros K sha1 pagesize R rd content O Hsha Hpage HR HO. exact (store_succeeds K sha1 Hsha pagesize Hpage rd content HR O HO). Qed.
Print Assumptions C38_store_succeeds.
(** Full statement: stream returns the content, however it is read.  Here: if the file of the
    object is a zlib stream without long parts that produce nothing, or small, and the reads
    avoid the defects of DecompressMemMapReader (C24-C26, see [respects]), the reads give the
    content in order.  Missing: other zlib streams and other sequences of reads. *)
Theorem C38_stream_partial :
  forall (K : zlib) (L : zlib_laws K) (sha1 : bytes -> bytes) (pagesize : Z) (R : Type) (rd : R -> Z -> res (bytes * R)) (content : R -> bytes) (O : os) (fuel : nat),
  (forall d, sha_ok (sha1 d)) -> 0 < pagesize -> stream_reader rd content ->
  forall db0 s0 ops1 db1 s1 i i' out s2 ops2 db2 s3 sha z form ops,
  can_read O -> l_cache db0 = [] -> wf s0 -> no_objects (l_root db0) s0 ->
  Forall (proper_op content) (ops1 ++ LStore i :: ops2) -> no_collision sha1 (objects_of content (ops1 ++ LStore i :: ops2)) ->
  len (loose_object_header (is_type i) (is_size i)) <= 8192 ->
  lives K sha1 pagesize rd O fuel db0 s0 ops1 db1 s1 ->
  runs O (store K sha1 pagesize rd fuel db1 None i) s1 (Ok (i', out)) s2 ->
  lives K sha1 pagesize rd O fuel db1 s2 ops2 db2 s3 ->
  is_binsha i' = Some sha -> contents s3 (object_file (l_root db0) sha) = Some z ->
  loose_form (is_type i) (content (is_stream i)) form -> dense L z form \/ len z <= 8192 ->
  respects (dense L z form) (Z.to_nat (Z.min (is_size i) (8192 - len (loose_object_header (is_type i) (is_size i))))) (length z) (content (is_stream i)) 0 ops ->
  exists f0, forall f, (f0 <= f)%nat ->
    yields O (read_stream (K := K) f db2 sha ops) s3 (Ok (is_type i, is_size i, cursor (content (is_stream i)) 0 ops)).
Proof. intros K L sha1 pagesize R rd content O fuel Hsha Hpage HR. exact (store_stream L sha1 Hsha pagesize Hpage rd content HR O fuel). Qed.
Print Assumptions C38_stream_partial.
(** The full statement is false: of a blob of 66000 bytes, read(65530) gives all 66000.  (The
    read goes beyond what was decompressed with the header and meets the end of a block; with
    real zlib read(17000) of 40000 random bytes is an example.) *)
Definition huge_c : bytes := repeat 7 (Z.to_nat 66000).
Definition huge_i : istream bytes := mk_istream None str_blob_type 66000 huge_c.
Definition huge_store := store stored toy_sha 1 file_read 80 ex_db None huge_i.
Definition huge_n : bytes := repeat 219 20.
Definition huge_w : world := snd (run_plan (windows calm) [] huge_store ex_w0).
Theorem C38_read_too_much_refuted :
  proper (fun r => r) huge_i /\ wf ex_w0 /\ no_objects (l_root ex_db) ex_w0 /\
  runs calm huge_store ex_w0 (Ok (mk_istream (Some huge_n) str_blob_type 66000 [], None)) huge_w /\
  exists outs, fst (run_plan false [] (read_stream (K := stored) 50 ex_db huge_n [Read 65530]) huge_w) = Ok (str_blob_type, 66000, outs) /\
    map len outs = [66000] /\ outs <> cursor huge_c 0 [Read 65530].
Proof.
  split; [|split; [apply wf_empty|split; [exact ex_no_objects|split]]].
  - split; [by_vm|]. split; [by_vm|]. split; [apply bytes_check; reflexivity|]. split; [apply bytes_check; by_vm|]. split; not_in.
  - unfold huge_w. apply plan_runs; [easy|by_vm|by_vm].
  - exists [huge_c]. split; [by_vm|]. split; [by_vm|]. intros E. apply (f_equal (map len)) in E.
    assert (E2 : map len (cursor huge_c 0 [Read 65530]) = [65530]) by by_vm. rewrite E2 in E. assert (E1 : map len [huge_c] = [66000]) by by_vm. rewrite E1 in E. discriminate E.
Qed.
Print Assumptions C38_read_too_much_refuted.
(** The hypotheses: a blob is stored, then a tree; then the blob is asked for. *)
Example C38_example :
  (can_read calm /\ l_cache ex_db = [] /\ wf ex_w0 /\ no_objects (l_root ex_db) ex_w0 /\
   Forall (proper_op (fun r => r)) ([] ++ LStore ex_i1 :: [LStore ex_i2]) /\
   no_collision toy_sha (objects_of (fun r => r) ([] ++ LStore ex_i1 :: [LStore ex_i2])) /\
   lives stored toy_sha 1 file_read calm 20 ex_db ex_w0 [] ex_db ex_w0 /\
   runs calm (ex_store ex_i1) ex_w0 (Ok (mk_istream (Some ex_n1) str_blob_type 6 [], None)) ex_w1 /\
   lives stored toy_sha 1 file_read calm 20 ex_db ex_w1 [LStore ex_i2] ex_db ex_w2) /\
  (forall sha, sha_ok sha -> room_for ex_root sha ex_w0) /\
  contents ex_w2 (object_file ex_root ex_n1) = Some (s_compress (str_blob_type ++ [32; 54; 0] ++ ex_hi)) /\
  fst (run_plan false [] (read_stream (K := stored) 50 ex_db ex_n1 [Read 3; Read (-1)]) ex_w2) = Ok (str_blob_type, 6, [[104; 105; 32]; [121; 111; 117]]).
Proof.
  split; [|split; [|split; vm_compute; reflexivity]].
  - split; [easy|]. split; [easy|]. split; [apply wf_empty|]. split; [exact ex_no_objects|].
    split; [constructor; [apply ex_proper|constructor; [apply ex_proper|constructor]]|]. split; [exact ex_distinct|].
    split; [constructor|]. split; [exact ex_runs1|].
    eapply lv_op with (db1 := ex_db) (s1 := ex_w2); [|constructor]. exact (settle_ok _ _ _ ex_db (fun _ => ex_db) _ _ _ ex_runs2).
  - intros sha Hs. split; [reflexivity|]. split.
    + pose proof (ex_no_objects sha Hs) as H. now apply orb_false_elim in H as [_ H].
    + intros d _. reflexivity.
Qed.

(** ** C39 *)
(** Whenever the process stops, and also at the normal end or after an exception: every file
    that was there has its old contents (so in particular every object file). *)
Theorem C39_existing_files_untouched :
  forall (K : zlib) (sha1 : bytes -> bytes) (pagesize : Z) (R : Type) (rd : R -> Z -> res (bytes * R)) (O : os) (fuel : nat),
  (forall d, sha_ok (sha1 d)) -> forall db i s s' p z,
  (forall sha, is_binsha i = Some sha -> is_bytes sha) -> wf s -> stops O (store K sha1 pagesize rd fuel db None i) s s' ->
  contents s p = Some z -> contents s' p = Some z.
Proof. intros K sha1 pagesize R rd O fuel Hsha. exact (store_existing sha1 Hsha pagesize rd O fuel). Qed.
Print Assumptions C39_existing_files_untouched.
(** An object is stored a second time, its file having been changed in between. *)
Example C39_example :
  let s := set_data (mk_world (w_files ex_w1) (w_dirs ex_w1) (w_data ex_w1) (w_next ex_w1)) 0%nat [1; 2; 3] in
  contents s (object_file ex_root ex_n1) = Some [1; 2; 3] /\
  contents (snd (run_plan false [] (ex_store ex_i1) s)) (object_file ex_root ex_n1) = Some [1; 2; 3] /\
  fst (run_plan false [] (ex_store ex_i1) s) = Ok (mk_istream (Some ex_n1) str_blob_type 6 [], None).
Proof. cbv zeta. split; [vm_compute; reflexivity|]. split; [vm_compute; reflexivity|]. by_vm. Qed.

(** ** C40 *)
(** The process stops anywhere (or ends, or raises): apart from at most one temporary file,
    every file is as before or the new, complete object file.  With a preset sha this needs
    that the system takes what is written completely: see C41. *)
Theorem C40_crash_leaves_complete_files :
  forall (K : zlib) (L : zlib_laws K) (sha1 : bytes -> bytes) (pagesize : Z) (R : Type) (rd : R -> Z -> res (bytes * R)) (content : R -> bytes) (O : os) (fuel : nat),
  (forall d, sha_ok (sha1 d)) -> 0 < pagesize -> stream_reader rd content ->
  forall db i s s', storable content i -> is_binsha i = None \/ may_fail O KShort = false ->
  wf s -> stops O (store K sha1 pagesize rd fuel db None i) s s' ->
  wf s' /\ exists tmp, (forall t, tmp = Some t -> temp_file (l_root db) t /\ contents s t = None) /\
    forall p, tmp <> Some p -> contents s' p = contents s p \/
      (contents s p = None /\ exists z, contents s' p = Some z /\ complete L sha1 content (l_root db) i p z).
Proof. intros K L sha1 pagesize R rd content O fuel Hsha Hpage HR. exact (store_crash L sha1 Hsha pagesize Hpage rd content HR O fuel). Qed.
Print Assumptions C40_crash_leaves_complete_files.
(** The temporary file is not an object file, and is not listed. *)
Theorem C40_temporary_file_not_reported :
  forall (K : zlib) (sha1 : bytes -> bytes) (pagesize : Z) (R : Type) (rd : R -> Z -> res (bytes * R)) (O : os) (fuel : nat),
  (forall d, sha_ok (sha1 d)) -> forall db i s s',
  (forall sha, is_binsha i = Some sha -> sha_ok sha) -> wf s -> tidy (l_root db) s ->
  stops O (store K sha1 pagesize rd fuel db None i) s s' ->
  (forall t sha, temp_file (l_root db) t -> t <> object_file (l_root db) sha) /\
  forall db' r s'', l_root db' = l_root db -> runs O (sha_iter db') s' r s'' ->
  exists shas, r = Ok (map Ok shas) /\ NoDup shas /\ forall sha, In sha shas <-> present (l_root db) s' sha.
Proof.
  intros K sha1 pagesize R rd O fuel Hsha db i s s' H1 H2 H3 H4. split; [intros t sha; apply temp_not_object|].
  exact (store_crash_query sha1 Hsha pagesize rd O fuel db i s s' H1 H2 H3 H4).
Qed.
Print Assumptions C40_temporary_file_not_reported.
(** A crash after the first write: a temporary file with the first bytes, no object. *)
Fixpoint run_some {A} (n : nat) (p : prog A) (s : world) : world :=
  match n, p with
  | S n', Call c k => let (a, s') := answer false None c s in run_some n' (k a) s'
  | _, _ => s
  end.
Example C40_example :
  (storable (fun r => r) ex_i1 /\ wf ex_w0 /\ tidy ex_root ex_w0) /\
  map fst (w_files (run_some 2 (ex_store ex_i1) ex_w0)) = [ex_root ++ [obj_prefix ++ repeat 48 8]] /\
  fst (run_plan false [] (sha_iter ex_db) (run_some 2 (ex_store ex_i1) ex_w0)) = Ok [] /\
  fst (run_plan false [] (sha_iter ex_db) ex_w2) = Ok [Ok ex_n2; Ok ex_n1].
Proof.
  split; [|split; [|split]; vm_compute; reflexivity].
  split; [apply ex_proper|]. split; [apply wf_empty|]. intros p H. discriminate.
Qed.

(** ** C41 *)
(** Full statement: with or without a preset sha.  False with one: FDStream.write does not
    look at what os.write returns, so that the object file is incomplete and store succeeds. *)
Definition ex_raw : istream bytes := mk_istream (Some ex_s1) str_blob_type 0 [1; 2; 3; 4; 5].
Theorem C41_preset_sha_refuted :
  exists s', runs short_writes (ex_store ex_raw) ex_w0 (Ok (mk_istream (Some ex_s1) str_blob_type 0 [], None)) s' /\
    contents s' (object_file ex_root ex_s1) = Some [1; 2].
Proof.
  exists (snd (run_plan (windows short_writes) [Some 2] (ex_store ex_raw) ex_w0)). split; [|vm_compute; reflexivity].
  apply plan_runs; [easy|by_vm|by_vm].
Qed.
Print Assumptions C41_preset_sha_refuted.
(** So for every object that is not empty and not there yet, on every system with short writes:
    store returns as usual, and the file lacks what the first write did not take. *)
Theorem C41_every_preset_refuted :
  forall (K : zlib) (sha1 : bytes -> bytes) (pagesize : Z) (R : Type) (rd : R -> Z -> res (bytes * R)) (content : R -> bytes) (O : os),
  0 < pagesize -> stream_chunk_size pagesize < 2 ^ 63 - 1 -> stream_reader rd content -> may_fail O KShort = true ->
  forall fuel db i sha k suf s, is_binsha i = Some sha -> sha_ok sha ->
  (length (content (is_stream i)) < fuel)%nat -> len (content (is_stream i)) < 2 ^ 63 - 1 ->
  0 <= k < Z.min (stream_chunk_size pagesize) (len (content (is_stream i))) ->
  room_for (l_root db) sha s -> contents s (object_file (l_root db) sha) = None ->
  tmp_suffix suf -> path_exists s (l_root db ++ [obj_prefix ++ suf]) = false ->
  exists r' s', runs O (store K sha1 pagesize rd fuel db None i) s (Ok (mk_istream (Some sha) (is_type i) (is_size i) r', None)) s' /\
    contents s' (object_file (l_root db) sha) =
      Some (firstn (Z.to_nat k) (content (is_stream i)) ++ skipn (Z.to_nat (stream_chunk_size pagesize)) (content (is_stream i))).
Proof.
  intros K sha1 pagesize R rd content O Hp Hcs HR Ho fuel db i sha k suf s Hb Hs Hf Hle Hk.
  exact (store_truncated K sha1 pagesize Hp rd content HR O Ho fuel db i sha k suf s Hb Hs Hle Hcs Hk Hf).
Qed.
Print Assumptions C41_every_preset_refuted.
Example C41_every_example :
  is_binsha ex_raw = Some ex_s1 /\ sha_ok ex_s1 /\ 0 <= 2 < Z.min (stream_chunk_size 4096) (len (is_stream ex_raw)) /\
  room_for ex_root ex_s1 ex_w0 /\ contents ex_w0 (object_file ex_root ex_s1) = None /\
  tmp_suffix (repeat 48 8) /\ path_exists ex_w0 (ex_root ++ [obj_prefix ++ repeat 48 8]) = false /\ may_fail short_writes KShort = true.
Proof.
  split; [reflexivity|]. split; [split; [reflexivity|now apply bytes_check]|]. split; [vm_compute; easy|].
  split; [split; [reflexivity|split; [vm_compute; reflexivity|]]|].
  { intros d _. reflexivity. }
  split; [vm_compute; reflexivity|]. split; [split; [reflexivity|]|split; vm_compute; reflexivity].
  apply Forall_forall. intros x Hx. apply repeat_spec in Hx as ->. unfold tmp_char. lia.
Qed.
(** Without a preset sha: after a short write store raises, no file is changed or added
    except possibly the temporary file, and this only if it cannot be removed. *)
Theorem C41_short_write_partial :
  forall (K : zlib) (sha1 : bytes -> bytes) (pagesize : Z) (R : Type) (rd : R -> Z -> res (bytes * R)) (O : os) (fuel : nat),
  (forall d, is_bytes (sha1 d)) -> forall db i s p1 s1 p2 s2 r s',
  is_binsha i = None -> wf s ->
  steps O (store K sha1 pagesize rd fuel db None i) s p1 s1 -> short_step O p1 s1 p2 s2 -> steps O p2 s2 (Ret r) s' ->
  (exists e, r = Raise e) /\
  (forall p, contents s p <> None \/ ~ temp_file (l_root db) p -> contents s' p = contents s p) /\
  (may_fail O KRemove = false -> forall p, contents s' p = contents s p).
Proof.
  intros K sha1 pagesize R rd O fuel Hsha db i s p1 s1 p2 s2 r s' Hi.
  apply (store_short K sha1 pagesize rd Hsha O fuel db i ltac:(rewrite Hi; easy)). exact Hi.
Qed.
Print Assumptions C41_short_write_partial.
Example C41_example :
  fst (run_plan false [None; None; Some 2] (ex_store ex_i1) ex_w0) = Raise OSError /\
  w_files (snd (run_plan false [None; None; Some 2] (ex_store ex_i1) ex_w0)) = [] /\
  fst (run_plan false [None; None; Some 50] (ex_store ex_i1) ex_w0) = Ok (mk_istream (Some ex_n1) str_blob_type 6 [], None).
Proof. split; [by_vm|]. split; [vm_compute; reflexivity|]. by_vm. Qed.

(** ** C42 *)
(** Full statement: store raises if the stream ends before [size] bytes.  False: it stores an
    object whose header says more than there is. *)
Theorem C42_short_stream_refuted :
  exists s', runs calm (ex_store (mk_istream None str_blob_type 5 [1; 2])) ex_w0 (Ok (mk_istream (Some ex_n2) str_blob_type 5 [], None)) s' /\
    contents s' (object_file ex_root ex_n2) = Some (s_compress (str_blob_type ++ [32; 53; 0; 1; 2])).
Proof.
  set (i := mk_istream None str_blob_type 5 [1; 2]).
  exists (snd (run_plan (windows calm) [] (ex_store i) ex_w0)). split; [|vm_compute; reflexivity].
  apply plan_runs; [easy|by_vm|by_vm].
Qed.
Print Assumptions C42_short_stream_refuted.
(** So for every size and every stream, on a system without faults: what is stored is the header
    with the size announced and as much of the stream as there is, at most that many bytes; info
    repeats the size of the header.  (A longer stream is cut off.) *)
Theorem C42_any_size_refuted :
  forall (K : zlib) (L : zlib_laws K) (sha1 : bytes -> bytes) (pagesize : Z) (R : Type) (rd : R -> Z -> res (bytes * R)) (content : R -> bytes) (O : os),
  (forall d, sha_ok (sha1 d)) -> 0 < pagesize -> stream_reader rd content -> faultless O ->
  forall fuel db i ds s r s', decimal ds (is_size i) ->
  let form := is_type i ++ [32] ++ ds ++ [0] ++ firstn (Z.to_nat (is_size i)) (content (is_stream i)) in
  is_binsha i = None -> 0 < is_size i -> is_bytes (is_type i) -> is_bytes (content (is_stream i)) ->
  ~ In 32 (is_type i) -> ~ In 0 (is_type i) -> len (is_type i) + len ds + 2 <= 8192 ->
  (length (content (is_stream i)) < fuel)%nat -> wf s -> (forall sha, sha_ok sha -> room_for (l_root db) sha s) ->
  contents s (object_file (l_root db) (sha1 form)) = None ->
  runs O (store K sha1 pagesize rd fuel db None i) s r s' ->
  exists i' z, r = Ok (i', None) /\ is_binsha i' = Some (sha1 form) /\ is_size i' = is_size i /\
    contents s' (object_file (l_root db) (sha1 form)) = Some z /\ zl_stream L z form /\
    forall db', l_root db' = l_root db -> yields O (info K db' (sha1 form)) s' (Ok (sha1 form, is_type i, is_size i)).
Proof.
  intros K L sha1 pagesize R rd content O Hsha Hpage HR Hcalm fuel db i ds s r s' Hds form Hb Hs H1 H2 H3 H4 Hl.
  assert (Hh : loose_object_header (is_type i) (is_size i) = is_type i ++ [32] ++ ds ++ [0]).
  { unfold loose_object_header. rewrite (decimal_unique _ _ _ (fmt_i_decimal (is_size i) ltac:(lia)) Hds). reflexivity. }
  assert (Hf : form = short_form content i) by (unfold form, short_form; rewrite Hh, <- !app_assoc; reflexivity). rewrite Hf.
  apply (store_any L sha1 Hsha pagesize Hpage rd content HR O Hcalm); try assumption. rewrite Hh, !len_app. change (len [32]) with 1. change (len [0]) with 1. lia.
Qed.
Print Assumptions C42_any_size_refuted.
Example C42_example :
  let i := mk_istream None str_blob_type 5 [1; 2] in
  decimal [53] (is_size i) /\ is_bytes (is_stream i) /\ is_bytes (is_type i) /\ ~ In 32 (is_type i) /\ ~ In 0 (is_type i) /\
  wf ex_w0 /\ (forall sha, sha_ok sha -> room_for ex_root sha ex_w0) /\
  is_type i ++ [32] ++ [53] ++ [0] ++ firstn (Z.to_nat (is_size i)) (is_stream i) = str_blob_type ++ [32; 53; 0; 1; 2] /\
  contents ex_w0 (object_file ex_root (toy_sha (str_blob_type ++ [32; 53; 0; 1; 2]))) = None.
Proof.
  cbn zeta. split; [repeat split; try easy; repeat constructor; lia|]. split; [apply bytes_check; reflexivity|]. split; [apply bytes_check; reflexivity|].
  split; [intros H; cbn in H; repeat (destruct H as [H|H]; [discriminate|]); exact H|]. split; [intros H; cbn in H; repeat (destruct H as [H|H]; [discriminate|]); exact H|].
  split; [apply wf_empty|]. split; [apply C38_example|]. split; [reflexivity|]. reflexivity.
Qed.

(** ** C45 *)
(** Full statement: whenever has_object is true, stream finds the object, also when other
    programs remove files.  False: the first has_object puts the path into a cache that is
    never emptied; then the file is removed. *)
Theorem C45_removed_file_refuted :
  exists db1, yields calm (has_object ex_db ex_n1) ex_w1 (Ok (true, db1)) /\
    let s := unlink ex_w1 (object_file ex_root ex_n1) in
    yields calm (has_object db1 ex_n1) s (Ok (true, db1)) /\
    yields calm (stream stored 50 db1 ex_n1) s (Raise BadObject).
Proof.
  exists (mk_ldb ex_root [(bin_to_hex ex_n1, object_file ex_root ex_n1)] true). split; [|cbv zeta; split].
  - apply yields_ro; [apply ro_has|]. intros r H. inversion H as [|? ? ? ? ? ? H1 H2]; subst. destruct H1 as (a & Hs & ->). destruct Hs as [-> ->].
    replace (path_exists ex_w1 (db_path (l_root ex_db) (object_path (bin_to_hex ex_n1)))) with true in H2 by (vm_compute; reflexivity).
    now apply runs_ret in H2 as [-> _].
  - apply yields_ret.
  - unfold stream. apply yields_bind_raise; [apply ro_stream|]. apply map_yields_none. vm_compute; reflexivity.
Qed.
Print Assumptions C45_removed_file_refuted.
Lemma has_object_cached O db db1 sha s s1 : runs O (has_object db sha) s (Ok (true, db1)) s1 ->
  (exists p, cache_get (bin_to_hex sha) (l_cache db1) = Some p) /\ l_root db1 = l_root db /\ l_noatime db1 = l_noatime db.
Proof.
  intros H. unfold has_object in H. apply runs_after in H as (r & s2 & H1 & H2). unfold readable_db_object_path in H1.
  destruct (cache_get (bin_to_hex sha) (l_cache db)) as [p|] eqn:E.
  - apply runs_ret in H1 as [-> ->]. apply runs_ret in H2 as [H2 _]. injection H2 as ->. eauto.
  - apply runs_bind in H1 as (b & s3 & H3 & H4). destruct b as [b|e|].
    + destruct b.
      * apply runs_ret in H4 as [-> ->]. apply runs_ret in H2 as [H2 _]. injection H2 as ->. cbn [l_cache l_root l_noatime cache_get].
        rewrite beq_refl. eauto.
      * apply runs_ret in H4 as [-> ->]. apply runs_ret in H2 as [H2 _]. discriminate.
    + destruct H4 as [-> ->]. destruct e; apply runs_ret in H2 as [H2 _]; discriminate.
    + destruct H4 as [-> ->]. apply runs_ret in H2 as [H2 _]; discriminate.
Qed.
(** For every object, database and state of the files: once has_object has said True it says so
    for ever, whatever happens to the files. *)
Theorem C45_any_removal_refuted :
  forall (K : zlib) (O : os) (fuel : nat) (db db1 : ldb) (sha : bytes) (s s1 s2 : world),
  runs O (has_object db sha) s (Ok (true, db1)) s1 ->
  yields O (has_object db1 sha) s2 (Ok (true, db1)) /\
  (lookup s2 (object_file (l_root db) sha) = None -> yields O (stream K fuel db1 sha) s2 (Raise BadObject)).
Proof.
  intros K O fuel db db1 sha s s1 s2 H. destruct (has_object_cached O db db1 sha s s1 H) as ((p & Hp) & Hr & Hn). split.
  - unfold has_object, readable_db_object_path. rewrite Hp. apply yields_ret.
  - intros H3. unfold stream. apply yields_bind_raise; [apply ro_stream|]. apply map_yields_none. now rewrite Hr.
Qed.
Print Assumptions C45_any_removal_refuted.
(** Without removals by others: after any history of stores, queries and crashes, has_object
    is true exactly if an object of that name has been stored, and its file is found and
    complete; otherwise stream raises BadObject.  Missing: removals by other programs. *)
Theorem C45_no_removals_partial :
  forall (K : zlib) (L : zlib_laws K) (sha1 : bytes -> bytes) (pagesize : Z) (R : Type) (rd : R -> Z -> res (bytes * R)) (content : R -> bytes) (O : os) (fuel : nat) (root : path),
  (forall d, sha_ok (sha1 d)) -> 0 < pagesize -> stream_reader rd content ->
  forall db0 s0 ops db s sha, l_root db0 = root -> l_cache db0 = [] -> wf s0 -> no_objects root s0 ->
  Forall (proper_op content) ops -> lives K sha1 pagesize rd O fuel db0 s0 ops db s ->
  can_read O -> sha_ok sha ->
  exists b db', yields O (has_object db sha) s (Ok (b, db')) /\
    if b then exists o z, In o (objects_of content ops) /\ name_of sha1 o sha /\
           yields O (map_loose_object db sha) s (Ok z) /\ zl_stream L z (form o)
    else yields O (stream K fuel db sha) s (Raise BadObject).
Proof. intros K L sha1 pagesize R rd content O fuel root Hsha Hpage HR. exact (has_agrees L sha1 Hsha pagesize Hpage rd content HR O fuel root). Qed.
Print Assumptions C45_no_removals_partial.
Example C45_example :
  lives stored toy_sha 1 file_read calm 20 ex_db ex_w0 [LStore ex_i1] ex_db ex_w1 /\
  fst (run_plan false [] (do! (b, _) := LooseModel.has_object ex_db ex_n1 in ret b) ex_w1) = Ok true /\
  fst (run_plan false [] (do! (b, _) := LooseModel.has_object ex_db ex_n2 in ret b) ex_w1) = Ok false.
Proof.
  split; [|split; vm_compute; reflexivity]. eapply lv_op with (db1 := ex_db) (s1 := ex_w1); [|constructor].
  exact (settle_ok _ _ _ ex_db (fun _ => ex_db) _ _ _ ex_runs1).
Qed.

(** ** C46 *)
Theorem C46_abbreviations :
  forall (O : os) (db : ldb) (s : world) (prefix : bytes), wf s -> tidy (l_root db) s ->
  (forall sha, present (l_root db) s sha -> abbreviates prefix sha ->
     (forall sha', present (l_root db) s sha' -> abbreviates prefix sha' -> sha' = sha) ->
     yields O (partial_to_complete_sha_hex db prefix) s (Ok sha)) /\
  ((forall sha, present (l_root db) s sha -> ~ abbreviates prefix sha) ->
     yields O (partial_to_complete_sha_hex db prefix) s (Raise BadObject)) /\
  (forall sha sha', sha <> sha' -> present (l_root db) s sha -> present (l_root db) s sha' ->
     abbreviates prefix sha -> abbreviates prefix sha' ->
     yields O (partial_to_complete_sha_hex db prefix) s (Raise AmbiguousObjectName)).
Proof. exact abbreviation. Qed.
Print Assumptions C46_abbreviations.
(** A database that was tidy stays so, whatever is stored in it. *)
Theorem C46_histories_are_tidy :
  forall (K : zlib) (sha1 : bytes -> bytes) (pagesize : Z) (R : Type) (rd : R -> Z -> res (bytes * R)) (content : R -> bytes) (O : os) (fuel : nat),
  (forall d, sha_ok (sha1 d)) -> forall db s ops db' s',
  lives K sha1 pagesize rd O fuel db s ops db' s' -> Forall (proper_op content) ops -> wf s -> tidy (l_root db) s ->
  tidy (l_root db) s' /\ l_root db' = l_root db.
Proof.
  intros K sha1 pagesize R rd content O fuel Hsha db s ops db' s' H1 H2 H3 H4.
  exact (lives_tidy sha1 Hsha pagesize rd content O fuel (l_root db) db s ops db' s' H1 eq_refl H2 H3 H4).
Qed.
Print Assumptions C46_histories_are_tidy.
Example C46_example :
  map (fun p => fst (run_plan false [] (partial_to_complete_sha_hex ex_db p) ex_w2)) [[48; 100]; [48; 57; 48; 57]; [48]; []; [49]] =
  [Ok ex_n1; Ok ex_n2; Raise AmbiguousObjectName; Raise AmbiguousObjectName; Raise BadObject].
Proof. vm_compute. reflexivity. Qed.

(** ** C61 *)
(** Full statement: [sha in db] is true iff db.has_object(sha).  False for every database
    class: it raises AttributeError. *)
Theorem C61_in_raises_refuted : forall (c : db_class) (sha : bytes), contains c sha = Raise AttributeError.
Proof. intros [] sha; reflexivity. Qed.
Print Assumptions C61_in_raises_refuted.

(** ** C72 *)
(** Any number of processes storing into the same database at the same time, each crashing
    or not: every file is as before, a temporary file, or a complete object file of one of
    them; nothing that was there disappears; what a store that succeeded stored is there. *)
Theorem C72_concurrent_stores :
  forall (K : zlib) (L : zlib_laws K) (sha1 : bytes -> bytes) (pagesize : Z) (R : Type) (rd : R -> Z -> res (bytes * R)) (content : R -> bytes) (O : os) (root : path),
  (forall d, sha_ok (sha1 d)) -> 0 < pagesize -> stream_reader rd content ->
  forall (jobs : list (nat * ldb * istream R)) s l' s', wf s ->
  (forall f db i, In (f, db, i) jobs -> l_root db = root /\ storable content i /\ (is_binsha i = None \/ may_fail O KShort = false)) ->
  interleaved O (map (fun j => match j with (f, db, i) => store K sha1 pagesize rd f db None i end) jobs) s l' s' ->
  wf s' /\
  (forall p, ~ temp_file root p \/ contents s p <> None -> contents s' p = contents s p \/
     exists z f db i, contents s' p = Some z /\ In (f, db, i) jobs /\ complete L sha1 content root i p z) /\
  (forall p z, contents s p = Some z -> contents s' p <> None) /\
  (forall n f db i i' out, nth_error jobs n = Some (f, db, i) -> nth_error l' n = Some (Ret (Ok (i', out))) ->
     exists sha z, is_binsha i' = Some sha /\ complete L sha1 content root i (object_file root sha) z /\
       contents s' (object_file root sha) <> None).
Proof. intros K L sha1 pagesize R rd content O root Hsha Hpage HR. exact (stores_at_once L sha1 Hsha pagesize Hpage rd content HR O root). Qed.
Print Assumptions C72_concurrent_stores.
Lemma run_within O A (p : prog A) l1 l2 s p' s' l s'' : steps O p s p' s' -> interleaved O (l1 ++ p' :: l2) s' l s'' ->
  interleaved O (l1 ++ p :: l2) s l s''.
Proof. induction 1 as [|p s p1 s1 p2 s2 H1 _ IH]; [easy|]. intros H. eapply il_step; [exact H1|]. now apply IH. Qed.
(** Two processes; the second starts after the first has written the object file and ended
    (one of the possible orders). *)
Example C72_example :
  let jobs := [(20%nat, ex_db, ex_i1); (20%nat, ex_db, ex_i2)] in
  (forall f db i, In (f, db, i) jobs -> l_root db = ex_root /\ storable (fun r => r) i /\ (is_binsha i = None \/ may_fail calm KShort = false)) /\
  interleaved calm (map (fun j => match j with (f, db, i) => store stored toy_sha 1 file_read f db None i end) jobs) ex_w0
    [Ret (Ok (mk_istream (Some ex_n1) str_blob_type 6 [], None)); Ret (Ok (mk_istream (Some ex_n2) str_tree_type 2 [], None))] ex_w2.
Proof.
  cbv zeta. split.
  - intros f db i [[= <- <- <-]|[[= <- <- <-]|[]]]; (split; [reflexivity|]; split; [|now left]); apply ex_proper.
  - cbn [map]. apply (run_within calm _ (ex_store ex_i1) [] [ex_store ex_i2] _ _ _ _ _ ex_runs1). cbn [app].
    apply (run_within calm _ (ex_store ex_i2) [Ret (Ok (mk_istream (Some ex_n1) str_blob_type 6 [], None))] [] _ _ _ _ _ ex_runs2). apply il_refl.
Qed.
