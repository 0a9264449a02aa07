(** Properties C36, C37, C62, C63 and C66 of properties.jsonl: MemoryDB and copying between
    databases. *)
From Verif Require Import Py PyFacts FunModel FunSpec FunProofs IndexSpec ZlibModel ZlibProofs ReaderModel StreamSpec ReaderProofs RewindSpec RewindProofs PackSpec
  OsModel OsProofs LooseModel LooseSpec LooseProofs LooseTop MemModel MemSpec MemProofs MemRewind MemCopy MemRaw Prop_Index Prop_Reader Prop_Pack Prop_Loose.

(** ** C36 *)
(** Full statement: after any sequence of stores and of complete or no reads all operations
    answer as a dictionary of the stored objects would.  Here: for objects whose compressed
    form is dense or small (C23), with reads that cross the end of the header buffer only if
    they extend far enough beyond it (C25, [respects]). *)
Theorem C36_memory_partial :
  forall (K : zlib) (L : zlib_laws K) (sha1 : bytes -> bytes) (pagesize : Z) (R : Type) (rd : R -> Z -> res (bytes * R)) (content : R -> bytes) (ops : list (mop R)),
  (forall d, sha_ok (sha1 d)) -> 0 < pagesize -> stream_reader rd content ->
  Forall (m_proper L sha1 pagesize content (m_objects content ops)) ops ->
  exists f0, forall fuel, (f0 <= fuel)%nat -> exists outs db,
    m_run K sha1 pagesize rd fuel (mem_init K) ops = ret (outs, db) /\ all_answered sha1 content [] ops outs.
Proof. intros K L sha1 pagesize R rd content ops. exact (memory_db L sha1 pagesize rd content ops). Qed.
Print Assumptions C36_memory_partial.
(** Stores, reads of one object twice and of an unknown one. *)
Definition outcomes (p : prog (list (res mout) * mdb stored)) : res (list (res mout)) :=
  match p with Ret r => let! (l, _) := r in Ok l | _ => Raise NameError end.
Definition database (p : prog (list (res mout) * mdb stored)) : mdb stored :=
  match p with Ret (Ok (_, db)) => db | _ => mem_init stored end.
Notation ex_mem := (m_run stored toy_sha 1 file_read 50 (mem_init stored)).
Definition ex_m_ops : list (mop bytes) :=
  [MStore ex_i1; MUse ex_n1 [Read 2; Read 0]; MStore ex_i2; MUse ex_n1 []; MUse ex_n1 [Read 0; Rewind; Read 6]; MUse ex_s1 []; MHas ex_n2; MHas ex_s1; MStore ex_i1; MSize].
Example C36_example :
  outcomes (ex_mem ex_m_ops) =
    Ok [Ok (OStored ex_n1 str_blob_type 6); Ok (OStream ex_n1 str_blob_type 6 [[104; 105]; [32; 121; 111; 117]]); Ok (OStored ex_n2 str_tree_type 2);
        Ok (OStream ex_n1 str_blob_type 6 []); Ok (OStream ex_n1 str_blob_type 6 [ex_hi; []; ex_hi]); Raise BadObject; Ok (OHas true); Ok (OHas false);
        Ok (OStored ex_n1 str_blob_type 6); Ok (OSize 2)].
Proof. vm_compute. reflexivity. Qed.
Lemma ex_m_use ops : good_use stored_laws 1 (str_blob_type, ex_hi) ops -> forall o, In o (m_objects (fun r => r) ex_m_ops) -> name_of toy_sha o ex_n1 -> good_use stored_laws 1 o ops.
Proof.
  intros H o Ho Hn. cbn in Ho. destruct Ho as [<-|[<-|[<-|[]]]]; try exact H. apply name_form in Hn. vm_compute in Hn. discriminate.
Qed.
Lemma ex_m_good : good_object stored_laws 1 (str_blob_type, ex_hi) /\ good_object stored_laws 1 (str_tree_type, [7; 8]).
Proof. split; (split; [vm_compute; discriminate|right; vm_compute; discriminate]). Qed.
Lemma ex_m_reads : good_use stored_laws 1 (str_blob_type, ex_hi) [Read 2; Read 0] /\ good_use stored_laws 1 (str_blob_type, ex_hi) [Read 0; Rewind; Read 6].
Proof.
  split; right; unfold header_of; cbn [fst snd];
    (replace (Z.to_nat _) with 6%nat by (vm_compute; reflexivity)); (split; [cbn [respects]; split; [left; vm_compute; lia|split; [first [left; vm_compute; lia|vm_compute; lia]|repeat split; left; vm_compute; lia]]|vm_compute; repeat constructor]).
Qed.
Example C36_example_hypotheses : Forall (m_proper stored_laws toy_sha 1 (fun r => r) (m_objects (fun r => r) ex_m_ops)) ex_m_ops.
Proof.
  destruct ex_m_good as [G1 G2], ex_proper as [P1 P2], ex_m_reads as [U1 U2].
  constructor; [exact (conj P1 G1)|]. constructor; [exact (ex_m_use _ U1)|]. constructor; [exact (conj P2 G2)|].
  constructor; [exact (ex_m_use _ (or_introl eq_refl))|]. constructor; [exact (ex_m_use _ U2)|].
  constructor; [intros o _ _; now left|]. do 2 (constructor; [exact I|]). constructor; [exact (conj P1 G1)|]. constructor; [exact I|constructor].
Qed.

(** The full statement is false if reads in pieces count: read(65530) of a blob of 66000 bytes
    gives all of it (see C24 and C38). *)
Theorem C36_read_too_much_refuted :
  proper (fun r => r) huge_i /\
  exists outs, outcomes (m_run stored toy_sha 1 file_read 80 (mem_init stored) [MStore huge_i; MUse huge_n [Read 65530]]) =
    Ok [Ok (OStored huge_n str_blob_type 66000); Ok (OStream huge_n str_blob_type 66000 outs)] /\ map len outs = [66000].
Proof.
  split; [exact (proj1 C38_read_too_much_refuted)|]. exists [huge_c]. split; by_vm.
Qed.
Print Assumptions C36_read_too_much_refuted.

(** ** C37 *)
(** Full statement: stream delivers the whole object even if an earlier stream of it was only
    partly read.  False: two bytes are read, then the object is asked for again. *)
Theorem C37_partly_read_refuted :
  outcomes (ex_mem [MStore ex_i1; MUse ex_n1 [Read 2]; MUse ex_n1 [Read 0]]) =
  Ok [Ok (OStored ex_n1 str_blob_type 6); Ok (OStream ex_n1 str_blob_type 6 [[104; 105]]); Raise ValueError].
Proof. vm_compute. reflexivity. Qed.
Print Assumptions C37_partly_read_refuted.
(** In general, for a small object stored in a database in any state.  As long as what earlier
    uses left unread contains neither a space nor a null byte, each use delivers the object
    from its start ([clean_seeks]; every use begins with seek(0)): *)
Theorem C37_clean_rest_partial :
  forall (K : zlib) (L : zlib_laws K) (sha1 : bytes -> bytes) (pagesize : Z) (R : Type) (rd : R -> Z -> res (bytes * R)) (content : R -> bytes)
    (i : istream R) (db : mdb K) (uses : list (list rop)) (sha : bytes),
  (forall d, sha_ok (sha1 d)) -> 0 < pagesize -> stream_reader rd content -> proper content i ->
  let o := object_of content i in
  name_of sha1 o sha -> len (compressed_as (K := K) pagesize o) + len (snd o) <= 8192 -> len (header_of o) + 2 * len (snd o) <= 8192 ->
  clean_seeks (snd o) 0 [] (concat (map (cons Rewind) uses)) ->
  exists f0, forall fuel, (f0 <= fuel)%nat -> exists db',
    m_run K sha1 pagesize rd fuel db (MStore i :: map (MUse sha) uses) =
    ret (Ok (OStored sha (fst o) (len (snd o))) :: map (fun ops => Ok (OStream sha (fst o) (len (snd o)) (cursor (snd o) 0 ops))) uses, db').
Proof.
  intros K L sha1 pagesize R rd content i db uses sha Hsha Hpage HR Hi o Hn H1 H2 Hcl. apply name_form in Hn as ->.
  exists (2 * length (header_of o ++ snd o) + 8)%nat. intros fuel Hf.
  pose proof (proj1 (store_use L sha1 Hsha pagesize Hpage rd content HR i Hi H1 H2 fuel db uses Hf Hcl)) as H.
  replace (is_size i) with (len (snd o)) in H by (symmetry; apply Hi). exact H.
Qed.
Print Assumptions C37_clean_rest_partial.
(** and once it contains a space and no null byte, or not exactly one space before the first
    null byte, the next reader gets a ValueError. *)
Theorem C37_spoilt_rest_refuted :
  forall (K : zlib) (L : zlib_laws K) (sha1 : bytes -> bytes) (pagesize : Z) (R : Type) (rd : R -> Z -> res (bytes * R)) (content : R -> bytes)
    (i : istream R) (db : mdb K) (uses : list (list rop)) (sha : bytes) (k : Z) (post : list rop),
  (forall d, sha_ok (sha1 d)) -> 0 < pagesize -> stream_reader rd content -> proper content i ->
  let o := object_of content i in
  name_of sha1 o sha -> len (compressed_as (K := K) pagesize o) + len (snd o) <= 8192 -> len (header_of o) + 2 * len (snd o) <= 8192 ->
  clean_seeks (snd o) 0 [] (concat (map (cons Rewind) uses)) -> spoils (kept (snd o) 0 [] (concat (map (cons Rewind) uses))) ->
  exists f0, forall fuel, (f0 <= fuel)%nat -> exists db',
    m_run K sha1 pagesize rd fuel db (MStore i :: map (MUse sha) uses ++ [MUse sha (Read k :: post)]) =
    ret (Ok (OStored sha (fst o) (len (snd o))) :: map (fun ops => Ok (OStream sha (fst o) (len (snd o)) (cursor (snd o) 0 ops))) uses ++ [Raise ValueError], db').
Proof.
  intros K L sha1 pagesize R rd content i db uses sha k post Hsha Hpage HR Hi o Hn H1 H2 Hcl Hsp. apply name_form in Hn as ->.
  exists (2 * length (header_of o ++ snd o) + 8)%nat. intros fuel Hf.
  pose proof (proj2 (store_use L sha1 Hsha pagesize Hpage rd content HR i Hi H1 H2 fuel db uses Hf Hcl) Hsp k post) as H.
  replace (is_size i) with (len (snd o)) in H by (symmetry; apply Hi). exact H.
Qed.
Print Assumptions C37_spoilt_rest_refuted.
Example C37_example :
  proper (fun r => r) ex_i1 /\ name_of toy_sha (object_of (fun r => r) ex_i1) ex_n1 /\ snd (object_of (fun r => r) ex_i1) = ex_hi /\
  (len (compressed_as (K := stored) 1 (object_of (fun r => r) ex_i1)) + len ex_hi <= 8192 /\
   len (header_of (object_of (fun r => r) ex_i1)) + 2 * len ex_hi <= 8192) /\
  (clean_seeks ex_hi 0 [] (concat (map (cons Rewind) [[Read 3]; []; [Read 9]; [Read 4]; [Read 2]])) /\
   spoils (kept ex_hi 0 [] (concat (map (cons Rewind) [[Read 3]; []; [Read 9]; [Read 4]; [Read 2]])))) /\
  outcomes (ex_mem [MStore ex_i1; MUse ex_n1 [Read 3]; MUse ex_n1 []; MUse ex_n1 [Read 9]; MUse ex_n1 [Read 4]; MUse ex_n1 [Read 2]; MUse ex_n1 [Read 1]]) =
  Ok [Ok (OStored ex_n1 str_blob_type 6); Ok (OStream ex_n1 str_blob_type 6 [[104; 105; 32]]); Ok (OStream ex_n1 str_blob_type 6 []);
      Ok (OStream ex_n1 str_blob_type 6 [ex_hi]); Ok (OStream ex_n1 str_blob_type 6 [[104; 105; 32; 121]]);
      Ok (OStream ex_n1 str_blob_type 6 [[104; 105]]); Raise ValueError].
Proof.
  split; [exact (proj1 ex_proper)|]. split; [apply form_name|]. split; [reflexivity|].
  split; [split; vm_compute; discriminate|]. split; [|vm_compute; reflexivity]. split.
  - cbn. repeat split; intros H; repeat destruct H as [H|H]; easy.
  - left. change (kept _ _ _ _) with [32; 121; 111; 117]. split; [|left; reflexivity].
    intros H; repeat destruct H as [H|H]; easy.
Qed.

(** ** C62 *)
(** From a MemoryDB after any use (stores of proper objects, any reads) into a LooseObjectDB
    in any state, on a system where nothing fails: every listed object gets a file that is a
    zlib stream of its header and content, files that are there stay as they are, nothing
    else appears; the result is the number of objects that were missing; and doing it again
    copies nothing. *)
Theorem C62_copies :
  forall (K : zlib) (L : zlib_laws K) (sha1 : bytes -> bytes) (pagesize : Z) (R : Type) (rd : R -> Z -> res (bytes * R)) (content : R -> bytes),
  (forall d, sha_ok (sha1 d)) -> 0 < pagesize -> stream_reader rd content ->
  forall (O : os) (f : nat) (ops : list (mop R)) (outs : list (res mout)) (db : mdb K), faultless O ->
  Forall (fun op => match op with MStore i => proper content i /\ (length (content (is_stream i)) < f)%nat | _ => True end) ops ->
  m_run K sha1 pagesize rd f (mem_init K) ops = ret (outs, db) ->
  forall fuel, (forall o, In o (m_objects content ops) -> (length (compressed_as (K := K) pagesize o) < fuel)%nat /\ len (compressed_as (K := K) pagesize o) <= 2 ^ 63 - 1) ->
  forall odb shas s r s', cache_ok odb s -> wf s -> (forall sha, sha_ok sha -> room_for (l_root odb) sha s) ->
  (forall sha, In sha shas -> known sha1 (m_objects content ops) sha) ->
  runs O (copy_to_loose K sha1 pagesize fuel db odb shas) s r s' ->
  exists n db' odb', r = Ok (n, db', odb') /\ copied L sha1 (m_objects content ops) (l_root odb) shas s s' /\ number_missing (l_root odb) s shas n /\
    forall r2 s2, runs O (copy_to_loose K sha1 pagesize fuel db' odb' shas) s' r2 s2 ->
      (exists db2 odb2, r2 = Ok (0, db2, odb2)) /\ forall p, contents s2 p = contents s' p.
Proof.
  intros K L sha1 pagesize R rd content Hsha Hpage HR O f ops outs db Hcalm Hops Hdb fuel Hsize.
  exact (copy_top L sha1 Hsha pagesize Hpage rd content HR O Hcalm f ops outs db Hops Hdb fuel Hsize).
Qed.
Print Assumptions C62_copies.
(** Such an object can be read in the target: its type and size, and its compressed data
    (decompressing it: C23-C26). *)
Theorem C62_available :
  forall (K : zlib) (L : zlib_laws K) (sha1 : bytes -> bytes) (R : Type) (content : R -> bytes) (O : os) (f : nat) (ops : list (mop R)), faultless O ->
  Forall (fun op => match op with MStore i => proper content i /\ (length (content (is_stream i)) < f)%nat | _ => True end) ops ->
  forall odb odb' shas s s' sha, copied L sha1 (m_objects content ops) (l_root odb) shas s s' -> l_root odb' = l_root odb ->
  In sha shas -> contents s (object_file (l_root odb) sha) = None ->
  exists o, In o (m_objects content ops) /\ name_of sha1 o sha /\
    (len (header_of o) <= 8192 -> yields O (info K odb' sha) s' (Ok (sha, fst o, len (snd o)))) /\
    exists z, yields O (map_loose_object odb' sha) s' (Ok z) /\ zl_stream L z (header_of o ++ snd o).
Proof. intros K L sha1 R content O f ops Hcalm Hops. exact (copied_read L sha1 content O Hcalm f ops Hops). Qed.
Print Assumptions C62_available.
(** A sha that neither database has stops the copying with BadObject. *)
Theorem C62_unknown :
  forall (K : zlib) (L : zlib_laws K) (sha1 : bytes -> bytes) (pagesize : Z) (R : Type) (rd : R -> Z -> res (bytes * R)) (content : R -> bytes),
  (forall d, sha_ok (sha1 d)) -> 0 < pagesize -> stream_reader rd content ->
  forall (O : os) (f : nat) (ops : list (mop R)) (outs : list (res mout)) (db : mdb K), faultless O ->
  Forall (fun op => match op with MStore i => proper content i /\ (length (content (is_stream i)) < f)%nat | _ => True end) ops ->
  m_run K sha1 pagesize rd f (mem_init K) ops = ret (outs, db) ->
  forall fuel, (forall o, In o (m_objects content ops) -> (length (compressed_as (K := K) pagesize o) < fuel)%nat /\ len (compressed_as (K := K) pagesize o) <= 2 ^ 63 - 1) ->
  forall odb l1 sha l2 s r s', cache_ok odb s -> wf s -> (forall sha, sha_ok sha -> room_for (l_root odb) sha s) ->
  (forall sha, In sha l1 -> known sha1 (m_objects content ops) sha) -> ~ known sha1 (m_objects content ops) sha -> sha_ok sha ->
  contents s (object_file (l_root odb) sha) = None ->
  runs O (copy_to_loose K sha1 pagesize fuel db odb (l1 ++ sha :: l2)) s r s' ->
  r = Raise BadObject /\ copied L sha1 (m_objects content ops) (l_root odb) l1 s s'.
Proof.
  intros K L sha1 pagesize R rd content Hsha Hpage HR O f ops outs db Hcalm Hops Hdb fuel Hsize.
  exact (copy_unknown L sha1 Hsha pagesize Hpage rd content HR O Hcalm f ops outs db Hops Hdb fuel Hsize).
Qed.
Print Assumptions C62_unknown.
(** Two objects in memory, one of them already in the files. *)
Definition ex_m2 : mdb stored := database (ex_mem ex_m_ops).
Lemma returned p : match outcomes p with Ok _ => True | _ => False end -> p = ret (match outcomes p with Ok l => l | _ => [] end, database p).
Proof. destruct p as [[[l db]| |]|]; easy. Qed.
Example C62_example :
  ex_mem ex_m_ops = ret (match outcomes (ex_mem ex_m_ops) with Ok l => l | _ => [] end, ex_m2) /\
  fst (run_plan false [] (do! (n, _, _) := copy_to_loose stored toy_sha 1 50 ex_m2 ex_db [ex_n2; ex_n1; ex_n2] in ret n) ex_w1) = Ok 1 /\
  contents (snd (run_plan false [] (copy_to_loose stored toy_sha 1 50 ex_m2 ex_db [ex_n2; ex_n1; ex_n2]) ex_w1)) (object_file ex_root ex_n2) =
    Some (s_compress (header_of (str_tree_type, [7; 8]) ++ [7; 8])).
Proof. split; [apply returned; rewrite C36_example; exact I|]. split; vm_compute; reflexivity. Qed.
Lemma ex_room s : is_dir s ex_root = true -> (forall p, is_dir s p = true -> (length p < 3)%nat) -> is_file s ex_root = false ->
  (forall p, is_file s p = true -> length p = 3%nat) -> forall sha, sha_ok sha -> room_for ex_root sha s.
Proof.
  intros H1 H2 H3 H4 sha Hs. split; [exact H1|]. split.
  - destruct (is_dir s (object_file ex_root sha)) eqn:E; [|easy]. apply H2 in E. cbn in E. lia.
  - intros d Hd. destruct (is_file s d) eqn:E; [|easy]. apply H4 in E. cbn in Hd. destruct Hd as [<-|[<-|[]]]; cbn in E; lia.
Qed.
Lemma ex_w1_shape : w_files ex_w1 = [(object_file ex_root ex_n1, O)] /\ w_dirs ex_w1 = [[[114]]; [[114]; [48; 100]]; [[114]]].
Proof. split; vm_compute; reflexivity. Qed.
Example C62_example_hypotheses :
  faultless calm /\ cache_ok ex_db ex_w1 /\ wf ex_w1 /\ (forall sha, sha_ok sha -> room_for ex_root sha ex_w1) /\
  (forall sha, In sha [ex_n2; ex_n1; ex_n2] -> known toy_sha (m_objects (fun r => r) ex_m_ops) sha).
Proof.
  split; [intros []; reflexivity|]. split; [intros h p; discriminate|]. split; [|split].
  - destruct (store_ok stored toy_sha 1 file_read (fun d => proj2 (toy_sha_ok d)) calm 20 ex_db ex_i1 ltac:(easy) ex_w0 _ _ ex_w1 (wf_empty _) ex_runs1) as [H _]. exact H.
  - destruct ex_w1_shape as [Hf Hd]. apply ex_room.
    + unfold is_dir. rewrite Hd. reflexivity.
    + intros [|a p] H; [cbn; lia|]. unfold is_dir in H. rewrite Hd in H. apply existsb_exists in H as (q & Hq & E). apply path_eqb_eq in E as ->.
      cbn in Hq. destruct Hq as [<-|[<-|[<-|[]]]]; cbn; lia.
    + unfold is_file, lookup. rewrite Hf. reflexivity.
    + intros p H. unfold is_file, lookup in H. rewrite Hf in H. cbn [assoc] in H. destruct (path_eq_dec (object_file ex_root ex_n1) p) as [<-|]; easy.
  - intros sha H. cbn in H. destruct H as [<-|[<-|[<-|[]]]].
    + exists (str_tree_type, [7; 8]). split; [right; now left|]. eexists. split; [apply PackCheckProofs.loose_form_header|vm_compute; reflexivity].
    + exists (str_blob_type, ex_hi). split; [now left|]. eexists. split; [apply PackCheckProofs.loose_form_header|vm_compute; reflexivity].
    + exists (str_tree_type, [7; 8]). split; [right; now left|]. eexists. split; [apply PackCheckProofs.loose_form_header|vm_compute; reflexivity].
Qed.

(** ** C63 *)
(** Full statement: stream_copy into another MemoryDB makes the objects readable there.
    False: the already compressed data is compressed again; the copy is reported as there,
    and reading it raises. *)
Theorem C63_twice_compressed_refuted :
  match copy_to_mem stored toy_sha 1 50 ex_m2 (mem_init stored) [ex_n1] with
  | Ret (Ok (n, _, odb)) => n = 1 /\ outcomes (m_run stored toy_sha 1 file_read 50 odb [MHas ex_n1; MInfo ex_n1; MUse ex_n1 [Read 0]]) =
      Ok [Ok (OHas true); Ok (OInfo ex_n1 str_blob_type 6); Raise ValueError]
  | _ => False
  end.
Proof. vm_compute. split; reflexivity. Qed.
Print Assumptions C63_twice_compressed_refuted.
(** In general, from a MemoryDB after any use into one in any state: the listed objects that
    were missing are counted, are there and have the right type and size; but each read of
    such a copy raises ValueError unless the compressed form of the object happens to begin
    like an object header ([no_header]; the compressed form of that is dense or small, as in
    C23). *)
Theorem C63_every_copy_refuted :
  forall (K : zlib) (L : zlib_laws K) (sha1 : bytes -> bytes) (pagesize : Z) (R : Type) (rd : R -> Z -> res (bytes * R)) (content : R -> bytes),
  (forall d, sha_ok (sha1 d)) -> 0 < pagesize -> stream_reader rd content ->
  forall (f : nat) (ops : list (mop R)) (outs : list (res mout)) (db : mdb K),
  Forall (fun op => match op with MStore i => proper content i /\ (length (content (is_stream i)) < f)%nat | _ => True end) ops ->
  m_run K sha1 pagesize rd f (mem_init K) ops = ret (outs, db) ->
  let packed o := compressed_as (K := K) pagesize o in
  forall fuel, (forall o, In o (m_objects content ops) -> (length (packed o) < fuel)%nat /\ len (packed o) <= 2 ^ 63 - 1) ->
  forall odb shas, (forall sha, In sha shas -> known sha1 (m_objects content ops) sha) ->
  exists l db' odb', copy_to_mem K sha1 pagesize fuel db odb shas = ret (len l, db', odb') /\
    NoDup l /\ (forall sha, In sha l <-> In sha shas /\ mem_has_object odb sha = false) /\
    forall sha, In sha l -> exists o, In o (m_objects content ops) /\ name_of sha1 o sha /\
      forall fuel2, (2 * length (packed o) + 3 <= fuel2)%nat ->
      exists odb2, m_run K sha1 pagesize rd fuel2 odb' [MHas sha; MInfo sha] = ret ([Ok (OHas true); Ok (OInfo sha (fst o) (len (snd o)))], odb2) /\
      ((forall chunks, concat chunks = packed o -> let z := zc_all K (zc_new K 1) chunks in dense L z (packed o) \/ len z <= 8192) ->
       no_header (firstn (Z.to_nat 8192) (packed o)) ->
       forall k post, m_run K sha1 pagesize rd fuel2 odb' [MUse sha (Read k :: post)] = ret ([Raise ValueError], odb')).
Proof.
  intros K L sha1 pagesize R rd content Hsha Hpage HR f ops outs db Hops Hdb packed fuel.
  exact (copy_mem L sha1 Hsha pagesize Hpage rd content HR f ops outs db Hops Hdb fuel).
Qed.
Print Assumptions C63_every_copy_refuted.
(** The objects of [ex_m2]; one of them is in the target already. *)
Example C63_example :
  ex_mem ex_m_ops = ret (match outcomes (ex_mem ex_m_ops) with Ok l => l | _ => [] end, ex_m2) /\
  (forall sha, In sha [ex_n2; ex_n1; ex_n2] -> known toy_sha (m_objects (fun r => r) ex_m_ops) sha) /\
  (forall o, o = (str_blob_type, ex_hi) \/ o = (str_tree_type, [7; 8]) ->
     (forall chunks, concat chunks = compressed_as (K := stored) 1 o -> len (zc_all stored (zc_new stored 1) chunks) <= 8192) /\
     no_header (firstn (Z.to_nat 8192) (compressed_as (K := stored) 1 o))) /\
  match copy_to_mem stored toy_sha 1 50 ex_m2 (database (ex_mem [MStore ex_i2])) [ex_n2; ex_n1; ex_n2] with
  | Ret (Ok (n, _, odb)) => n = 1 /\ outcomes (m_run stored toy_sha 1 file_read 50 odb [MUse ex_n2 [Read 0]; MUse ex_n1 [Read 3]]) =
      Ok [Ok (OStream ex_n2 str_tree_type 2 [[7; 8]]); Raise ValueError]
  | _ => False
  end.
Proof.
  split; [exact (proj1 C62_example)|]. split; [exact (proj2 (proj2 (proj2 (proj2 C62_example_hypotheses))))|]. split.
  - intros o [-> | ->].
    + split; [intros chunks E; rewrite stored_zc_all, E; vm_compute; discriminate|].
      left. exists [120; 1; 1; 13]. eexists. split; [vm_compute; reflexivity|]. split; [intros H; repeat destruct H as [H|H]; easy|vm_compute; discriminate].
    + split; [intros chunks E; rewrite stored_zc_all, E; vm_compute; discriminate|].
      left. exists [120; 1; 1; 9]. eexists. split; [vm_compute; reflexivity|]. split; [intros H; repeat destruct H as [H|H]; easy|vm_compute; discriminate].
  - vm_compute. split; reflexivity.
Qed.

(** ** C66 *)
(** Full statement: storing the IStream returned by one database's store into another database
    yields a readable object there.  False: its sha is set, so that its (exhausted) stream is
    taken for compressed data.  Stored in memory it cannot be read; in a LooseObjectDB every
    such store makes an empty file. *)
Theorem C66_again_into_memory_refuted :
  exists i', runs calm (ex_store ex_i1) ex_w0 (Ok (i', None)) ex_w1 /\
    outcomes (ex_mem [MStore i'; MHas ex_n1; MUse ex_n1 [Read 0]]) =
      Ok [Ok (OStored ex_n1 str_blob_type 6); Ok (OHas true); Raise ValueError].
Proof. eexists. split; [exact ex_runs1|]. vm_compute. reflexivity. Qed.
Print Assumptions C66_again_into_memory_refuted.
(** In general: whatever proper object a LooseObjectDB stored, on any system, and whatever the
    state of the MemoryDB, *)
Theorem C66_files_into_memory_refuted :
  forall (K : zlib) (L : zlib_laws K) (sha1 : bytes -> bytes) (pagesize : Z) (R : Type) (rd : R -> Z -> res (bytes * R)) (content : R -> bytes) (O : os),
  (forall d, sha_ok (sha1 d)) -> 0 < pagesize -> stream_reader rd content ->
  forall fuel db i s i' out s', proper content i -> wf s -> runs O (store K sha1 pagesize rd fuel db None i) s (Ok (i', out)) s' ->
  forall fuel2 (db2 : mdb K) k post, (3 <= fuel2)%nat ->
  exists sha db', name_of sha1 (object_of content i) sha /\
    m_run K sha1 pagesize rd fuel2 db2 [MStore i'; MHas sha; MUse sha (Read k :: post)] =
      ret ([Ok (OStored sha (is_type i) (is_size i)); Ok (OHas true); Raise ValueError], db').
Proof.
  intros K L sha1 pagesize R rd content O Hsha Hpage HR fuel db i s i' out s' Hp Hw H fuel2 db2 k post.
  exact (stored_again L sha1 Hsha pagesize Hpage rd content HR O fuel db i s i' out s' fuel2 db2 k post Hp Hw H).
Qed.
Print Assumptions C66_files_into_memory_refuted.
(** and likewise when the first database is a MemoryDB. *)
Theorem C66_memory_into_memory_refuted :
  forall (K : zlib) (L : zlib_laws K) (sha1 : bytes -> bytes) (pagesize : Z) (R : Type) (rd : R -> Z -> res (bytes * R)) (content : R -> bytes),
  (forall d, sha_ok (sha1 d)) -> 0 < pagesize -> stream_reader rd content ->
  forall fuel (db : mdb K) i i' db1, proper content i -> (length (content (is_stream i)) < fuel)%nat ->
  mem_store K sha1 pagesize rd fuel db i = ret (i', db1) ->
  forall fuel2 (db2 : mdb K) k post, (3 <= fuel2)%nat ->
  exists sha db', name_of sha1 (object_of content i) sha /\
    m_run K sha1 pagesize rd fuel2 db2 [MStore i'; MHas sha; MUse sha (Read k :: post)] =
      ret ([Ok (OStored sha (is_type i) (is_size i)); Ok (OHas true); Raise ValueError], db').
Proof.
  intros K L sha1 pagesize R rd content Hsha Hpage HR fuel db i i' db1 Hp Hl H fuel2 db2 k post.
  exact (mem_stored_again L sha1 Hsha pagesize Hpage rd content HR fuel db i i' db1 fuel2 db2 k post Hp Hl H).
Qed.
Print Assumptions C66_memory_into_memory_refuted.
Theorem C66_again_into_files_refuted :
  forall (K : zlib) (L : zlib_laws K) (sha1 : bytes -> bytes) (pagesize : Z) (R : Type) (rd : R -> Z -> res (bytes * R)) (content : R -> bytes) (O : os),
  (forall d, sha_ok (sha1 d)) -> 0 < pagesize -> stream_reader rd content -> faultless O ->
  forall fuel db i sha s r s', is_binsha i = Some sha -> sha_ok sha -> content (is_stream i) = [] -> (0 < fuel)%nat ->
  wf s -> (forall sha, sha_ok sha -> room_for (l_root db) sha s) -> contents s (object_file (l_root db) sha) = None ->
  runs O (store K sha1 pagesize rd fuel db None i) s r s' ->
  (exists v, r = Ok v) /\ contents s' (object_file (l_root db) sha) = Some [] /\
  forall db', l_root db' = l_root db -> yields O (info K db' sha) s' (Raise ValueError).
Proof. intros K L sha1 pagesize R rd content O Hsha Hpage HR Hcalm. exact (store_empty L sha1 Hsha pagesize Hpage rd content HR O Hcalm). Qed.
Print Assumptions C66_again_into_files_refuted.
Example C66_example :
  let i' := mk_istream (Some ex_n1) str_blob_type 6 [] in
  runs calm (ex_store ex_i1) ex_w0 (Ok (i', None)) ex_w1 /\
  fst (run_plan false [] (ex_store i') ex_w0) = Ok (i', None) /\ contents (snd (run_plan false [] (ex_store i') ex_w0)) (object_file ex_root ex_n1) = Some [].
Proof. split; [exact ex_runs1|]. split; [by_vm|vm_compute; reflexivity]. Qed.
