(** Property C85 of properties.jsonl: reading from a LooseObjectDB while other processes
    store objects in it. *)
From Verif Require Import Py PyFacts FunModel FunSpec FunProofs IndexSpec ZlibModel ZlibProofs ReaderModel StreamSpec ReaderProofs PackSpec
  OsModel OsProofs LooseModel LooseSpec LooseProofs LooseTop LooseQuery LooseConc LooseReader Prop_Index Prop_Reader Prop_Pack Prop_Loose.

(** Any number of processes have been storing for a while (world s1) when info is called and
    continue during the call: the answer is that of an object of this name, or BadObject,
    and BadObject only if the object was not there at the beginning of the call (or reading
    may fail by itself). *)
Theorem C85_info_among_writers :
  forall (K : zlib) (L : zlib_laws K) (sha1 : bytes -> bytes) (pagesize : Z) (R : Type) (rd : R -> Z -> res (bytes * R)) (content : R -> bytes) (O : os) (root : path)
    (objs : list object) (jobs : list (nat * ldb * istream R)),
  (forall d, sha_ok (sha1 d)) -> 0 < pagesize -> stream_reader rd content ->
  (forall f db i, In (f, db, i) jobs -> l_root db = root /\ honest L sha1 content objs i /\ (is_binsha i = None \/ may_fail O KShort = false)) ->
  forall s l1 s1 db sha r l2 s2, wf s -> sound_dir L sha1 objs root s ->
  interleaved O (map (fun j => match j with (f, db, i) => store K sha1 pagesize rd f db None i end) jobs) s l1 s1 ->
  (forall o, In o objs -> ~ In 32 (fst o) /\ ~ In 0 (fst o) /\ len (loose_object_header (fst o) (len (snd o))) <= 8192) ->
  l_root db = root -> sha_ok sha -> amid O (info K db sha) l1 s1 (Ret r) l2 s2 ->
  (exists o z, file_of L sha1 objs sha o z /\ r = Ok (sha, fst o, len (snd o))) \/
  (r = Raise BadObject /\ (contents s1 (object_file root sha) = None \/ may_fail O KOpen = true \/ may_fail O KClose = true)).
Proof.
  intros K L sha1 pagesize R rd content O root objs jobs Hsha Hpage HR Hj. exact (info_amid L sha1 Hsha pagesize Hpage rd content HR O root objs jobs Hj).
Qed.
Print Assumptions C85_info_among_writers.
(** The same for stream: what is read is what the complete file of an object of this name
    gives (C21-C26 say what that is). *)
Theorem C85_stream_among_writers :
  forall (K : zlib) (L : zlib_laws K) (sha1 : bytes -> bytes) (pagesize : Z) (R : Type) (rd : R -> Z -> res (bytes * R)) (content : R -> bytes) (O : os) (root : path)
    (objs : list object) (jobs : list (nat * ldb * istream R)),
  (forall d, sha_ok (sha1 d)) -> 0 < pagesize -> stream_reader rd content ->
  (forall f db i, In (f, db, i) jobs -> l_root db = root /\ honest L sha1 content objs i /\ (is_binsha i = None \/ may_fail O KShort = false)) ->
  forall s l1 s1 db sha f ops r l2 s2, wf s -> sound_dir L sha1 objs root s ->
  interleaved O (map (fun j => match j with (f, db, i) => store K sha1 pagesize rd f db None i end) jobs) s l1 s1 ->
  l_root db = root -> sha_ok sha -> amid O (read_stream (K := K) f db sha ops) l1 s1 (Ret r) l2 s2 ->
  (exists o z, file_of L sha1 objs sha o z /\ r = read_object (K := K) z f ops) \/
  (r = Raise BadObject /\ (contents s1 (object_file root sha) = None \/ may_fail O KOpen = true \/ may_fail O KClose = true)).
Proof.
  intros K L sha1 pagesize R rd content O root objs jobs Hsha Hpage HR Hj. exact (stream_amid L sha1 Hsha pagesize Hpage rd content HR O root objs jobs Hj).
Qed.
Print Assumptions C85_stream_among_writers.
(** has_object: true only if the object is there when the call ends (and then it stays), false
    only if it was not there when the call began. *)
Theorem C85_has_among_writers :
  forall (K : zlib) (L : zlib_laws K) (sha1 : bytes -> bytes) (pagesize : Z) (R : Type) (rd : R -> Z -> res (bytes * R)) (content : R -> bytes) (O : os) (root : path)
    (objs : list object) (jobs : list (nat * ldb * istream R)),
  (forall d, sha_ok (sha1 d)) -> 0 < pagesize -> stream_reader rd content ->
  (forall f db i, In (f, db, i) jobs -> l_root db = root /\ honest L sha1 content objs i /\ (is_binsha i = None \/ may_fail O KShort = false)) ->
  forall s l1 s1 db sha r l2 s2, wf s -> sound_dir L sha1 objs root s ->
  interleaved O (map (fun j => match j with (f, db, i) => store K sha1 pagesize rd f db None i end) jobs) s l1 s1 ->
  l_root db = root -> cache_ok db s1 -> sha_ok sha -> amid O (has_object db sha) l1 s1 (Ret r) l2 s2 ->
  exists b db', r = Ok (b, db') /\
    if b then contents s2 (object_file root sha) <> None else contents s1 (object_file root sha) = None.
Proof.
  intros K L sha1 pagesize R rd content O root objs jobs Hsha Hpage HR Hj. exact (has_amid L sha1 Hsha pagesize Hpage rd content HR O root objs jobs Hj).
Qed.
Print Assumptions C85_has_among_writers.
(** The object of a store that has ended is there. *)
Theorem C85_finished_is_there :
  forall (K : zlib) (L : zlib_laws K) (sha1 : bytes -> bytes) (pagesize : Z) (R : Type) (rd : R -> Z -> res (bytes * R)) (content : R -> bytes) (O : os) (root : path)
    (objs : list object) (jobs : list (nat * ldb * istream R)),
  (forall d, sha_ok (sha1 d)) -> 0 < pagesize -> stream_reader rd content ->
  (forall f db i, In (f, db, i) jobs -> l_root db = root /\ honest L sha1 content objs i /\ (is_binsha i = None \/ may_fail O KShort = false)) ->
  forall s l1 s1 n i' out sha, wf s ->
  interleaved O (map (fun j => match j with (f, db, i) => store K sha1 pagesize rd f db None i end) jobs) s l1 s1 ->
  nth_error l1 n = Some (Ret (Ok (i', out))) -> is_binsha i' = Some sha -> contents s1 (object_file root sha) <> None.
Proof.
  intros K L sha1 pagesize R rd content O root objs jobs Hsha Hpage HR Hj. exact (finished_there L sha1 Hsha pagesize Hpage rd content HR O root objs jobs Hj).
Qed.
Print Assumptions C85_finished_is_there.

(** A process has stored a blob.  The reader opens its file; then a second process stores a
    tree; then the reader goes on. *)
Definition ex_jobs : list (nat * ldb * istream bytes) := [(20%nat, ex_db, ex_i1); (20%nat, ex_db, ex_i2)].
Definition ex_both : list object := [(str_blob_type, ex_hi); (str_tree_type, [7; 8])].
Lemma own_steps O A B (q : prog B) s q1 s1 : steps O q s q1 s1 -> forall (l : list (prog A)) q2 l2 s2, amid O q1 l s1 q2 l2 s2 -> amid O q l s q2 l2 s2.
Proof. induction 1 as [|q s q1 s1 q2 s2 H1 _ IH]; [easy|]. intros l q3 l3 s3 H. eapply am_own; [exact H1|]. now apply IH. Qed.
Lemma other_steps O A B (q : prog B) l1 (p : prog A) l2 s p' s1 : steps O p s p' s1 -> forall q2 l' s2,
  amid O q (l1 ++ p' :: l2) s1 q2 l' s2 -> amid O q (l1 ++ p :: l2) s q2 l' s2.
Proof. induction 1 as [|p s p1 s1 p2 s2 H1 _ IH]; [easy|]. intros q3 l3 s3 H. eapply am_other; [exact H1|]. now apply IH. Qed.
Example C85_example :
  (forall f db i, In (f, db, i) ex_jobs -> l_root db = ex_root /\ honest stored_laws toy_sha (fun r => r) ex_both i /\ (is_binsha i = None \/ may_fail calm KShort = false)) /\
  sound_dir stored_laws toy_sha ex_both ex_root ex_w0 /\
  (forall o, In o ex_both -> ~ In 32 (fst o) /\ ~ In 0 (fst o) /\ len (loose_object_header (fst o) (len (snd o))) <= 8192) /\
  exists l1, interleaved calm (map (fun j => match j with (f, db, i) => store stored toy_sha 1 file_read f db None i end) ex_jobs) ex_w0 l1 ex_w1 /\
  nth_error l1 0 = Some (Ret (Ok (mk_istream (Some ex_n1) str_blob_type 6 [], None))) /\
  exists l2, amid calm (info stored ex_db ex_n1) l1 ex_w1 (Ret (Ok (ex_n1, str_blob_type, 6))) l2 ex_w2.
Proof.
  split; [|split; [|split]].
  - intros f db i [[= <- <- <-]|[[= <- <- <-]|[]]]; (split; [reflexivity|]; split; [|now left]); split; try apply ex_proper; [now left|right; now left].
  - intros sha Hs. pose proof (ex_no_objects sha Hs) as H. apply orb_false_elim in H as [H1 H2]. split; [exact H2|].
    intros z Hz. apply is_file_lookup, contents_none in H1. unfold ex_root in *. cbn [ex_db l_root loose_init] in *. congruence.
  - intros o [<-|[<-|[]]]; (split; [|split; [|vm_compute; discriminate]]); cbn; intuition discriminate.
  - exists [Ret (Ok (mk_istream (Some ex_n1) str_blob_type 6 [], None)); ex_store ex_i2]. split; [|split; [reflexivity|]].
    + apply (run_within calm _ (ex_store ex_i1) [] [ex_store ex_i2] _ _ _ _ _ ex_runs1). apply il_refl.
    + exists [Ret (Ok (mk_istream (Some ex_n1) str_blob_type 6 [], None)); Ret (Ok (mk_istream (Some ex_n2) str_tree_type 2 [], None))].
      eapply am_own; [exists (Ok 0%nat); split; [right; right; vm_compute; split; reflexivity|reflexivity]|].
      apply (other_steps calm _ _ _ [Ret (Ok (mk_istream (Some ex_n1) str_blob_type 6 [], None))] (ex_store ex_i2) [] _ _ _ ex_runs2).
      cbn [app]. eapply own_steps; [|apply am_refl].
      match goal with |- steps _ ?p _ _ _ => replace ex_w2 with (snd (run_plan (windows calm) [] p ex_w2)) at 2 end.
      * apply plan_runs; [easy|by_vm|by_vm].
      * by_vm.
Qed.
