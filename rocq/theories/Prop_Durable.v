(** Property C102 of properties.jsonl: what a power failure does to stored objects and
    committed files, over every zlib, every hash function and every behaviour of the system
    allowed by OsModel.v. *)
From Verif Require Import Py PyFacts IndexSpec ZlibModel ZlibProofs ReaderModel StreamSpec PackSpec PackCheckProofs
  OsModel OsProofs LooseModel LooseSpec LooseProofs LooseTop LooseQuery LooseLive LooseMain GitStoreProofs
  LockModel LockSpec LockProofs LockTop DurableSpec DurableProofs Prop_Index Prop_Reader Prop_Pack Prop_Loose Prop_Lock.

(** ** C102 *)
(** Every store of a new object that has returned: the power may fail so that the object file
    is empty.  From then on the database has the object, nobody can read it, and storing it
    again (or anything else) does not help. *)
Theorem C102_object_lost_refuted :
  forall (K : zlib) (sha1 : bytes -> bytes) (pagesize : Z) (R : Type) (rd : R -> Z -> res (bytes * R)) (O : os) (fuel : nat),
  (forall d, sha_ok (sha1 d)) -> faultless O -> forall db i s i' out s' sha,
  (forall x, is_binsha i = Some x -> is_bytes x) -> wf s -> contents s (object_file (l_root db) sha) = None ->
  runs O (LooseModel.store K sha1 pagesize rd fuel db None i) s (Ok (i', out)) s' -> is_binsha i' = Some sha ->
  exists s2, power_loss s s' s2 /\ contents s2 (object_file (l_root db) sha) = Some [] /\
    let new := loose_init (l_root db) (l_noatime db) in
    (exists new', yields O (LooseModel.has_object new sha) s2 (Ok (true, new'))) /\
    (forall n, yields O (LooseModel.stream K n new sha) s2 (Raise ValueError)) /\
    (forall n db' j s3, (forall x, is_binsha j = Some x -> is_bytes x) -> stops O (LooseModel.store K sha1 pagesize rd n db' None j) s2 s3 ->
       contents s3 (object_file (l_root db) sha) = Some []).
Proof.
  intros K sha1 pagesize R rd O fuel Hsha HO db i s i' out s' sha Hb Hw Hnone Hrun Hi.
  destruct (store_lost K sha1 pagesize rd O fuel Hsha db i s i' out s' sha Hb Hw Hnone Hrun Hi) as (s2 & H1 & Hw2 & H2).
  exists s2. split; [exact H1|]. split; [exact H2|]. cbv zeta. split; [|split].
  - destruct (has_yields O (loose_init (l_root db) (l_noatime db)) sha s2) as (new' & H3 & _); [easy|]. exists new'. cbn [l_root loose_init] in H3.
    replace (path_exists s2 (object_file (l_root db) sha)) with true in H3; [exact H3|]. symmetry. unfold path_exists. apply orb_true_iff. left.
    unfold contents in H2. unfold is_file. now destruct (lookup s2 (object_file (l_root db) sha)).
  - intros n. apply yields_bind_raise; [apply ro_stream|]. now apply map_yields_empty.
  - intros n db' j s3 Hj Hst. exact (store_existing sha1 Hsha pagesize rd O n db' j s2 s3 _ [] Hj Hw2 Hst H2).
Qed.
Print Assumptions C102_object_lost_refuted.
Example C102_object_example :
  faultless calm /\ (forall x, is_binsha ex_i1 = Some x -> is_bytes x) /\ wf ex_w0 /\ contents ex_w0 (object_file (l_root ex_db) ex_n1) = None /\
  runs calm (ex_store ex_i1) ex_w0 (Ok (mk_istream (Some ex_n1) str_blob_type 6 [], None)) Prop_Loose.ex_w1.
Proof. split; [easy|]. split; [easy|]. split; [apply wf_empty|]. split; [reflexivity|]. exact ex_runs1. Qed.
(** Every commit that has changed the file: the power may fail so that the file is empty,
    and has neither its old nor its new content. *)
Theorem C102_commit_lost_refuted :
  forall (O : os) (file : path) (us us1 us2 : list user) (s0 s s' : world) l w l', windows O = false ->
  wf s0 -> contents s0 (lockfilepath file) = None -> contents s0 file <> Some w ->
  Forall (newcomer file) us -> usteps O us s0 (us1 ++ mk_user l w None :: us2) s -> lf_fd l <> None -> lf_write l = Some true ->
  runs O (lf_commit (windows O) l) s (Ok (l', Ok tt)) s' ->
  contents s' file = Some w /\ exists s2, power_loss s0 s' s2 /\ contents s2 file = Some [].
Proof.
  intros O file us us1 us2 s0 s s' l w l' Hwin Hw Hl Hc Hn Hu Hf Hwr Hrun.
  exact (commit_lost O file s0 Hw us us1 us2 l w s l' s' Hwin Hl Hc Hn Hu Hf Hwr Hrun).
Qed.
Print Assumptions C102_commit_lost_refuted.
Example C102_commit_example :
  wf ex_world /\ contents ex_world (lockfilepath ex_file) = None /\ contents ex_world ex_file = Some ex_old /\
  Forall (newcomer ex_file) [ex_user] /\ usteps calm [ex_user] ex_world [mk_user ex_opened ex_new None] ex_w2 /\
  runs calm (lf_commit false ex_opened) ex_w2 (Ok (mk_lockedfd ex_file None (Some true), Ok tt)) (snd (run_plan false [] (lf_commit false ex_opened) ex_w2)).
Proof.
  split; [exact ex_wf|]. split; [reflexivity|]. split; [reflexivity|]. split; [now repeat constructor|]. split; [exact (ex_writing [] [])|].
  apply (plan_runs calm _ _ []); [easy|vm_compute; reflexivity|vm_compute; reflexivity].
Qed.
(** What does survive: wherever store stops and the power fails, every file but the temporary
    one is as before or the new object file, with a first part of the complete object. *)
Theorem C102_others_unharmed_partial :
  forall (K : zlib) (L : zlib_laws K) (sha1 : bytes -> bytes) (pagesize : Z) (R : Type) (rd : R -> Z -> res (bytes * R)) (content : R -> bytes) (O : os) (fuel : nat),
  (forall d, sha_ok (sha1 d)) -> 0 < pagesize -> stream_reader rd content ->
  forall db i s s' s2, storable content i -> is_binsha i = None \/ may_fail O KShort = false ->
  wf s -> stops O (LooseModel.store K sha1 pagesize rd fuel db None i) s s' -> power_loss s s' s2 ->
  exists tmp, (forall t, tmp = Some t -> temp_file (l_root db) t /\ contents s t = None) /\
    forall p, tmp <> Some p -> contents s2 p = contents s p \/
      (contents s p = None /\ exists z z', contents s2 p = Some z' /\ prefix z' z /\ complete L sha1 content (l_root db) i p z).
Proof.
  intros K L sha1 pagesize R rd content O fuel Hsha Hpage HR db i s s' s2 Hs Hk Hw Hst Hloss.
  assert (Hb : forall sha, is_binsha i = Some sha -> is_bytes sha).
  { intros sha E. unfold storable in Hs. rewrite E in Hs. apply Hs. }
  destruct (store_left K sha1 pagesize rd O fuel Hsha db i s s' s2 Hb Hw Hst Hloss) as (tmp & H1 & H2). exists tmp. split; [exact H1|].
  intros p Hp. destruct (H2 p Hp) as [H|(H & z & z' & _ & H3 & H4 & H5)]; [now left|right]. split; [exact H|]. exists z, z'. split; [exact H3|]. split; [exact H4|].
  exact (store_complete L sha1 Hsha pagesize Hpage rd content HR O db i p z Hs Hk H5).
Qed.
Print Assumptions C102_others_unharmed_partial.
(** The object just stored loses its last byte. *)
Example C102_others_example :
  let s2 := set_data Prop_Loose.ex_w1 0%nat (firstn 9 (w_data Prop_Loose.ex_w1 0%nat)) in
  storable (fun r => r) ex_i1 /\ stops calm (ex_store ex_i1) ex_w0 Prop_Loose.ex_w1 /\ power_loss ex_w0 Prop_Loose.ex_w1 s2 /\
  contents s2 (object_file ex_root ex_n1) <> contents Prop_Loose.ex_w1 (object_file ex_root ex_n1).
Proof.
  cbv zeta. split; [apply ex_proper|]. split; [eexists; exact ex_runs1|]. split.
  - split; [reflexivity|]. split; [reflexivity|]. split; [reflexivity|]. intros j. rewrite data_set_data. destruct (Nat.eqb_spec j 0) as [->|Hj].
    + split; [exists (skipn 9 (w_data Prop_Loose.ex_w1 0%nat)); symmetry; apply firstn_skipn|]. intros H. exfalso. revert H. vm_compute. lia.
    + split; [exists []; now rewrite app_nil_r|easy].
  - vm_compute. discriminate.
Qed.
