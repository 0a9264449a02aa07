(** Property C88 of properties.jsonl: storing through a GitDB (gitdb/db/git.py:44-83). *)
From Coq Require Import ZifyBool ZifyNat Permutation Relations.
From Verif Require Import Py PyFacts FunModel FunSpec FunProofs IndexModel IndexSpec IndexProofs ZlibModel ZlibProofs ReaderModel StreamSpec PackModel PackSpec Prop_Index Prop_Pack
  OsModel OsProofs LooseModel LooseSpec LooseProofs LooseTop PackDbModel PackDbSpec PackDbProofs PackDbTop Prop_PackDb CreateSpec OstreamModel
  MemModel MemProofs CompoundModel CompoundSpec GitModel GitSpec GitProofs GitTop Prop_Git Prop_Reader GitStoreModel GitStoreSpec GitStoreProofs Prop_Loose.
Local Notation contents := OsModel.contents.

(** ** What stores do *)
(** Whatever a GitDB was asked and whatever was stored before: a store through it is a store
    through a LooseObjectDB over its own objects directory, not over one of its alternates. *)
Theorem C88_delegates :
  forall (K : zlib) (sha1 : bytes -> bytes) (pagesize : Z) (R : Type) (rd : R -> Z -> res (bytes * R)) (O : os) (D : disk) (U : list Z -> bytes -> option pack) (r : list Z),
  (forall d, sha_ok (sha1 d)) ->
  forall s0, wf s0 -> proper_from (fs_at D s0) U r -> finite_acyclic (fs_at D s0) r ->
  exists N, forall fuel n l d s i, (N <= fuel)%nat -> history K sha1 pagesize rd O D fuel (gitdb r) s0 l d s ->
  exists d', git_store K sha1 pagesize rd (at_of D) (fs_at D s) n d i =
    ((do! (i', _) := LooseModel.store K sha1 pagesize rd n (loose_init (at_of D r) true) None i in ret i'), d').
Proof. intros K sha1 pagesize R rd O D U r Hsha s0. exact (delegates sha1 Hsha pagesize rd O D U r s0). Qed.
Print Assumptions C88_delegates.
(** The object returned by a store names a file of the own objects directory with the complete
    object; it was there before and is unchanged, or it is new. *)
Theorem C88_stores :
  forall (K : zlib) (L : zlib_laws K) (sha1 : bytes -> bytes) (pagesize : Z) (R : Type) (rd : R -> Z -> res (bytes * R)) (content : R -> bytes) (O : os) (D : disk)
    (U : list Z -> bytes -> option pack) (r : list Z),
  (forall d, sha_ok (sha1 d)) -> 0 < pagesize -> stream_reader rd content ->
  forall s0, wf s0 -> proper_from (fs_at D s0) U r -> finite_acyclic (fs_at D s0) r ->
  exists N, forall fuel l d s, (N <= fuel)%nat -> history K sha1 pagesize rd O D fuel (gitdb r) s0 l d s ->
  forall s1 i i' s2, In (Stored s1 i i' s2) l -> storable content i -> is_binsha i = None \/ may_fail O KShort = false ->
  exists sha, is_binsha i' = Some sha /\ sha_ok sha /\ is_type i' = is_type i /\ is_size i' = is_size i /\
    (exists z, LooseSpec.complete L sha1 content (at_of D r) i (object_file (at_of D r) sha) z) /\
    match contents s1 (object_file (at_of D r) sha) with
    | Some z => contents s2 (object_file (at_of D r) sha) = Some z
    | None => exists z, contents s2 (object_file (at_of D r) sha) = Some z /\ LooseSpec.complete L sha1 content (at_of D r) i (object_file (at_of D r) sha) z
    end.
Proof. intros K L sha1 pagesize R rd content O D U r Hsha Hpage HR s0. exact (history_stores L sha1 Hsha pagesize Hpage rd content HR O D U r s0). Qed.
Print Assumptions C88_stores.

(** ** What is answered *)
(** Every question is answered rightly for the files as they are at that time, although the
    database keeps caches, objects are stored through it and others store into any of the
    repositories it uses. *)
Theorem C88_answers :
  forall (K : zlib) (sha1 : bytes -> bytes) (pagesize : Z) (R : Type) (rd : R -> Z -> res (bytes * R)) (O : os) (D : disk) (U : list Z -> bytes -> option pack) (r : list Z),
  (forall d, sha_ok (sha1 d)) ->
  forall s0 m, wf s0 -> proper_from (fs_at D s0) U r -> finite_acyclic (fs_at D s0) r ->
  exists N, forall fuel l d s, (N <= fuel)%nat -> history K sha1 pagesize rd O D fuel (gitdb r) s0 l d s ->
  forall s1 o a, In (Asked s1 o a) l -> g_right (fs_at D s1) U K m r o a.
Proof. intros K sha1 pagesize R rd O D U r Hsha s0 m. exact (history_answers sha1 Hsha pagesize rd O D U r s0 m). Qed.
Print Assumptions C88_answers.
(** An object that was stored is there and is listed from then on. *)
Theorem C88_ever_after :
  forall (K : zlib) (sha1 : bytes -> bytes) (pagesize : Z) (R : Type) (rd : R -> Z -> res (bytes * R)) (O : os) (D : disk) (U : list Z -> bytes -> option pack) (r : list Z),
  (forall d, sha_ok (sha1 d)) ->
  forall s0, wf s0 -> proper_from (fs_at D s0) U r -> finite_acyclic (fs_at D s0) r ->
  exists N, forall fuel l1 s1 i i' s2 l2 d s sha, (N <= fuel)%nat ->
  history K sha1 pagesize rd O D fuel (gitdb r) s0 (l1 ++ Stored s1 i i' s2 :: l2) d s -> is_binsha i' = Some sha ->
  forall s3 o a, In (Asked s3 o a) l2 ->
  match o with
  | GHas sha' => sha' = sha -> a = HHas (Ok true)
  | GIter => exists names, a = HIter (Ok names) /\ In sha names
  | _ => True
  end.
Proof. intros K sha1 pagesize R rd O D U r Hsha s0. exact (ever_after sha1 Hsha pagesize rd O D U r s0). Qed.
Print Assumptions C88_ever_after.
(** info of a new object gives the type and the size that were stored. *)
Theorem C88_info :
  forall (K : zlib) (L : zlib_laws K) (sha1 : bytes -> bytes) (pagesize : Z) (R : Type) (rd : R -> Z -> res (bytes * R)) (content : R -> bytes) (O : os) (D : disk)
    (U : list Z -> bytes -> option pack) (r : list Z),
  (forall d, sha_ok (sha1 d)) -> 0 < pagesize -> stream_reader rd content ->
  forall s0, wf s0 -> proper_from (fs_at D s0) U r -> finite_acyclic (fs_at D s0) r ->
  exists N, forall fuel n l d s i p d1 i' s1 sha, (N <= fuel)%nat -> history K sha1 pagesize rd O D fuel (gitdb r) s0 l d s ->
  proper content i -> len (loose_object_header (is_type i) (is_size i)) <= 8192 ->
  git_store K sha1 pagesize rd (at_of D) (fs_at D s) n d i = (p, d1) -> runs O p s (Ok i') s1 -> is_binsha i' = Some sha -> ~ found (fs_at D s) U r sha ->
  fst (db_info K (fs_at D s1) fuel sha d1) = Ok (mk_oinfo sha (PBytes (is_type i)) (is_size i)).
Proof. intros K L sha1 pagesize R rd content O D U r Hsha Hpage HR s0. exact (info_new L sha1 Hsha pagesize Hpage rd content HR O D U r s0). Qed.
Print Assumptions C88_info.

(** ** The two models of a loose database *)
(** The loose database as a member of a GitDB answers has_object and info as the LooseObjectDB
    of C38-C46 does by its system calls. *)
Theorem C88_has_agrees : forall (D : disk) (O : os) s r p b noatime sha known, faultless O -> wf s -> k_place D r = Some (p, b) ->
  sha_ok sha -> is_dir s (object_file p sha) = false -> (forall x, In x known -> In x (loose_names (fs_at D s) r)) ->
  exists db', yields O (LooseModel.has_object (loose_init p noatime) sha) s (Ok (fst (loose_has (fs_at D s) r sha known), db')).
Proof. intros D O s r p b noatime sha known Hf Hw Hr. exact (agree_has D O s Hw r p b Hr noatime sha known). Qed.
Print Assumptions C88_has_agrees.
Theorem C88_info_agrees : forall (K : zlib) (D : disk) (O : os) s r p b noatime sha fuel known, faultless O -> wf s -> k_place D r = Some (p, b) -> sha_ok sha ->
  yields O (LooseModel.info K (loose_init p noatime) sha) s
    (match fst (db_info K (fs_at D s) fuel sha (Loose r known)) with
     | Ok (mk_oinfo sha' (PBytes typ) size) => Ok (sha', typ, size)
     | Ok _ => Raise AttributeError
     | Raise e => Raise e
     | Diverge => Diverge
     end).
Proof. intros K D O s r p b noatime sha fuel known Hf Hw Hr. exact (agree_info K D O Hf s Hw r p b Hr noatime sha fuel known). Qed.
Print Assumptions C88_info_agrees.

(** ** Without a repository *)
(** Where there is no directory, store raises InvalidDBRoot before any system call that could
    change a file, as often as it is tried. *)
Theorem C88_nowhere : forall (K : zlib) (sha1 : bytes -> bytes) (pagesize : Z) (R : Type) (rd : R -> Z -> res (bytes * R)) (at_path : list Z -> path) F n r dbs i,
  match dbs with None => True | Some c => c_dbs c = [] end -> f_repo F r = None ->
  exists c, git_store K sha1 pagesize rd at_path F n (Git r dbs) i = (throw InvalidDBRoot, Git r (Some c)) /\ c_dbs c = [].
Proof. intros K sha1 pagesize R rd. exact (store_nowhere K sha1 pagesize rd). Qed.
Print Assumptions C88_nowhere.
(** When the directory has been made since, store works. *)
Theorem C88_late : forall (K : zlib) (sha1 : bytes -> bytes) (pagesize : Z) (R : Type) (rd : R -> Z -> res (bytes * R)) (at_path : list Z -> path) F n r dbs i,
  match dbs with None => True | Some c => c_dbs c = [] end -> usable F r ->
  fst (git_store K sha1 pagesize rd at_path F n (Git r dbs) i) = (do! (i', _) := LooseModel.store K sha1 pagesize rd n (loose_init (at_path r) true) None i in ret i').
Proof. intros K sha1 pagesize R rd. exact (store_late K sha1 pagesize rd). Qed.
Print Assumptions C88_late.

(** ** Output streams *)
(** set_ostream of a new GitDB gives the stream set before and keeps the new one; what is no
    Sha1Writer is refused. *)
Theorem C88_ostream : forall (K : zlib) (at_path : list Z -> path) F (out stream : option (writer K)) r x out' d, usable F r ->
  git_set_ostream K at_path F out stream r None = (x, out', d) ->
  (match stream with Some (WFD _ _) => x = Raise TypeError /\ out' = out | _ => x = Ok out /\ out' = stream end) /\
  exists dbs, d = Git r (Some dbs) /\ fst (git_ostream K at_path F out' r (Some dbs)) = Ok out'.
Proof. intros K at_path F out stream r x out' d. exact (set_ostream_keeps K at_path F out stream r x out' d). Qed.
Print Assumptions C88_ostream.

(** ** Example: /a has the alternate /c, which has a pack; a blob is stored through a GitDB of
    /a, then somebody stores a tree into /c. *)
Definition ex_D : disk :=
  mk_disk (fun p => if beq p p_a then Some ([[97]], false) else if beq p p_c then Some ([[99]], true) else None) (fun t => Ok t) (fun _ => 7) (@rev bytes).
Definition ex_s0 : world :=
  mk_world [(alternates_file [[97]], 0%nat); (pack_dir [[99]] ++ [ex_name 99], 1%nat); (pack_dir [[99]] ++ [ex_idxname 99], 2%nat)] [[[97]]; [[99]]]
    (fun i => match i with 0%nat => text_b | 1%nat => k_data pk_c | 2%nat => k_idx pk_c | _ => [] end) 3%nat.
Lemma ex_s0_found p i : lookup ex_s0 p = Some i -> p = alternates_file [[97]] /\ i = 0%nat \/ p = pack_dir [[99]] ++ [ex_name 99] /\ i = 1%nat \/ p = pack_dir [[99]] ++ [ex_idxname 99] /\ i = 2%nat.
Proof.
  unfold lookup, ex_s0. cbn [w_files assoc]. intros H. repeat match type of H with (if path_eq_dec ?a ?b then _ else _) = _ => destruct (path_eq_dec a b) as [<- |_]; [injection H as <-; auto|] end. discriminate.
Qed.
Lemma ex_s0_wf : wf ex_s0.
Proof.
  split.
  - repeat (constructor; [cbn; intuition discriminate|]). constructor.
  - intros p i H. apply ex_s0_found in H as [[_ ->]|[[_ ->]|[_ ->]]]; cbn [w_next ex_s0]; lia.
  - intros p q i H1 H2. apply ex_s0_found in H1 as [[-> ->]|[[-> ->]|[-> ->]]]; apply ex_s0_found in H2 as [[-> E]|[[-> E]|[-> E]]]; easy.
Qed.
Definition ex_ra : repo := mk_repo None [] (Some (Ok text_b)).
Definition ex_rc : repo := mk_repo (Some dir_c) [] None.
Lemma ex_at r R : f_repo (fs_at ex_D ex_s0) r = Some R -> r = p_a /\ R = ex_ra \/ r = p_c /\ R = ex_rc.
Proof.
  rewrite fs_repo. change (k_place ex_D r) with (if beq r p_a then Some ([[97]] : path, false) else if beq r p_c then Some ([[99]] : path, true) else None). destruct (beq r p_a) eqn:Ea; [|destruct (beq r p_c) eqn:Ec; [|cbn [option_map]; discriminate]]; cbn [option_map fst snd]; intros H; injection H as <-.
  - apply beq_eq in Ea. left. split; [easy|]. by_vm.
  - apply beq_eq in Ec. right. split; [easy|]. by_vm.
Qed.
Lemma ex_s0_proper : proper_from (fs_at ex_D ex_s0) ex_V p_a.
Proof.
  split; [apply rev_order|]. split; [split; [easy|now eexists]|]. intros r _ R HR. apply ex_at in HR as [[-> ->]|[-> ->]]; cbn [ex_ra ex_rc r_pack r_loose r_alt].
  - split; [easy|]. split; [constructor|]. intros t [= <-]. left. now exists text_b.
  - split; [intros d [= <-]; exact dir_c_ok|]. split; [constructor|easy].
Qed.
Lemma ex_s0_alternate r p : alternate (fs_at ex_D ex_s0) r p -> r = p_a /\ p = p_c.
Proof.
  intros H. apply alt_of in H as (R & text & HR & Ha & Hl & _). apply ex_at in HR as [[-> ->]|[-> ->]]; [|discriminate]. injection Ha as <-.
  change (map strip (splitlines text_b)) with [p_c] in Hl. destruct Hl as [<- |[]]. easy.
Qed.
Lemma ex_s0_acyclic : finite_acyclic (fs_at ex_D ex_s0) p_a.
Proof.
  split.
  - exists [p_a; p_c]. intros r'. apply (rt_inv _ _ (fun r => In r [p_a; p_c])); [now left|]. intros x y _ H. apply ex_s0_alternate in H as [_ ->]. right. now left.
  - intros r _. apply (rank_acyclic _ _ (fun p => if beq p p_a then 1 else 0)). intros x y H. apply ex_s0_alternate in H as [-> ->]. reflexivity.
Qed.
Lemma ask_now K sha1 pagesize R (rd : R -> Z -> res (bytes * R)) O D fuel d s o a l d2 s2 : g_proper o -> fst (g_do (fs_at D s) K fuel o d) = a ->
  history K sha1 pagesize rd O D fuel (snd (g_do (fs_at D s) K fuel o d)) s l d2 s2 -> history K sha1 pagesize rd O D fuel d s (Asked s o a :: l) d2 s2.
Proof. intros Ho Ha H. eapply h_ask; [exact Ho| |exact H]. rewrite <- Ha. apply surjective_pairing. Qed.
Definition ex_d1 : db := snd (g_do (fs_at ex_D ex_s0) stored 9 (GHas n1) (gitdb p_a)).
Definition ex_p1 : prog (istream bytes) := fst (git_store stored toy_sha 1 file_read (at_of ex_D) (fs_at ex_D ex_s0) 20 ex_d1 ex_i1).
Definition ex_s1' : world := snd (run_plan (windows calm) [] ex_p1 ex_s0).
Definition ex_p2 : prog (istream bytes * option (writer stored)) := LooseModel.store stored toy_sha 1 file_read 20 (loose_init [[99]] true) None ex_i2.
Definition ex_s2' : world := snd (run_plan (windows calm) [] ex_p2 ex_s1').
Definition ex_i1' : istream bytes := mk_istream (Some n1) str_blob_type 6 [].
Example C88_example :
  (wf ex_s0 /\ proper_from (fs_at ex_D ex_s0) ex_V p_a /\ finite_acyclic (fs_at ex_D ex_s0) p_a /\ proper (fun r => r) ex_i1) /\
  exists d, history stored toy_sha 1 file_read calm ex_D 9 (gitdb p_a) ex_s0
    [Asked ex_s0 (GHas n1) (HHas (Ok false)); Stored ex_s0 ex_i1 ex_i1' ex_s1'; Asked ex_s1' (GHas n1) (HHas (Ok true));
     Asked ex_s1' (GInfo n1) (HInfo (Ok (mk_oinfo n1 (PBytes str_blob_type) 6))); Asked ex_s1' (GHas n2) (HHas (Ok false));
     Asked ex_s2' (GHas n2) (HHas (Ok true)); Asked ex_s2' GIter (HIter (Ok [n1; ex_s2; n2]))] d ex_s2'.
Proof.
  split; [split; [exact ex_s0_wf|]; split; [exact ex_s0_proper|]; split; [exact ex_s0_acyclic|apply ex_proper]|].
  assert (Hn : forall b, named (mk_istream None b 0 ([] : bytes))) by (intros b sha E; discriminate).
  assert (Hn1 : g_proper (GHas n1) /\ g_proper (GInfo n1) /\ g_proper (GHas n2)) by (repeat split; try reflexivity; repeat constructor; lia).
  eexists. apply ask_now; [apply Hn1|by_vm|]. eapply (h_store _ _ _ _ _ _ _ 20%nat); [intros sha E; discriminate|apply surjective_pairing| |].
  - unfold ex_s1'. apply plan_runs; [easy|by_vm|by_vm].
  - apply ask_now; [apply Hn1|by_vm|]. apply ask_now; [apply Hn1|by_vm|]. apply ask_now; [apply Hn1|by_vm|].
    eapply (h_other _ _ _ _ _ _ _ 20%nat p_c [[99]] true true _ _ ex_i2 ex_s2'); [intros sha E; discriminate|reflexivity| |].
    + eexists. unfold ex_s2'. apply plan_runs; [easy|by_vm|reflexivity].
    + apply ask_now; [apply Hn1|by_vm|]. apply ask_now; [exact I|by_vm|]. apply h_end.
Qed.
Example C88_nowhere_example : f_repo (fs_at ex_D ex_s0) p_x = None /\ usable (fs_at ex_D ex_s0) p_a /\ faultless calm /\
  is_dir ex_s1' (object_file [[97]] n1) = false /\ contents ex_s1' (object_file [[97]] n1) <> None.
Proof. split; [reflexivity|]. split; [apply ex_s0_proper|]. split; [intros k; reflexivity|]. split; [by_vm|]. vm_compute. discriminate. Qed.

(** ** C78, storing *)
(** Storing and the output stream report an invalid root whatever the database was asked
    before. *)
Theorem C78_store_partial : forall (F : fs) (K : zlib) (sha1 : bytes -> bytes) (pagesize : Z) (R : Type) (rd : R -> Z -> res (bytes * R)) (at_path : list Z -> path)
    (root : list Z) (fuel n : nat) (ops : list gop) (i : istream R) (out new : option (writer K)), f_repo F root = None ->
  exists dbs, snd (g_run F K fuel ops (gitdb root)) = Git root dbs /\
    (exists d, git_store K sha1 pagesize rd at_path F n (Git root dbs) i = (throw InvalidDBRoot, d)) /\
    (exists d, git_ostream K at_path F out root dbs = (Raise InvalidDBRoot, d)) /\
    (exists d, git_set_ostream K at_path F out new root dbs = (Raise InvalidDBRoot, out, d)).
Proof.
  intros F K sha1 pagesize R rd at_path root fuel n ops i out new H.
  assert (Hl : git_load F root = (Raise InvalidDBRoot, [])) by (unfold git_load, git_members; now rewrite H).
  assert (Hd : exists dbs, snd (g_run F K fuel ops (gitdb root)) = Git root dbs /\ match dbs with Some c => c_dbs c = [] | None => True end).
  { assert (Hrun : forall dbs, match dbs with Some c => c_dbs c = [] | None => True end ->
      exists dbs', snd (g_run F K fuel ops (Git root dbs)) = Git root dbs' /\ match dbs' with Some c => c_dbs c = [] | None => True end); [|now apply Hrun].
    induction ops as [|o ops IH]; intros dbs Hdbs; [now exists dbs|]. cbn [g_run].
    assert (Ho : exists dbs', snd (g_do F K fuel o (Git root dbs)) = Git root dbs' /\ match dbs' with Some c => c_dbs c = [] | None => True end).
    { destruct fuel as [|fuel]; [destruct o; now exists dbs|]. destruct o; cbn [g_do snd]; unfold with_dbs, in_git; cbn [db_has db_info db_iter db_size db_update fst snd];
        unfold in_git; cbn [snd]; rewrite Hl; (destruct dbs as [[l c]|]; [cbn [c_dbs] in Hdbs; subst l|eexists; now split]);
        unfold with_dbs, c_has, c_ask, c_iter, c_size, c_update, on_each, db_query; cbn [c_dbs c_cache first_with each snd fst]; try (eexists; now split);
        (destruct (dict_get _ c) as [j|]; cbn [fst snd c_dbs c_cache]; [destruct j|]; cbn [at_place]; eexists; now split). }
    destruct Ho as (dbs1 & E & H1). destruct (g_do F K fuel o (Git root dbs)) as [a d1]. cbn [snd] in E. subst d1.
    destruct (IH dbs1 H1) as (dbs2 & E & H2). destruct (g_run F K fuel ops (Git root dbs1)) as [l d2]. now exists dbs2. }
  destruct Hd as (dbs & -> & Hd). exists dbs. split; [easy|]. unfold git_store, git_ostream, git_set_ostream, loose_db. rewrite Hl.
  destruct dbs as [c|]; [rewrite Hd|]; cbn [List.find bind]; (split; [now eexists|]; split; now eexists).
Qed.
Print Assumptions C78_store_partial.
