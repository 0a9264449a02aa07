(** Property C108 of properties.jsonl: owners and access rights in a database shared by several
    users, on every system allowed by OsModel.v with the rights of RightsSpec.v. *)
From Verif Require Import Py PyFacts FunModel FunSpec FunProofs IndexModel IndexSpec ZlibModel ZlibProofs ReaderModel StreamSpec ReaderProofs PackModel PackSpec
  OsModel OsProofs LooseModel LooseSpec LooseProofs LooseTop LooseLive PackDbModel CreateModel CreateSpec LockModel RightsSpec RightsProofs RightsTop Prop_Index Prop_Reader Prop_Pack Prop_Loose Prop_Create.

(** ** For the examples: users 1 and 2, and a database where nothing has been stored *)
Definition user1 : user := 1%nat.
Definition user2 : user := 2%nat.
Definition ex_g0 : rights := mk_rights (fun _ => 0%nat) (fun _ => false).
Definition ex_r0 : world := Prop_Loose.ex_w0.
Definition ex_s1 : world := snd (fst (rrun user1 (ex_store ex_i1) ex_r0 ex_g0)).
Definition ex_g1 : rights := snd (rrun user1 (ex_store ex_i1) ex_r0 ex_g0).
Definition ex_target : path := object_file ex_root ex_n1.
Lemma rrun_gives u A (p : prog A) s g r : rplan_ok u p s g = true -> fst (fst (rrun u p s g)) = r ->
  rruns calm u p s g r (snd (fst (rrun u p s g))) (snd (rrun u p s g)).
Proof. intros H <-. now apply rrun_runs. Qed.
Lemma ex_r1 : rruns calm user1 (ex_store ex_i1) ex_r0 ex_g0 (Ok (mk_istream (Some ex_n1) str_blob_type 6 [], None)) ex_s1 ex_g1.
Proof. apply rrun_gives; Prop_Loose.by_vm. Qed.
Lemma ex_goes : goes_to toy_sha (fun r => r) ex_i1 ex_n1.
Proof. split; [apply ex_proper|]. exact (form_name toy_sha (object_of (fun r => r) ex_i1)). Qed.
Lemma ex_wf0 : wf ex_r0.
Proof. apply wf_empty. Qed.

(** ** Loose objects *)
(** After a successful store, everyone may read the file of the object, and it belongs to the
    user who stored it. *)
Theorem C108_stored_for_all :
  forall (K : zlib) (sha1 : bytes -> bytes) (pagesize : Z) (R : Type) (rd : R -> Z -> res (bytes * R)) (O : os) (u : user) (fuel : nat) db (i : istream R),
  (forall d, sha_ok (sha1 d)) -> (forall sha, is_binsha i = Some sha -> is_bytes sha) ->
  forall s g i' out s' g', wf s -> rruns O u (LooseModel.store K sha1 pagesize rd fuel db None i) s g (Ok (i', out)) s' g' ->
  exists sha, is_binsha i' = Some sha /\ for_all s' g' (object_file (l_root db) sha) /\ owned_by u s' g' (object_file (l_root db) sha).
Proof.
  intros K sha1 pagesize R rd O u fuel db i Hsha Hpre s g i' out s' g' Hw H.
  destruct (stored_rights K sha1 Hsha pagesize rd O u fuel db i Hpre s g i' out s' g' Hw H) as (sha & H1 & H2 & H3 & _). now exists sha.
Qed.
Print Assumptions C108_stored_for_all.
Example C108_stored_example : for_all ex_s1 ex_g1 ex_target /\ owned_by user1 ex_s1 ex_g1 ex_target.
Proof. split; exists 0%nat; split; Prop_Loose.by_vm. Qed.
(** And every user reads the bytes of a file that is for all, with or without O_NOATIME (which
    only the owner may use: the second attempt is without). *)
Theorem C108_readable :
  forall (O : os) (v : user) db sha s g r s' g' d, faultless O ->
  for_all s g (object_file (l_root db) sha) -> contents s (object_file (l_root db) sha) = Some d -> d <> [] ->
  rruns O v (map_loose_object db sha) s g r s' g' -> r = Ok d /\ s' = s /\ g' = g.
Proof. intros. eapply map_shared; eauto. Qed.
Print Assumptions C108_readable.
Example C108_readable_example : l_noatime ex_db = true /\
  rruns calm user2 (LooseModel.info stored ex_db ex_n1) ex_s1 ex_g1 (Ok (ex_n1, str_blob_type, 6)) ex_s1 ex_g1.
Proof. split; [reflexivity|]. exact (rrun_gives user2 _ (LooseModel.info stored ex_db ex_n1) ex_s1 ex_g1 _ eq_refl eq_refl). Qed.

(** Violated: an object that is there already, in a file of another user, cannot be stored, on
    any system ... *)
Theorem C108_foreign_refuted :
  forall (K : zlib) (L : zlib_laws K) (sha1 : bytes -> bytes) (pagesize : Z) (R : Type) (rd : R -> Z -> res (bytes * R)) (content : R -> bytes) (O : os) (v : user) (fuel : nat) db (i : istream R),
  (forall d, sha_ok (sha1 d)) -> 0 < pagesize -> stream_reader rd content ->
  forall s g r s' g' sha u, goes_to sha1 content i sha -> wf s -> owned_by u s g (object_file (l_root db) sha) -> v <> u ->
  rruns O v (LooseModel.store K sha1 pagesize rd fuel db None i) s g r s' g' -> forall x, r <> Ok x.
Proof.
  intros K L sha1 pagesize R rd content O v fuel db i Hsha Hpage HR s g r s' g' sha u Hg Hw (k & Hl & Ho) Hv.
  exact (foreign_never L sha1 Hsha pagesize Hpage rd content HR O v fuel db i s g r s' g' sha u k Hg Hw Hl Ho Hv).
Qed.
Print Assumptions C108_foreign_refuted.
(** ... and where nothing fails by itself, the error is the PermissionError of chmod, after the
    14 attempts. *)
Theorem C108_foreign_error_refuted :
  forall (K : zlib) (L : zlib_laws K) (sha1 : bytes -> bytes) (pagesize : Z) (R : Type) (rd : R -> Z -> res (bytes * R)) (content : R -> bytes) (O : os) (v : user) (fuel : nat) db (i : istream R),
  (forall d, sha_ok (sha1 d)) -> 0 < pagesize -> stream_reader rd content -> faultless O ->
  forall s g r s' g' sha u, goes_to sha1 content i sha -> (is_binsha i <> None -> len (content (is_stream i)) <= maxsize) ->
  (length (content (is_stream i)) < fuel)%nat -> (forall sha, sha_ok sha -> room_for (l_root db) sha s) ->
  wf s -> owned_by u s g (object_file (l_root db) sha) -> v <> u ->
  rruns O v (LooseModel.store K sha1 pagesize rd fuel db None i) s g r s' g' -> r = Raise PermissionError.
Proof.
  intros K L sha1 pagesize R rd content O v fuel db i Hsha Hpage HR Hcalm s g r s' g' sha u Hg Hs Hf Hroom Hw (k & Hl & Ho) Hv.
  exact (foreign_denied L sha1 Hsha pagesize Hpage rd content HR O v fuel db i s g r s' g' sha u k Hcalm Hg Hs Hf Hroom Hw Hl Ho Hv).
Qed.
Print Assumptions C108_foreign_error_refuted.
(** User 2 stores what user 1 has stored, and may read: PermissionError.  User 1 may store it again. *)
Example C108_foreign_example : exists s2 g2 s3 g3,
  rruns calm user2 (ex_store ex_i1) ex_s1 ex_g1 (Raise PermissionError) s2 g2 /\
  contents s2 ex_target = contents ex_s1 ex_target /\
  rruns calm user1 (ex_store ex_i1) ex_s1 ex_g1 (Ok (mk_istream (Some ex_n1) str_blob_type 6 [], None)) s3 g3.
Proof.
  eexists _, _, _, _. split; [apply (rrun_gives user2 _ (ex_store ex_i1) ex_s1 ex_g1); Prop_Loose.by_vm|].
  split; [Prop_Loose.by_vm|apply (rrun_gives user1 _ (ex_store ex_i1) ex_s1 ex_g1); Prop_Loose.by_vm].
Qed.

(** Violated: whenever a new object is stored, there is a moment at which its file is there but
    only the storing user may read it, so that a process killed then leaves it so. *)
Theorem C108_private_window_refuted :
  forall (K : zlib) (sha1 : bytes -> bytes) (pagesize : Z) (R : Type) (rd : R -> Z -> res (bytes * R)) (O : os) (u : user) (fuel : nat) db (i : istream R),
  (forall d, sha_ok (sha1 d)) -> (forall sha, is_binsha i = Some sha -> is_bytes sha) ->
  forall s g i' out s' g', wf s -> rruns O u (LooseModel.store K sha1 pagesize rd fuel db None i) s g (Ok (i', out)) s' g' ->
  exists sha, is_binsha i' = Some sha /\ (lookup s (object_file (l_root db) sha) = None ->
    exists q s1 g1, rsteps O u (LooseModel.store K sha1 pagesize rd fuel db None i) s g q s1 g1 /\ only_for u s1 g1 (object_file (l_root db) sha)).
Proof.
  intros K sha1 pagesize R rd O u fuel db i Hsha Hpre s g i' out s' g' Hw H.
  destruct (stored_rights K sha1 Hsha pagesize rd O u fuel db i Hpre s g i' out s' g' Hw H) as (sha & H1 & _ & _ & _ & H2). now exists sha.
Qed.
Print Assumptions C108_private_window_refuted.
(** Then has_object says True to everyone, but info and stream raise BadObject for the others. *)
Theorem C108_has_but_bad_refuted :
  forall (K : zlib) (O : os) (u v : user) db sha s g, only_for u s g (object_file (l_root db) sha) -> v <> u ->
  (forall r s' g', rruns O v (LooseModel.has_object db sha) s g r s' g' -> exists db', r = Ok (true, db')) /\
  (forall r s' g', rruns O v (LooseModel.info K db sha) s g r s' g' -> r = Raise BadObject) /\
  (forall fuel r s' g', rruns O v (LooseModel.stream K fuel db sha) s g r s' g' -> r = Raise BadObject).
Proof.
  intros K O u v db sha s g Hp Hv. split; [|split].
  - intros r s' g' H. destruct Hp as (i & Hl & _). now destruct (there_has O v db sha s g r s' g' i Hl H).
  - intros r s' g' H. now destruct (hidden_info O v u K db sha s g r s' g' Hp Hv H).
  - intros fuel r s' g' H. now destruct (hidden_stream O v u K fuel db sha s g r s' g' Hp Hv H).
Qed.
Print Assumptions C108_has_but_bad_refuted.
(** The first n calls of user u. *)
Fixpoint rfirst (n : nat) (u : user) {A} (p : prog A) (s : world) (g : rights) : world * rights :=
  match n, p with
  | S n, Call c k => let '(a, s', g') := ranswer u c s g in rfirst n u (k a) s' g'
  | _, _ => (s, g)
  end.
(** User 1 is stopped before chmod. *)
Definition ex_killed : world * rights := rfirst 8%nat user1 (ex_store ex_i1) ex_r0 ex_g0.
Example C108_private_example : only_for user1 (fst ex_killed) (snd ex_killed) ex_target /\
  rruns calm user2 (LooseModel.has_object ex_db ex_n1) (fst ex_killed) (snd ex_killed) (Ok (true, mk_ldb ex_root [(bin_to_hex ex_n1, ex_target)] true)) (fst ex_killed) (snd ex_killed) /\
  rruns calm user2 (LooseModel.info stored ex_db ex_n1) (fst ex_killed) (snd ex_killed) (Raise BadObject) (fst ex_killed) (snd ex_killed).
Proof.
  split; [exists 0%nat; split; [Prop_Loose.by_vm|split; Prop_Loose.by_vm]|].
  split; [exact (rrun_gives user2 _ (LooseModel.has_object ex_db ex_n1) (fst ex_killed) (snd ex_killed) _ eq_refl eq_refl)|exact (rrun_gives user2 _ (LooseModel.info stored ex_db ex_n1) (fst ex_killed) (snd ex_killed) _ eq_refl eq_refl)].
Qed.

(** ** Packs *)
(** Violated: both files of every pack that PackEntity.create makes are for its user only ... *)
Theorem C108_created_private_refuted :
  forall (K : zlib) (sha1 : bytes -> bytes) (pagesize : Z) (R : Type) (rd : R -> Z -> res (bytes * R)) (fuel : nat) (O : os) (u : user) base level objs oc s0 g0 pp s g,
  may_fail O KShort = false -> wf s0 ->
  rruns O u (create_pack K sha1 pagesize rd fuel base level objs oc) s0 g0 (Ok pp) s g ->
  exists psha name iname, actual_names psha name iname /\ pp = base ++ [name] /\ only_for u s g pp /\ only_for u s g (base ++ [iname]).
Proof.
  intros K sha1 pagesize R rd fuel O u base level objs oc s0 g0 pp s g Hs Hw H.
  exact (create_private K sha1 pagesize rd fuel O Hs u base level objs oc s0 g0 pp s g Hw H).
Qed.
Print Assumptions C108_created_private_refuted.
(** ... so that nobody else can open them. *)
Theorem C108_cannot_open_refuted :
  forall (O : os) (u v : user) noatime p s g a s' g', only_for u s g p -> v <> u ->
  rsys O v (OpenRead noatime p) s g a s' g' -> a = Raise PermissionError.
Proof. intros O u v noatime p s g a s' g' H1 H2 H3. now destruct (hidden_open O v u noatime p s g a s' g' H1 H2 H3). Qed.
Print Assumptions C108_cannot_open_refuted.
Example C108_created_example : exists s g, rruns calm user1 ex_create Prop_Create.ex_w0 ex_g0 (Ok ex_pp) s g /\ only_for user1 s g ex_pp /\ only_for user1 s g ex_ip.
Proof.
  exists (snd (fst (rrun user1 ex_create Prop_Create.ex_w0 ex_g0))), (snd (rrun user1 ex_create Prop_Create.ex_w0 ex_g0)).
  split; [apply rrun_gives; Prop_Loose.by_vm|]. split; [exists 0%nat|exists 1%nat]; (split; [Prop_Loose.by_vm|split; Prop_Loose.by_vm]).
Qed.

(** ** Locked files *)
(** A commit that succeeds leaves a file of its user, which everyone may read, whoever owned the
    file before. *)
Theorem C108_commit_for_all :
  forall (O : os) (u : user) l fd s g l' s' g', lf_fd l = Some fd -> lf_write l = Some true ->
  rruns O u (lf_commit (windows O) l) s g (Ok (l', Ok tt)) s' g' -> for_all s' g' (lf_path l) /\ owned_by u s' g' (lf_path l).
Proof. exact commit_rights. Qed.
Print Assumptions C108_commit_for_all.
(** User 2 opens and commits in place of a file of user 1. *)
Definition ex_swap : prog (lockedfd * res unit) :=
  do! (l, _) := lf_open (lf_init ex_target) true in do! _ := lf_os_write l [1; 2] in lf_commit false l.
Example C108_commit_example : exists l s g, rruns calm user2 ex_swap ex_s1 ex_g1 (Ok (l, Ok tt)) s g /\
  owned_by user1 ex_s1 ex_g1 ex_target /\ owned_by user2 s g ex_target /\ for_all s g ex_target.
Proof.
  exists (mk_lockedfd ex_target None (Some true)), (snd (fst (rrun user2 ex_swap ex_s1 ex_g1))), (snd (rrun user2 ex_swap ex_s1 ex_g1)).
  split; [apply rrun_gives; Prop_Loose.by_vm|]. split; [exists 0%nat; split; Prop_Loose.by_vm|].
  split; exists 1%nat; split; Prop_Loose.by_vm.
Qed.
