(** What other users see: reading, storing again, packs and locked files (C108). *)
From Coq Require Import ZifyBool ZifyNat.
From Verif Require Import Py PyFacts FunModel FunSpec FunProofs IndexModel ZlibModel ReaderModel StreamSpec IndexSpec PackModel PackSpec OsModel OsProofs LooseModel LooseSpec LooseProofs LooseTop LooseLive
  PackDbModel CreateModel CreateSpec CreateProofs CreateConc CreateRead CreateDurable LockModel RightsSpec RightsProofs.
Ltac Zify.zify_post_hook ::= Z.div_mod_to_equations.

(** ** Reading *)
Section Read.
  Context (O : os) (v : user).
  Lemma hidden_open u noatime p s g a s' g' : only_for u s g p -> v <> u -> rsys O v (OpenRead noatime p) s g a s' g' ->
    a = Raise PermissionError /\ s' = s /\ g' = g.
  Proof.
    intros (i & Hl & Ho & Hp) Hv [-> H]. rewrite Hl in H. unfold may_read in H. rewrite Ho, Hp in H. replace (Nat.eqb u v) with false in H by lia. cbn [orb andb] in H. destruct H as [-> ->]. auto.
  Qed.
  Lemma hidden_contents u noatime p s g r s' g' : only_for u s g p -> v <> u -> rruns O v (file_contents_ro_filepath noatime p) s g r s' g' ->
    r = Raise PermissionError /\ s' = s /\ g' = g.
  Proof.
    intros Hp Hv H. unfold file_contents_ro_filepath, pbind in H. apply rruns_after in H as (r1 & s1 & g1 & H1 & H2). apply rruns_sysr in H1.
    destruct (hidden_open u noatime p s g r1 s1 g1 Hp Hv H1) as (-> & -> & ->). now apply rruns_ret in H2.
  Qed.
  Lemma hidden_map u db sha s g r s' g' : only_for u s g (object_file (l_root db) sha) -> v <> u -> rruns O v (map_loose_object db sha) s g r s' g' ->
    r = Raise BadObject /\ s' = s /\ g' = g.
  Proof.
    intros Hp Hv H. unfold map_loose_object, catch in H. rewrite object_path_file in H. apply rruns_after in H as (r1 & s1 & g1 & H1 & H2).
    destruct (hidden_contents u _ _ _ _ _ _ _ Hp Hv H1) as (-> & -> & ->). cbn [is_oserror is_enoent negb] in H2.
    apply rruns_after in H2 as (r1 & s1 & g1 & H3 & H2). destruct (hidden_contents u _ _ _ _ _ _ _ Hp Hv H3) as (-> & -> & ->). now apply rruns_ret in H2.
  Qed.
  Lemma hidden_info u K db sha s g r s' g' : only_for u s g (object_file (l_root db) sha) -> v <> u -> rruns O v (LooseModel.info K db sha) s g r s' g' ->
    r = Raise BadObject /\ s' = s /\ g' = g.
  Proof.
    intros Hp Hv H. unfold LooseModel.info, pbind in H. apply rruns_after in H as (r1 & s1 & g1 & H1 & H2).
    destruct (hidden_map u _ _ _ _ _ _ _ Hp Hv H1) as (-> & -> & ->). now apply rruns_ret in H2.
  Qed.
  Lemma hidden_stream u K fuel db sha s g r s' g' : only_for u s g (object_file (l_root db) sha) -> v <> u -> rruns O v (LooseModel.stream K fuel db sha) s g r s' g' ->
    r = Raise BadObject /\ s' = s /\ g' = g.
  Proof.
    intros Hp Hv H. unfold LooseModel.stream, pbind in H. apply rruns_after in H as (r1 & s1 & g1 & H1 & H2).
    destruct (hidden_map u _ _ _ _ _ _ _ Hp Hv H1) as (-> & -> & ->). now apply rruns_ret in H2.
  Qed.
  Lemma there_has db sha s g r s' g' i : lookup s (object_file (l_root db) sha) = Some i -> rruns O v (LooseModel.has_object db sha) s g r s' g' ->
    (exists db', r = Ok (true, db')) /\ s' = s /\ g' = g.
  Proof.
    intros Hl H. unfold LooseModel.has_object in H. apply rruns_after in H as (r1 & s1 & g1 & H1 & H2). unfold readable_db_object_path in H1.
    destruct (cache_get _ _) as [p|].
    - apply rruns_ret in H1 as (-> & -> & ->). apply rruns_ret in H2 as (-> & -> & ->). eauto.
    - rewrite object_path_file in H1. unfold pbind in H1. apply rruns_after in H1 as (r2 & s2 & g2 & H3 & H1). apply rruns_sysv in H3 as (x & -> & [[Hx ->] ->]).
      assert (x = true) as ->. { rewrite Hx. unfold path_exists, is_file. now rewrite Hl. }
      apply rruns_ret in H1 as (-> & -> & ->). apply rruns_ret in H2 as (-> & -> & ->). eauto.
  Qed.

  (** Everyone reads a public file. *)
  Lemma open_shared (Hcalm : faultless O) noatime p s g a s' g' i : lookup s p = Some i -> public g i = true -> rsys O v (OpenRead noatime p) s g a s' g' ->
    s' = s /\ g' = g /\ (a = Ok i \/ (noatime = true /\ owner g i <> v /\ a = Raise PermissionError)).
  Proof.
    intros Hl Hp [-> H]. rewrite Hl in H. unfold may_read in H. rewrite Hp, orb_true_r in H. cbn [andb] in H.
    assert (Hgo : sys O (OpenRead noatime p) s a s' -> s' = s /\ a = Ok i).
    { cbn [sys]. unfold fails, gives. rewrite !Hcalm, Hl. intros [(E & _)|[(_ & E & _)|[-> ->]]]; easy. }
    destruct noatime; cbn [negb orb] in H; [|destruct (Hgo H); auto].
    destruct (Nat.eqb_spec (owner g i) v); [destruct (Hgo H); auto|]. destruct H as [-> ->]. auto 10.
  Qed.
  Lemma contents_shared (Hcalm : faultless O) noatime p s g r s' g' d : for_all s g p -> contents s p = Some d -> d <> [] ->
    rruns O v (file_contents_ro_filepath noatime p) s g r s' g' -> s' = s /\ g' = g /\ (r = Ok d \/ (noatime = true /\ r = Raise PermissionError)).
  Proof.
    intros (i & Hl & Hp) Hc Hd H. unfold contents in Hc. rewrite Hl in Hc. injection Hc as Hc.
    unfold file_contents_ro_filepath, pbind in H. apply rruns_after in H as (r1 & s1 & g1 & H1 & H2). apply rruns_sysr in H1.
    destruct (open_shared Hcalm _ _ _ _ _ _ _ i Hl Hp H1) as (-> & -> & [-> | (-> & _ & ->)]); [|apply rruns_ret in H2; intuition].
    unfold finally in H2. apply rruns_after in H2 as (r2 & s2 & g2 & H3 & H2). apply rruns_sysr in H3. cbn [rsys sys] in H3. rewrite Hc in H3.
    destruct H3 as [H3 ->]. destruct d as [|b d]; [easy|]. destruct H3 as [-> ->]. unfold pbind in H2.
    apply rruns_after in H2 as (r3 & s3 & g3 & H4 & H2). apply rruns_sysr in H4. cbn [rsys sys] in H4. unfold fails, gives in H4. rewrite Hcalm in H4.
    destruct H4 as [[(E & _)|[-> ->]] ->]; [discriminate|]. apply rruns_ret in H2. intuition.
  Qed.
  Lemma map_shared (Hcalm : faultless O) db sha s g r s' g' d : for_all s g (object_file (l_root db) sha) -> contents s (object_file (l_root db) sha) = Some d -> d <> [] ->
    rruns O v (map_loose_object db sha) s g r s' g' -> r = Ok d /\ s' = s /\ g' = g.
  Proof.
    intros Hp Hc Hd H. unfold map_loose_object, catch in H. rewrite object_path_file in H. apply rruns_after in H as (r1 & s1 & g1 & H1 & H2).
    destruct (contents_shared Hcalm _ _ _ _ _ _ _ _ Hp Hc Hd H1) as (-> & -> & [-> | (_ & ->)]); [now apply rruns_ret in H2|]. cbn [is_oserror is_enoent negb] in H2.
    apply rruns_after in H2 as (r2 & s2 & g2 & H3 & H2).
    destruct (contents_shared Hcalm _ _ _ _ _ _ _ _ Hp Hc Hd H3) as (-> & -> & [-> | (E & _)]); [|discriminate]. now apply rruns_ret in H2.
  Qed.
End Read.

(** ** Storing an object whose file is another user's *)
Section Foreign.
  Context {K : zlib} (L : zlib_laws K) (sha1 : bytes -> bytes) (Hsha : forall d, sha_ok (sha1 d)) (pagesize : Z) (Hpage : 0 < pagesize).
  Context {R : Type} (read : R -> Z -> res (bytes * R)) (content : R -> bytes) (HR : stream_reader read content).
  Context (O : os) (v : user) (fuel : nat) (db : ldb) (i : istream R).
  Notation store := (LooseModel.store K sha1 pagesize read fuel db None i).
  Notation root := (l_root db).
  Notation goes_to := (goes_to sha1 content i).
  Lemma goes_bytes sha : goes_to sha -> forall x, is_binsha i = Some x -> is_bytes x.
  Proof. intros Hg x Hx. unfold RightsSpec.goes_to in Hg. rewrite Hx in Hg. destruct Hg as [-> Hg]. apply Hg. Qed.
  Lemma stored_where s g i' out s' g' sha : goes_to sha -> wf s -> rruns O v store s g (Ok (i', out)) s' g' ->
    exists sha', is_binsha i' = Some sha' /\ object_file root sha' = object_file root sha.
  Proof.
    intros Hg Hw H. pose proof (goes_bytes _ Hg) as Hpre.
    pose proof (rsteps_steps O v _ _ _ _ _ _ _ H (store_not_read K sha1 pagesize read fuel db i Hpre)) as Hr.
    destruct (store_ok K sha1 pagesize read (fun d => proj2 (Hsha d)) (chmod_fails O) fuel db i Hpre s i' out s' Hw Hr) as (_ & sha' & z & E & _ & _ & _ & Hp & _).
    exists sha'. split; [exact E|]. unfold RightsSpec.goes_to in Hg. destruct (is_binsha i) as [x|] eqn:Eb.
    - unfold stored_as in Hp. rewrite Eb in Hp. destruct Hg as [-> _]. apply Hp.
    - destruct Hg as [Hg Hn]. destruct (stored_proper L sha1 Hsha pagesize Hpage read content HR (chmod_fails O) root i _ z Hg Hp) as [-> _].
      apply name_form in Hn. now rewrite Hn.
  Qed.
  Lemma foreign_never s g r s' g' sha u k : goes_to sha -> wf s -> lookup s (object_file root sha) = Some k -> owner g k = u -> v <> u ->
    rruns O v store s g r s' g' -> forall x, r <> Ok x.
  Proof.
    intros Hg Hw Hl Ho Hv H [i' out] ->. pose proof (goes_bytes _ Hg) as Hpre.
    destruct (stored_where _ _ _ _ _ _ _ Hg Hw H) as (sha' & E & Ef).
    destruct (stored_rights K sha1 Hsha pagesize read O v fuel db i Hpre s g i' out s' g' Hw H) as (sha2 & E2 & _ & _ & H3 & _).
    assert (sha2 = sha') as -> by congruence. rewrite Ef in H3. specialize (H3 k Hl). congruence.
  Qed.
  Lemma foreign_denied s g r s' g' sha u k : faultless O -> goes_to sha -> (is_binsha i <> None -> len (content (is_stream i)) <= maxsize) ->
    (length (content (is_stream i)) < fuel)%nat -> (forall sha, sha_ok sha -> room_for root sha s) ->
    wf s -> lookup s (object_file root sha) = Some k -> owner g k = u -> v <> u ->
    rruns O v store s g r s' g' -> r = Raise PermissionError.
  Proof.
    intros Hcalm Hg Hsize Hf Hroom Hw Hl Ho Hv H. pose proof (goes_bytes _ Hg) as Hpre. pose proof (foreign_never _ _ _ _ _ _ _ _ Hg Hw Hl Ho Hv H) as Hno.
    pose proof (rsteps_steps O v _ _ _ _ _ _ _ H (store_not_read K sha1 pagesize read fuel db i Hpre)) as Hr.
    destruct (store_denied_any K sha1 Hsha pagesize Hpage read content HR (chmod_fails O)) with (5 := Hr) as [[x E]|[_ E]]; try assumption.
    - intros c Hc. cbn. destruct c; try apply Hcalm. now elim Hc.
    - unfold RightsSpec.goes_to in Hg. unfold fine_any. destruct (is_binsha i) as [x|]; [destruct Hg as [-> Hg]; split; [exact Hg|now apply Hsize]|].
      destruct Hg as [(_ & Hs & _) _]. rewrite Hs. destruct (content (is_stream i)); [now right|left]. rewrite len_cons. pose proof (len_nonneg _ b). lia.
    - now elim (Hno x).
  Qed.
End Foreign.

(** ** Packs *)
Section Pack.
  Context (K : zlib) (sha1 : bytes -> bytes) (pagesize : Z) {R : Type} (oread : R -> Z -> res (bytes * R)) (fuel : nat).
  Context (O : os) (Hshort : may_fail O KShort = false) (u : user) (base : path).
  (** Calls of create: no file is opened or given away. *)
  Definition makes (B : Type) (c : call B) : Prop := match c with Mkstemp _ _ | Write _ _ | Close _ | Rename _ _ => True | _ => False end.
  Ltac mk := first [exact I|apply calls_bind; [|intros ?]|apply calls_sysr; exact I].
  Lemma flex_makes fd seen d : calls makes (flex_write fd seen d).
  Proof. unfold flex_write. repeat mk. Qed.
  Lemma res_makes A (r : res A) : calls makes (Ret r).
  Proof. exact I. Qed.
  Lemma stream_makes : forall f fd seen r z br bw crc, calls makes (stream_to_fd K pagesize oread f fd seen r z br bw crc).
  Proof.
    induction f as [|f IH]; intros; [exact I|]. cbn [stream_to_fd]. mk; [exact I|]. destruct a as [chunk r1]. cbv zeta. destruct (zc_compress K z chunk).
    apply calls_bind; [apply flex_makes|]. intros ?. destruct (negb _); [exact I|apply IH].
  Qed.
  Lemma objects_makes fd level oc : forall objs seen actual ofs, calls makes (objects_to_fd K pagesize oread fuel fd seen level objs oc actual ofs).
  Proof.
    induction objs as [|o objs IH]; intros; [exact I|]. cbn [objects_to_fd]. mk; [exact I|]. mk; [exact I|]. apply calls_bind; [apply flex_makes|]. intros ?.
    apply calls_bind.
    - unfold stream_to_pack_fd. apply calls_bind; [apply stream_makes|]. intros [[[[seen1 br] bw] crc] z]. cbv zeta. apply calls_bind; [apply flex_makes|]. intros ?. exact I.
    - intros [[[seen1 br] bw] crc]. destruct (br =? _); [|exact I]. destruct (_ =? oc); [exact I|]. apply calls_bind; [apply IH|]. intros [[seen2 ens] n]. exact I.
  Qed.
  Lemma each_makes A fd (f : A -> res bytes) : forall l seen, calls makes (each_to_fd fd seen f l).
  Proof. induction l as [|x l IH]; intros; [exact I|]. cbn [each_to_fd]. mk; [exact I|]. apply calls_bind; [apply flex_makes|]. intros ?. apply IH. Qed.
  Lemma fanout_makes fd : forall l seen c, calls makes (fanout_to_fd fd seen c l).
  Proof. induction l as [|x l IH]; intros; [exact I|]. cbn [fanout_to_fd]. mk; [exact I|]. apply calls_bind; [apply flex_makes|]. intros ?. apply IH. Qed.
  Lemma offsets_makes fd : forall l seen big, calls makes (offsets_to_fd fd seen l big).
  Proof. induction l as [|x l IH]; intros; [exact I|]. cbn [offsets_to_fd]. cbv zeta. mk; [exact I|]. apply calls_bind; [apply flex_makes|]. intros ?. apply IH. Qed.
  Lemma create_makes level objs oc : calls makes (create_pack K sha1 pagesize oread fuel base level objs oc).
  Proof.
    unfold create_pack. apply calls_bind; [now apply calls_sysr|]. intros [pp pf]. apply calls_bind; [now apply calls_sysr|]. intros [ip xf]. apply calls_bind.
    - unfold pack_to_fd. cbv zeta. apply calls_bind; [exact I|]. intros cnt. apply calls_bind; [apply flex_makes|]. intros seen.
      apply calls_bind; [apply objects_makes|]. intros [[seen1 ens] actual]. destruct (negb _); [exact I|]. destruct (len _ =? 20); [|exact I].
      apply calls_bind; [now apply calls_sysr|]. intros _. apply calls_bind; [|intros ?; exact I].
      unfold index_to_fd. cbv zeta. apply calls_bind; [apply flex_makes|]. intros ?. apply calls_bind; [exact I|]. intros ?. apply calls_bind; [apply flex_makes|]. intros ?.
      apply calls_bind; [exact I|]. intros ?. apply calls_bind; [apply fanout_makes|]. intros ?. apply calls_bind; [apply flex_makes|]. intros ?.
      apply calls_bind; [apply each_makes|]. intros ?. apply calls_bind; [apply offsets_makes|]. intros [seen2 big]. apply calls_bind; [apply each_makes|]. intros ?.
      destruct (len _ =? 20); [|exact I]. apply calls_bind; [apply flex_makes|]. intros ?. apply calls_bind; [now apply calls_sysr|]. intros ?. exact I.
    - intros [psha isha]. apply calls_bind; [now apply calls_sysr|]. intros _. apply calls_bind; [now apply calls_sysr|]. intros _. cbv zeta.
      apply calls_bind; [now apply calls_sysr|]. intros _. apply calls_bind; [now apply calls_sysr|]. intros _. exact I.
  Qed.

  (** Files made since then are the user's only. *)
  Definition mine (n : nat) (s : world) (g : rights) : Prop :=
    (n <= w_next s)%nat /\ forall k, (n <= k < w_next s)%nat -> owner g k = u /\ public g k = false.
  Lemma mine_step n : forall B (c : call B) s g a s' g', makes B c -> rsys O u c s g a s' g' -> mine n s g -> mine n s' g'.
  Proof.
    intros B c s g a s' g' Hm H [Hn Hk]. destruct c; try destruct Hm; cbn [rsys sys] in H; destruct H as [H ->]; unfold fails, gives in H.
    - destruct H as [(_ & -> & ->)|H]; [now split|]. destruct (is_dir s dir); [|destruct H as [-> ->]; now split].
      destruct H as (suf & _ & H). cbv zeta in H. destruct H as (_ & -> & ->). split; [cbn; lia|]. intros k Hk'. cbn in *.
      destruct (Nat.eqb_spec k (w_next s)); [easy|]. apply Hk. lia.
    - destruct H as [(_ & _ & ->)|[(_ & k & _ & _ & ->)|[_ ->]]]; now split.
    - destruct H as [(_ & _ & ->)|[_ ->]]; now split.
    - destruct H as [(_ & _ & ->)|H]; [now split|]. destruct (lookup s src); [|destruct H as [_ ->]; now split].
      destruct (is_dir s dst); [destruct H as [_ ->]; now split|]. destruct (negb _); [destruct H as [_ ->]; now split|].
      destruct (_ && _); destruct H as [_ ->]; now split.
  Qed.
  Lemma create_private level objs oc s0 g0 pp s g : wf s0 -> rruns O u (create_pack K sha1 pagesize oread fuel base level objs oc) s0 g0 (Ok pp) s g ->
    exists psha name iname, actual_names psha name iname /\ pp = base ++ [name] /\ only_for u s g pp /\ only_for u s g (base ++ [iname]).
  Proof.
    intros Hw H. assert (Hnr : calls not_read (create_pack K sha1 pagesize oread fuel base level objs oc)).
    { eapply calls_weaken; [|apply create_makes]. intros B c Hc. now destruct c. }
    pose proof (rsteps_steps O u _ _ _ _ _ _ _ H Hnr) as Hr. change (may_fail (chmod_fails O) KShort = false) in Hshort.
    destruct (calls_inv O u makes (mine (w_next s0)) (mine_step (w_next s0)) _ _ _ _ _ _ _ H (create_makes level objs oc)) as [[_ Hmine] _].
    { split; [easy|]. intros k Hk. lia. }
    destruct (create_young K sha1 pagesize oread fuel (chmod_fails O) Hshort base (mk_job level objs oc) s0 Hw _ s Hr) as (ph & Hp & Hw' & _ & _ & _ & _ & Hm).
    cbn [wp] in Hp. destruct Hp as [-> _].
    destruct (create_alone K sha1 pagesize oread (chmod_fails O) Hshort base fuel _ _ _ s0 pp s Hw Hr) as (ip & pack & idx & M & _).
    destruct (Hm pp ip pack idx M) as (_ & _ & (k & Hk1 & Hk2) & (k' & Hk1' & Hk2')).
    destruct M as (psha & isha & name & iname & _ & Hn & -> & ->). exists psha, name, iname. split; [exact Hn|]. split; [easy|].
    split; [exists k|exists k']; (split; [easy|]; apply Hmine; split; [easy|]; eapply wf_next; eauto).
  Qed.
End Pack.

(** ** Locked files *)
Lemma commit_rights O u l fd s g l' s' g' : lf_fd l = Some fd -> lf_write l = Some true ->
  rruns O u (lf_commit (windows O) l) s g (Ok (l', Ok tt)) s' g' -> for_all s' g' (lf_path l) /\ owned_by u s' g' (lf_path l).
Proof.
  intros Hf Hw H. unfold lf_commit, lf_end_writing in H. rewrite Hf, Hw in H. cbn [andb] in H.
  apply rruns_after in H as (r1 & s1 & g1 & H1 & H). destruct r1 as [[]|e|]; try (now apply rruns_ret in H). cbn [lf_path] in H.
  apply rruns_after in H as (r2 & s2 & g2 & H2 & H). assert (r2 = Ok tt /\ s' = s2 /\ g' = g2) as (-> & -> & ->).
  { destruct r2 as [[]|e|]; apply rruns_ret in H as (E & -> & ->); [easy|discriminate|discriminate]. }
  apply rruns_bind in H2 as ([] & s3 & g3 & _ & H2). apply rruns_bind in H2 as ([] & s4 & g4 & H3 & H2). apply rruns_sysr in H3, H2.
  cbn [rsys sys] in H3. destruct H3 as [H3 ->]. unfold fails, gives in H3. destruct H3 as [(_ & E & _)|H3]; [discriminate|].
  destruct (lookup s3 (lockfilepath (lf_path l))) as [k|]; [|now destruct H3].
  destruct (is_dir s3 (lf_path l)); [now destruct H3|]. destruct (negb _); [now destruct H3|]. destruct (_ && _); [now destruct H3|]. destruct H3 as [_ ->].
  cbn [rsys] in H2. assert (Hl : forall s, lookup (link s (lf_path l) k) (lf_path l) = Some k).
  { intros x. rewrite lookup_link. now destruct (path_eq_dec _ _). }
  rewrite Hl in H2. destruct (Nat.eqb_spec (owner g3 k) u) as [Ho|Ho]; [|now destruct H2].
  destruct H2 as [H2 ->]. cbn [sys] in H2. unfold fails, gives in H2. destruct H2 as [(_ & E & _)|H2]; [discriminate|].
  destruct (path_exists _ _); destruct H2 as [E ->]; [|discriminate].
  split; exists k; (split; [apply Hl|]); [cbn; now rewrite Nat.eqb_refl|exact Ho].
Qed.

(** ** The deterministic system *)
Fixpoint rplan_ok (u : user) {A} (p : prog A) (s : world) (g : rights) : bool :=
  match p with
  | Ret _ => true
  | Call c k => name_free c s && let '(a, s', g') := ranswer u c s g in rplan_ok u (k a) s' g'
  end.
Lemma ranswer_sys u B (c : call B) s g : name_free c s = true ->
  rsys calm u c s g (fst (fst (ranswer u c s g))) (snd (fst (ranswer u c s g))) (snd (ranswer u c s g)).
Proof.
  intros Hn. pose proof (answer_sys calm None B c s ltac:(easy) Hn) as H. cbn [windows calm] in H.
  destruct c; cbn [rsys ranswer]; try (split; [exact H|reflexivity]).
  - destruct (answer false None _ s) as [a s']. now split.
  - destruct (answer false None _ s) as [a s']. now split.
  - destruct (lookup s p) as [i|]; [|now split]. now destruct (may_read g u i && _).
  - destruct (lookup s p) as [i|]; [|now split]. destruct (Nat.eqb (owner g i) u); [|easy]. destruct (answer false None _ s) as [a s']. now split.
Qed.
Lemma rrun_runs u A (p : prog A) : forall s g, rplan_ok u p s g = true ->
  rruns calm u p s g (fst (fst (rrun u p s g))) (snd (fst (rrun u p s g))) (snd (rrun u p s g)).
Proof.
  induction p as [r|B c k IH]; intros s g Hok; [constructor|]. cbn [rrun rplan_ok] in *. apply andb_prop in Hok as [H1 H2].
  pose proof (ranswer_sys u B c s g H1) as H. destruct (ranswer u c s g) as [[a s'] g']. cbn [fst snd] in H.
  eapply rs_one; [exists a; split; [exact H|reflexivity]|]. now apply IH.
Qed.
