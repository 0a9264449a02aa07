(** Copying out of a MemoryDB. *)
From Coq Require Import ZifyBool ZifyNat.
From Verif Require Import Py PyFacts FunModel FunSpec FunProofs IndexSpec ZlibModel ReaderModel StreamSpec ReaderProofs PackSpec PackCheckProofs OsModel OsProofs LooseModel LooseSpec LooseProofs LooseTop LooseLive LooseQuery LooseMain MemModel MemSpec MemProofs.
Ltac Zify.zify_post_hook ::= Z.div_mod_to_equations.

(** ** Readers never change their compressed data *)
Lemma read_s_data {K : zlib} : forall f,
  (forall s (r : reader K) n d r', read_s f s r n = Ok (d, r') -> r_m r' = r_m r) /\
  (forall s (r : reader K) dat n d r', read_rest f s r dat n = Ok (d, r') -> r_m r' = r_m r).
Proof.
  induction f as [|f [IHs IHr]]; [split; discriminate|]. split.
  - intros s r n d r'. rewrite (read_s_S f). cbv zeta. destruct (_ =? 0); [intros [= _ <-]; easy|].
    destruct (r_buf r); [|apply IHr]. destruct (_ <=? _).
    + destruct (bio_read b _). intros [= _ <-]. easy.
    + intros H. now apply IHr in H.
  - intros s r dat n d r'. rewrite (read_rest_S f).
    destruct (inflate_some r n) as [[out r1]| |] eqn:E; cbn [bind]; try easy.
    assert (r_m r1 = r_m r) as <-.
    { unfold inflate_some in E. destruct (window _ _ _ _). destruct (n <? 0); [easy|]. apply bind_ok_inv in E as ([x y] & _ & E). injection E as _ <-. easy. }
    destruct (_ && _); [|intros [= _ <-]; easy]. intros H. apply bind_ok_inv in H as ([x y] & H1 & H2). injection H2 as _ <-. eapply IHs; eauto.
Qed.
Lemma read_data {K : zlib} f (r : reader K) n d r' : read f r n = Ok (d, r') -> r_m r' = r_m r.
Proof.
  unfold read, get_s. destruct (r_s r) as [s|]; [apply read_s_data|].
  intros H. apply bind_ok_inv in H as ([s r1] & H1 & H2). apply bind_ok_inv in H1 as ([[t s1] r2] & H1 & H3). injection H3 as <- <-.
  rewrite (proj1 (read_s_data f) _ _ _ _ _ H2). unfold parse_header_info in H1. apply bind_ok_inv in H1 as ([x r3] & H1 & H3).
  apply bind_ok_inv in H3 as ([t1 s2] & _ & H3). injection H3 as _ _ <-. cbn [r_m]. now apply read_s_data in H1.
Qed.
Lemma run_state_data {K : zlib} f ops : forall (r : reader K) l r', run_state (read f) (fun r => seek r 0 0) r ops = Ok (l, r') -> r_m r' = r_m r.
Proof.
  induction ops as [|[n|] ops IH]; intros r l r' H; cbn [run_state] in H.
  - now injection H as _ <-.
  - apply bind_ok_inv in H as ([d r1] & H1 & H). apply bind_ok_inv in H as ([l2 r2] & H2 & H). injection H as _ <-.
    rewrite (IH _ _ _ H2). eapply read_data; eauto.
  - change (seek r 0 0) with (Ok (rewind r)) in H. cbn [bind] in H. apply bind_ok_inv in H as ([l2 r2] & H2 & H). injection H as _ <-.
    now rewrite (IH _ _ _ H2).
Qed.

(** ** What is in memory after any use *)
Section Held.
  Context (K : zlib) (sha1 : bytes -> bytes) (Hsha : forall d, sha_ok (sha1 d)) (pagesize : Z) (Hpage : 0 < pagesize).
  Record held (objs : list object) (db : mdb K) : Prop := mk_held {
    h_known : forall o, In o objs -> dict_get (sha1 (form o)) (m_cache db) <> None;
    h_obj : forall sha n, dict_get sha (m_cache db) = Some n -> exists o r, In o objs /\ sha = sha1 (form o) /\
      nth_error (m_objs db) n = Some (mk_ostream sha (fst o) (len (snd o)) r) /\ r_m r = compressed_as (K := K) pagesize o /\ plain o }.
  Lemma held_set objs db sha n o r r' : held objs db -> dict_get sha (m_cache db) = Some n -> In o objs -> sha = sha1 (form o) ->
    nth_error (m_objs db) n = Some (mk_ostream sha (fst o) (len (snd o)) r) -> r_m r' = compressed_as (K := K) pagesize o -> plain o ->
    held objs (mk_mdb (m_cache db) (set_stream n r' (m_objs db))).
  Proof.
    intros [H3 H4] Hg Ho Hs Hn Hi Hp. split; cbn [m_cache m_objs]; try easy.
    intros sha2 n2 Hg2. rewrite nth_set_stream. destruct (Nat.eqb_spec n2 n) as [->|Hne].
    - destruct (H4 _ _ Hg2) as (o2 & r2 & Ho2 & Hs2 & Hn2 & _). rewrite Hn in Hn2. injection Hn2 as <- _ _ _.
      rewrite Hn. exists o, r'. cbn [ot_binsha ot_type ot_size]. auto 10.
    - now apply H4.
  Qed.
  Lemma held_stream objs db sha : held objs db ->
    match mem_stream db sha with
    | Ok (n, db') => held objs db' /\ exists o r, In o objs /\ sha = sha1 (form o) /\ dict_get sha (m_cache db') = Some n /\
        nth_error (m_objs db') n = Some (mk_ostream sha (fst o) (len (snd o)) r) /\ r_m r = compressed_as (K := K) pagesize o /\ plain o
    | Raise e => e = BadObject /\ ~ known sha1 objs sha
    | Diverge => False
    end.
  Proof.
    intros Hi. unfold mem_stream. destruct (dict_get sha (m_cache db)) as [n|] eqn:E.
    - destruct (h_obj _ _ Hi _ _ E) as (o & r & Ho & Hs & Hn & Hid & Hp). unfold handle_rewind, handle_object. rewrite Hn. cbn [bind ot_stream].
      change (seek r 0 0) with (Ok (rewind r)). cbn [bind].
      split; [eapply held_set; eauto|]. exists o, (rewind r). cbn [m_cache m_objs]. rewrite nth_set_stream, Nat.eqb_refl, Hn. auto 10.
    - split; [easy|]. intros (o & Ho & Hn). apply name_form in Hn as ->. now apply (h_known _ _ Hi o Ho).
  Qed.
  Context {R : Type} (rd : R -> Z -> res (bytes * R)) (content : R -> bytes) (HR : stream_reader rd content) (fuel : nat).
  Lemma held_do objs db op out db' : held objs db -> match op with MStore i => proper content i /\ (length (content (is_stream i)) < fuel)%nat | _ => True end ->
    m_do K sha1 pagesize rd fuel db op = ret (out, db') -> held (now_stored content objs op) db'.
  Proof.
    intros Hi Hp H. destruct op as [i|sha ops|sha|sha| |]; cbn [m_do now_stored] in *.
    - destruct Hp as [Hp Hf]. set (o := object_of content i) in *.
      destruct (mem_store_ok K sha1 rd content HR pagesize Hpage Hsha fuel db i Hp Hf) as (r' & E). fold o in E. cbv zeta in E. rewrite E in H.
      cbn [after ret settle_m is_binsha is_type is_size] in H. injection H as _ <-. destruct Hi as [H3 H4]. split; cbn [m_cache m_objs].
      + intros o' Ho'. rewrite dict_get_set. destruct (beq (sha1 (form o)) (sha1 (form o'))) eqn:Eb; [easy|].
        destruct Ho' as [<-|Ho']; [rewrite (proj2 (beq_true _ _) eq_refl) in Eb; easy|now apply H3].
      + intros sha n. rewrite dict_get_set. destruct (beq (sha1 (form o)) sha) eqn:Eb.
        * intros [= <-]. apply beq_true in Eb as <-. exists o, (reader_init K (compressed_as (K := K) pagesize o) None).
          split; [now left|]. split; [easy|]. split; [|split; [easy|]]. rewrite nth_error_app2, Nat.sub_diag by lia. easy.
          destruct Hp as (_ & _ & Hp). exact Hp.
        * intros Hg. destruct (H4 _ _ Hg) as (o2 & r2 & Ho2 & Hs2 & Hn2 & Hi2). exists o2, r2. split; [now right|]. split; [easy|]. split; [|easy].
          rewrite nth_error_app1; [easy|]. apply nth_error_Some. congruence.
    - pose proof (held_stream objs db sha Hi) as Hst. destruct (mem_stream db sha) as [[n db1]|e|]; [| |easy].
      2: { cbn [bind settle_m] in H. now injection H as _ <-. }
      destruct Hst as (Hi1 & o & r & Ho & Hs & Hg & Hn & Hf & Hpl). cbn [bind] in H. unfold handle_object in H. rewrite Hn in H. cbn [bind] in H.
      destruct db1 as [cache1 objs1]. cbn [m_objs m_cache] in *. rewrite (use_handle_run fuel n ops cache1 objs1 _ Hn) in H. cbn [ot_stream] in H.
      destruct (run_state (read fuel) (fun r => seek r 0 0) r ops) as [[l r']|e|] eqn:Er; cbn [bind settle_m] in H; [| |discriminate].
      + injection H as _ <-. destruct ops; [exact Hi1|]. eapply (held_set objs (mk_mdb cache1 objs1)); eauto. rewrite <- Hf. eapply run_state_data; eauto.
      + now injection H as _ <-.
    - unfold mem_info in H. pose proof (held_stream objs db sha Hi) as Hst. destruct (mem_stream db sha) as [[n db1]|e|]; [| |easy].
      2: { cbn [bind settle_m] in H. now injection H as _ <-. }
      destruct Hst as (Hi1 & o & r & Ho & Hs & Hg & Hn & Hf). cbn [bind] in H. unfold handle_object in H. rewrite Hn in H. cbn [bind settle_m] in H.
      now injection H as _ <-.
    - now injection H as _ <-.
    - now injection H as _ <-.
    - now injection H as _ <-.
  Qed.
  Lemma held_run ops : forall objs db outs db', held objs db ->
    Forall (fun op => match op with MStore i => proper content i /\ (length (content (is_stream i)) < fuel)%nat | _ => True end) ops ->
    m_run K sha1 pagesize rd fuel db ops = ret (outs, db') -> held (rev (m_objects content ops) ++ objs) db'.
  Proof.
    induction ops as [|op ops IH]; intros objs db outs db' Hi Hf H; cbn [m_run m_objects rev app] in *; [now injection H as _ <-|].
    inversion Hf as [|? ? Hop Hops]; subst.
    assert (exists o1 db1, m_do K sha1 pagesize rd fuel db op = ret (o1, db1)) as (o1 & db1 & E).
    { destruct (m_do K sha1 pagesize rd fuel db op) as [[[o1 db1]|e|]|]; [now exists o1, db1|discriminate..]. }
    pose proof (held_do objs db op o1 db1 Hi Hop E) as Hi1. unfold pbind, ret in *. rewrite E in H. cbn [after] in H.
    destruct (m_run K sha1 pagesize rd fuel db1 ops) as [[[l db2]|e|]|] eqn:E2; cbn [after] in H; try discriminate. injection H as _ <-.
    specialize (IH _ _ _ _ Hi1 Hops E2). destruct op; cbn [now_stored m_objects rev] in *; try exact IH. now rewrite <- app_assoc.
  Qed.
  Lemma held_init : held [] (mem_init K).
  Proof. split; cbn; easy. Qed.
End Held.

(** ** Copying into files *)
Lemma bytesio_stream : stream_reader bytesio_read (fun b : bytes => b).
Proof.
  intros r n Hn. unfold bytesio_read, bio_read. replace (n <? 0) with false by lia. eexists. split; reflexivity.
Qed.
Section Copy.
  Context {K : zlib} (L : zlib_laws K) (sha1 : bytes -> bytes) (Hsha : forall d, sha_ok (sha1 d)) (pagesize : Z) (Hpage : 0 < pagesize).
  Context (O : os) (Hcalm : faultless O) (fuel : nat) (root : path).
  Context (objs : list object) (Hsize : forall o, In o objs -> (length (compressed_as (K := K) pagesize o) < fuel)%nat /\ len (compressed_as (K := K) pagesize o) <= maxsize).
  Definition roomy (s : world) : Prop := forall sha, sha_ok sha -> room_for root sha s.
  (** One store *)
  Lemma copy_store odb o sha s r s' : l_root odb = root -> In o objs -> plain o -> sha = sha1 (form o) -> wf s -> roomy s ->
    runs O (store K sha1 pagesize bytesio_read fuel odb None (mk_istream (Some sha) (fst o) (len (snd o)) (compressed_as (K := K) pagesize o))) s r s' ->
    (exists v, r = Ok v) /\ wf s' /\ roomy s' /\ keeps s s' /\
    (contents s (object_file root sha) = None -> contents s' (object_file root sha) = Some (compressed_as (K := K) pagesize o)) /\
    (forall p, p <> object_file root sha -> contents s' p = contents s p).
  Proof.
    intros Hroot Ho Hpl Hs Hw Hroom Hr. destruct (Hsize o Ho) as [Hf Hmax]. set (i := mk_istream _ _ _ _) in *.
    assert (Hok : exists v, r = Ok v).
    { eapply (store_succeeds K sha1 Hsha pagesize Hpage bytesio_read (fun b => b) bytesio_stream O Hcalm fuel odb i s r s').
      - split; [rewrite Hs; apply Hsha|exact Hmax]. - exact Hf. - now rewrite Hroot. - exact Hr. }
    destruct Hok as [[i' out] ->]. split; [now eexists|].
    assert (Hbin : forall x, is_binsha i = Some x -> is_bytes x) by (intros x [= <-]; rewrite Hs; apply Hsha).
    assert (Hbd : forall d, is_bytes (sha1 d)) by (intros d; apply Hsha).
    destruct (store_ok K sha1 pagesize bytesio_read Hbd O fuel odb i Hbin s i' out s' Hw Hr) as (Hw' & sha' & z & H1 & H2 & _ & _ & H5 & H6 & H7).
    assert (Hnew : forall p z, stored_as K sha1 pagesize bytesio_read O (l_root odb) i p z -> p = object_file root sha /\ z = compressed_as (K := K) pagesize o).
    { intros p z' Hst. apply (store_complete L sha1 Hsha pagesize Hpage bytesio_read (fun b => b) bytesio_stream O) in Hst.
      - destruct Hst as [Hq Hz]. rewrite Hroot in Hq. now split.
      - split; [rewrite Hs; apply Hsha|exact Hmax]. - right. apply Hcalm. }
    assert (Hdirs : forall p, is_dir s p = true -> is_dir s' p = true) by (intros p Hp; eapply steps_dirs; eauto).
    split; [easy|]. split; [|split; [|split]].
    - intros sha2 Hs2. destruct (Hroom sha2 Hs2) as (R1 & R2 & R3). split; [now apply Hdirs|]. split.
      + assert (Hstop : stops O (store K sha1 pagesize bytesio_read fuel odb None i) s s') by (eexists; exact Hr).
        destruct (store_stops K sha1 pagesize bytesio_read Hbd O fuel odb i Hbin s s' Hw Hstop) as (_ & Hd & _). rewrite Hroot in Hd. now rewrite Hd.
      + intros d Hd. specialize (R3 d Hd). destruct (H6 d) as [Hq|(Hq & z' & Hz' & HP)].
        * unfold is_file in *. unfold contents in Hq. destruct (lookup s d), (lookup s' d); easy.
        * apply Hnew in HP as [-> _]. apply in_ancestors in Hd as (l1 & l2 & E1 & E2 & _). cbn [app] in E1. subst l1.
          apply (f_equal (@length bytes)) in E2. unfold object_file in E2. rewrite dirname_app2, !app_length in E2. cbn [length] in E2. lia.
    - split; [|exact Hdirs]. intros p z' Hz. destruct (H6 p) as [Hq|(Hq & _)]; congruence.
    - intros Hn. assert (sha' = sha) as ->.
      { apply Hnew in H5 as [Hq _]. rewrite Hroot in Hq. eapply object_file_inj; [easy| |exact Hq]. rewrite Hs. apply Hsha. }
      rewrite Hroot in H7. destruct (H6 (object_file root sha)) as [Hq|(_ & z' & Hz' & HP)]; [congruence|]. apply Hnew in HP as [_ ->]. exact Hz'.
    - intros p Hp. destruct (H6 p) as [Hq|(_ & z' & Hz' & HP)]; [easy|]. now apply Hnew in HP as [? _].
  Qed.

  Lemma exists_contents sha s : sha_ok sha -> roomy s -> path_exists s (object_file root sha) = false <-> contents s (object_file root sha) = None.
  Proof.
    intros Hs Hr. destruct (Hr sha Hs) as (_ & Hd & _). unfold path_exists. rewrite Hd, orb_false_r. unfold is_file, contents.
    now destruct (lookup s (object_file root sha)).
  Qed.
  Lemma copy_loop_ok shas : forall odb db count s r s', l_root odb = root -> cache_ok odb s -> held K sha1 pagesize objs db -> wf s -> roomy s ->
    (forall sha, In sha shas -> known sha1 objs sha) ->
    runs O (mem_copy_loop K has_object (fun odb i => do! (i, _) := store K sha1 pagesize bytesio_read fuel odb None i in ret (i, odb)) db odb shas count) s r s' ->
    exists n db' odb', r = Ok (count + n, db', odb') /\ copied L sha1 objs root shas s s' /\ number_missing root s shas n /\
      held K sha1 pagesize objs db' /\ cache_ok odb' s' /\ l_root odb' = root /\ wf s' /\ roomy s'.
  Proof.
    induction shas as [|sha shas IH]; intros odb db count s r s' Hroot Hc Hi Hw Hroom Hk Hr; cbn [mem_copy_loop] in Hr.
    - apply runs_ret in Hr as [-> ->]. exists 0, db, odb. rewrite Z.add_0_r. split; [easy|]. split; [easy|]. split; [|easy].
      exists []. split; [constructor|]. split; [|easy]. intros sha. cbn. tauto.
    - apply runs_bind in Hr as (r1 & s1 & H1 & H2).
      destruct (has_yields O odb sha s Hc) as (odb1 & Hy & Hc1 & Hroot1 & _). destruct (yields_unique _ _ _ _ _ _ _ Hy H1) as [-> ->]. clear H1.
      rewrite Hroot in H2, Hroot1.
      destruct (Hk sha (or_introl eq_refl)) as (ok & Hok & Hname). assert (Hshaok : sha_ok sha) by (apply name_form in Hname as ->; apply Hsha).
      destruct (path_exists s (object_file root sha)) eqn:Ee.
      + assert (Hsome : contents s (object_file root sha) <> None) by (intros E; apply (exists_contents sha s Hshaok Hroom) in E; congruence).
        destruct (IH odb1 db count s r s' Hroot1 Hc1 Hi Hw Hroom) as (n & db' & odb' & -> & (C1 & C2 & C3) & (l & Hl1 & Hl2 & ->) & Hrest); [intros; apply Hk; now right|exact H2|].
        exists (len l), db', odb'. split; [easy|]. split; [split; [easy|split]|split; [|easy]].
        * intros sha2 [<-|Hin] Hn; [easy|now apply C2].
        * intros p Hn Hp. apply C3; [easy|]. intros sha2 Hin. apply Hp. now right.
        * exists l. split; [easy|]. split; [|easy]. intros sha2. rewrite Hl2. split; [intros [Ha Hb]; split; [now right|easy]|].
          intros [[<-|Ha] Hb]; easy.
      + apply (exists_contents sha s Hshaok Hroom) in Ee.
        apply runs_bind in H2 as (r1 & s1 & H1 & H2). apply runs_ret in H1 as [-> ->].
        pose proof (held_stream K sha1 pagesize objs db sha Hi) as Hst. destruct (mem_stream db sha) as [[n0 db1]|e|]; [| |easy].
        2: { destruct Hst as [_ Hst]. exfalso. apply Hst. now exists ok. }
        destruct Hst as (Hi1 & o & ro & Ho & Hs & Hg & Hn & Hm & Hpl).
        apply runs_bind in H2 as (r1 & s1 & H1 & H2). apply runs_ret in H1 as [-> ->]. unfold handle_object in H2. rewrite Hn in H2. cbn [ot_stream ot_type ot_size] in H2. rewrite Hm in H2.
        apply runs_bind in H2 as (r1 & s1 & H1 & H2). apply runs_bind in H1 as (r2 & s2 & H0 & H1).
        destruct (copy_store odb1 o sha s r2 s2 Hroot1 Ho Hpl Hs Hw Hroom H0) as ([[i' out] ->] & Hw1 & Hroom1 & Hkeep & Hnew & Hother).
        apply runs_ret in H1 as [-> ->]. specialize (Hnew Ee).
        destruct (IH odb1 db1 (count + 1) s2 r s' Hroot1 (keeps_cache _ _ _ Hkeep Hc1) Hi1 Hw1 Hroom1) as (n & db' & odb' & -> & (C1 & C2 & C3) & (l & Hl1 & Hl2 & ->) & Hrest); [intros; apply Hk; now right|exact H2|].
        exists (len (sha :: l)), db', odb'. split; [do 3 f_equal; rewrite len_cons; lia|]. split; [split; [|split]|split; [|easy]].
        * intros p z Hz. apply C1. now apply Hkeep.
        * intros sha2 Hin Hnone. destruct (list_eq_dec Z.eq_dec sha2 sha) as [->|Hne].
          -- exists o, (form o), (compressed_as (K := K) pagesize o). split; [easy|]. split; [apply loose_form_header|]. split; [easy|].
             split; [now apply C1|]. now apply (compressed_stream L pagesize Hpage o Hpl).
          -- destruct Hin as [<-|Hin]; [easy|]. apply C2; [easy|]. rewrite Hother; [easy|]. intros E. apply Hne.
             destruct (Hk sha2 (or_intror Hin)) as (o2 & _ & Hn2). apply name_form in Hn2. eapply object_file_inj; [rewrite Hn2; apply Hsha|apply Hshaok|exact E].
        * intros p Hnone Hp. apply C3; [rewrite Hother; [easy|apply Hp; now left]|]. intros sha2 Hin. apply Hp. now right.
        * exists (sha :: l). split; [constructor; [|easy]|].
          { intros Hin. apply Hl2 in Hin as [_ Hin]. congruence. }
          split; [|easy]. intros sha2. split.
          -- intros [<-|Hin]; [split; [now left|easy]|]. apply Hl2 in Hin as [Ha Hb]. split; [now right|].
             destruct (contents s (object_file root sha2)) as [z|] eqn:E; [|easy]. apply Hkeep in E. congruence.
          -- intros [Hin Hnone]. destruct (list_eq_dec Z.eq_dec sha2 sha) as [->|Hne]; [now left|]. right. destruct Hin as [<-|Hin]; [easy|].
             apply Hl2. split; [easy|]. rewrite Hother; [easy|]. intros E. apply Hne.
             destruct (Hk sha2 (or_intror Hin)) as (o2 & _ & Hn2). apply name_form in Hn2. eapply object_file_inj; [rewrite Hn2; apply Hsha|apply Hshaok|exact E].
  Qed.
End Copy.
Lemma after_same O A B (p : prog A) (f g : res A -> prog B) : (forall a s r s', runs O (f a) s r s' -> runs O (g a) s r s') ->
  forall s r s', runs O (after p f) s r s' -> runs O (after p g) s r s'.
Proof.
  intros H. induction p as [a|C c k IH]; intros s r s' Hr; cbn [after] in *; [now apply H|].
  inversion Hr as [|? ? ? ? ? ? H1 H2]; subst. destruct H1 as (a & Hs & ->). eapply steps_one; [exists a; split; [exact Hs|reflexivity]|]. now apply IH.
Qed.
Lemma copy_app {K : zlib} O D (has : D -> bytes -> prog (bool * D)) (st : D -> istream bytes -> prog (istream bytes * D)) l1 : forall l2 db odb count s r s',
  runs O (mem_copy_loop K has st db odb (l1 ++ l2) count) s r s' ->
  runs O (do! (c, d, o) := mem_copy_loop K has st db odb l1 count in mem_copy_loop K has st d o l2 c) s r s'.
Proof.
  induction l1 as [|sha l1 IH]; intros l2 db0 odb count s r s' Hr; [exact Hr|].
  cbn [app mem_copy_loop] in Hr |- *. unfold pbind in *. apply after_after.
  eapply after_same; [|exact Hr]. clear Hr s r s'. intros [[[] odb1]|e|] s r s' Hr; cbv beta iota in *; try exact Hr.
  - now apply IH.
  - destruct (mem_stream db0 sha) as [[n db1]|e|]; [|exact Hr|exact Hr].
    change (after (Ret (Ok (n, db1))) ?f) with (f (Ok (n, db1))) in Hr. cbv beta iota in Hr.
    match goal with |- runs _ (after (after (Ret (Ok (n, db1))) ?f) ?g) _ _ _ => change (runs O (after (f (Ok (n, db1))) g) s r s') end. cbv beta iota.
    destruct (handle_object db1 n) as [o|e|]; [|exact Hr|exact Hr].
    match goal with |- runs _ (after (after (Ret (Ok o)) ?f) ?g) _ _ _ => change (runs O (after (f (Ok o)) g) s r s') end. cbv beta iota zeta.
    apply after_after. eapply after_same; [|exact Hr]. clear Hr s r s'. intros [[i' odb2]|e|] s r s' Hr; cbv beta iota in *; try exact Hr.
    now apply IH.
Qed.
Section Top.
  Context {K : zlib} (L : zlib_laws K) (sha1 : bytes -> bytes) (Hsha : forall d, sha_ok (sha1 d)) (pagesize : Z) (Hpage : 0 < pagesize).
  Context {R : Type} (rd : R -> Z -> res (bytes * R)) (content : R -> bytes) (HR : stream_reader rd content).
  Context (O : os) (Hcalm : faultless O) (f : nat) (ops : list (mop R)) (outs : list (res mout)) (db : mdb K).
  Notation objs := (rev (m_objects content ops)).
  Context (Hops : Forall (fun op => match op with MStore i => proper content i /\ (length (content (is_stream i)) < f)%nat | _ => True end) ops).
  Context (Hdb : m_run K sha1 pagesize rd f (mem_init K) ops = ret (outs, db)).
  Context (fuel : nat) (Hsize : forall o, In o (m_objects content ops) -> (length (compressed_as (K := K) pagesize o) < fuel)%nat /\ len (compressed_as (K := K) pagesize o) <= maxsize).
  Lemma Hsize_rev : forall o, In o objs -> (length (compressed_as (K := K) pagesize o) < fuel)%nat /\ len (compressed_as (K := K) pagesize o) <= maxsize.
  Proof. intros o Ho. apply Hsize. now apply in_rev. Qed.
  Lemma held_db : held K sha1 pagesize objs db.
  Proof.
    rewrite <- (app_nil_r objs). eapply held_run; eauto. apply held_init.
  Qed.
  Lemma known_rev sha : known sha1 (m_objects content ops) sha -> known sha1 objs sha.
  Proof. intros (o & Ho & Hn). exists o. split; [now apply -> in_rev|easy]. Qed.
  Lemma copied_rev root shas s s' : copied L sha1 objs root shas s s' -> copied L sha1 (m_objects content ops) root shas s s'.
  Proof.
    intros (H1 & H2 & H3). split; [easy|]. split; [|easy]. intros sha Hin Hn. destruct (H2 sha Hin Hn) as (o & fm & z & Ho & Hrest).
    exists o, fm, z. split; [now apply in_rev|easy].
  Qed.
  Lemma copy_top odb shas s r s' : cache_ok odb s -> wf s -> (forall sha, sha_ok sha -> room_for (l_root odb) sha s) ->
    (forall sha, In sha shas -> known sha1 (m_objects content ops) sha) ->
    runs O (copy_to_loose K sha1 pagesize fuel db odb shas) s r s' ->
    exists n db' odb', r = Ok (n, db', odb') /\ copied L sha1 (m_objects content ops) (l_root odb) shas s s' /\ number_missing (l_root odb) s shas n /\
      forall r2 s2, runs O (copy_to_loose K sha1 pagesize fuel db' odb' shas) s' r2 s2 ->
        (exists db2 odb2, r2 = Ok (0, db2, odb2)) /\ forall p, contents s2 p = contents s' p.
  Proof.
    intros Hc Hw Hroom Hk Hr. 
    destruct (copy_loop_ok L sha1 Hsha pagesize Hpage O Hcalm fuel (l_root odb) objs Hsize_rev shas odb db 0 s r s' eq_refl Hc held_db Hw Hroom (fun sha H => known_rev sha (Hk sha H)) Hr)
      as (n & db' & odb' & -> & Hcp & Hn & Hi' & Hc' & Hr' & Hw' & Hroom').
    exists n, db', odb'. split; [easy|]. split; [now apply copied_rev|]. split; [easy|]. intros r2 s2 H2.
    destruct (copy_loop_ok L sha1 Hsha pagesize Hpage O Hcalm fuel (l_root odb) objs Hsize_rev shas odb' db' 0 s' r2 s2 Hr' Hc' Hi' Hw' Hroom' (fun sha H => known_rev sha (Hk sha H)) H2)
      as (n2 & db2 & odb2 & -> & (C1 & C2 & C3) & (l & Hl1 & Hl2 & ->) & _).
    assert (Hthere : forall sha, In sha shas -> contents s' (object_file (l_root odb) sha) <> None).
    { intros sha Hin. destruct (contents s (object_file (l_root odb) sha)) as [z|] eqn:E; [apply Hcp in E; congruence|].
      destruct (proj1 (proj2 Hcp) sha Hin E) as (_ & _ & z & _ & _ & _ & Hz & _). congruence. }
    split.
    - exists db2, odb2. destruct l as [|sha l]; [easy|]. exfalso. destruct (proj1 (Hl2 sha) (or_introl eq_refl)) as [Ha Hb]. now apply (Hthere sha).
    - intros p. destruct (contents s' p) as [z|] eqn:E; [now apply C1|]. apply C3; [easy|]. intros sha Hin ->. now apply (Hthere sha).
  Qed.
  (** An object that is not there. *)
  Lemma copy_unknown odb l1 sha l2 s r s' : cache_ok odb s -> wf s -> (forall sha, sha_ok sha -> room_for (l_root odb) sha s) ->
    (forall sha, In sha l1 -> known sha1 (m_objects content ops) sha) -> ~ known sha1 (m_objects content ops) sha -> sha_ok sha ->
    contents s (object_file (l_root odb) sha) = None ->
    runs O (copy_to_loose K sha1 pagesize fuel db odb (l1 ++ sha :: l2)) s r s' ->
    r = Raise BadObject /\ copied L sha1 (m_objects content ops) (l_root odb) l1 s s'.
  Proof.
    intros Hc Hw Hroom Hk Hun Hok Hn Hr. apply copy_app in Hr. apply runs_bind in Hr as (r1 & s1 & H1 & H2).
    destruct (copy_loop_ok L sha1 Hsha pagesize Hpage O Hcalm fuel (l_root odb) objs Hsize_rev l1 odb db 0 s r1 s1 eq_refl Hc held_db Hw Hroom (fun sha H => known_rev sha (Hk sha H)) H1)
      as (n & db' & odb' & -> & Hcp & _ & Hi' & Hc' & Hr' & Hw' & Hroom').
    cbn [mem_copy_loop] in H2. apply runs_bind in H2 as (r1 & s2 & H3 & H2).
    destruct (has_yields O odb' sha s1 Hc') as (odb1 & Hy & _). destruct (yields_unique _ _ _ _ _ _ _ Hy H3) as [-> ->]. rewrite Hr' in H2.
    assert (Hnone : contents s1 (object_file (l_root odb) sha) = None).
    { apply Hcp; [easy|]. intros sha2 Hin E. apply Hun. destruct (Hk sha2 Hin) as (o & Ho & Hname). exists o. split; [easy|].
      replace sha with sha2; [easy|]. symmetry. pose proof (name_form _ _ _ Hname) as E2. eapply object_file_inj; [apply Hok|rewrite E2; apply Hsha|exact E]. }
    apply (exists_contents (l_root odb) sha s1 Hok Hroom') in Hnone. rewrite Hnone in H2.
    apply runs_bind in H2 as (r1 & s2 & H4 & H2). apply runs_ret in H4 as [-> ->].
    pose proof (held_stream K sha1 pagesize objs db' sha Hi') as Hst. destruct (mem_stream db' sha) as [[n0 db1]|e|]; [| |easy].
    { exfalso. destruct Hst as (_ & o & ro & Ho & Hs & _). apply Hun. exists o. split; [now apply in_rev|]. rewrite Hs. apply form_name. }
    destruct Hst as [-> _]. destruct H2 as [-> ->]. split; [easy|]. now apply copied_rev.
  Qed.
  (** What can be read afterwards. *)
  Lemma copied_read odb odb' shas s s' sha : copied L sha1 (m_objects content ops) (l_root odb) shas s s' -> l_root odb' = l_root odb ->
    In sha shas -> contents s (object_file (l_root odb) sha) = None ->
    exists o, In o (m_objects content ops) /\ name_of sha1 o sha /\
      (len (header_of o) <= 8192 -> yields O (info K odb' sha) s' (Ok (sha, fst o, len (snd o)))) /\
      exists z, yields O (map_loose_object odb' sha) s' (Ok z) /\ zl_stream L z (header_of o ++ snd o).
  Proof.
    intros Hcp Hroot Hin Hn. destruct (proj1 (proj2 Hcp) sha Hin Hn) as (o & fm & z & Ho & Hf & -> & Hz & Hzs).
    assert (Hpl : plain o).
    { clear -Ho Hops. induction Hops as [|op l Hop Hl IH]; [easy|]. destruct op; cbn [m_objects] in Ho; try now apply IH.
      destruct Ho as [<-|Ho]; [|now apply IH]. destruct Hop as [(_ & _ & Hp) _]. exact Hp. }
    assert (Hform : fm = form o) by (eapply loose_form_unique; [exact Hf|apply loose_form_header]). subst fm.
    assert (Hcr : can_read O) by (split; apply Hcalm).
    exists o. split; [easy|]. split; [now exists (form o)|]. rewrite <- Hroot in Hz. split.
    - intros Hl. destruct o as [t c]. destruct Hpl as (_ & _ & Hp1 & Hp2). eapply (info_yields L O odb' s' _ z t c); eauto.
    - exists z. split; [|exact Hzs]. apply map_yields; [easy|easy|]. now destruct (zl_start K L _ _ Hzs).
  Qed.
End Top.

(** ** Storing an exhausted stream with a sha *)
Section Empty.
  Context {K : zlib} (L : zlib_laws K) (sha1 : bytes -> bytes) (Hsha : forall d, sha_ok (sha1 d)) (pagesize : Z) (Hpage : 0 < pagesize).
  Context {R : Type} (rd : R -> Z -> res (bytes * R)) (content : R -> bytes) (HR : stream_reader rd content).
  Context (O : os) (Hcalm : faultless O).
  Lemma empty_read noatime p s r s' : contents s p = Some [] -> runs O (file_contents_ro_filepath noatime p) s r s' ->
    s' = s /\ r = Raise ValueError.
  Proof.
    intros Hz H. unfold contents in Hz. destruct (lookup s p) as [i|] eqn:El; [|easy]. cbn in Hz.
    unfold file_contents_ro_filepath in H. apply runs_bind in H as (r1 & s1 & H1 & H2).
    inversion H1 as [|? ? p1 s2 ? ? H3 H4]; subst. destruct H3 as (a & Hs & ->). apply runs_ret in H4 as [-> ->].
    cbn [sys] in Hs. destruct Hs as [(Hf & _)|[(Hn & Hf & _)|Hs]]; [now rewrite Hcalm in Hf|now rewrite Hcalm in Hf|].
    rewrite El in Hs. destruct Hs as [-> ->].
    unfold finally in H2. apply runs_after in H2 as (r2 & s3 & H5 & H6).
    inversion H5 as [|? ? p2 s4 ? ? H7 H8]; subst. destruct H7 as (a & Hs & ->). apply runs_ret in H8 as [-> ->].
    cbn [sys] in Hs. assert (Hd : w_data s i = []) by congruence. rewrite Hd in Hs. destruct Hs as [-> ->].
    apply runs_bind in H6 as (r3 & s5 & H9 & H10). inversion H9 as [|? ? p3 s6 ? ? H11 H12]; subst. destruct H11 as (a & Hs & ->). apply runs_ret in H12 as [-> ->].
    cbn [sys] in Hs. destruct Hs as [(Hf & _)|[-> ->]]; [now rewrite Hcalm in Hf|]. now apply runs_ret in H10 as [-> ->].
  Qed.
  Lemma store_empty fuel db i sha s r s' : is_binsha i = Some sha -> sha_ok sha -> content (is_stream i) = [] -> (0 < fuel)%nat ->
    wf s -> (forall sha, sha_ok sha -> room_for (l_root db) sha s) -> contents s (object_file (l_root db) sha) = None ->
    runs O (store K sha1 pagesize rd fuel db None i) s r s' ->
    (exists v, r = Ok v) /\ contents s' (object_file (l_root db) sha) = Some [] /\
    forall db', l_root db' = l_root db -> yields O (info K db' sha) s' (Raise ValueError).
  Proof.
    intros Hb Hok Hc Hf Hw Hroom Hn Hr.
    assert (Hfine : match is_binsha i with None => is_size i = len (content (is_stream i)) | Some sha => sha_ok sha /\ len (content (is_stream i)) <= maxsize end).
    { rewrite Hb, Hc. split; [easy|]. unfold maxsize. cbn. lia. }
    assert (H : exists v, r = Ok v).
    { eapply (store_succeeds K sha1 Hsha pagesize Hpage rd content HR O Hcalm fuel db i s r s' Hfine); [|exact Hroom|exact Hr]. rewrite Hc. exact Hf. }
    destruct H as [[i' out] ->]. split; [now eexists|].
    assert (Hbin : forall x, is_binsha i = Some x -> is_bytes x) by (intros x Hx; rewrite Hb in Hx; injection Hx as <-; apply Hok).
    assert (Hbd : forall d, is_bytes (sha1 d)) by (intros d; apply Hsha).
    destruct (store_ok K sha1 pagesize rd Hbd O fuel db i Hbin s i' out s' Hw Hr) as (Hw' & sha' & z & H1 & H2 & _ & _ & H5 & H6 & H7).
    assert (Hnew : forall p z, stored_as K sha1 pagesize rd O (l_root db) i p z -> p = object_file (l_root db) sha /\ z = []).
    { intros p z' Hst. apply (store_complete L sha1 Hsha pagesize Hpage rd content HR O) in Hst.
      - unfold complete in Hst. rewrite Hb in Hst. destruct Hst as [Hq Hz]. now rewrite Hc in Hz.
      - unfold storable. rewrite Hb, Hc. split; [easy|]. unfold maxsize. cbn. lia.
      - right. apply Hcalm. }
    assert (Hz : contents s' (object_file (l_root db) sha) = Some []).
    { destruct (Hnew _ _ H5) as [Hq _]. rewrite Hq in H7. destruct (H6 (object_file (l_root db) sha)) as [Hq2|(_ & z' & Hz' & HP)]; [congruence|].
      apply Hnew in HP as [_ ->]. exact Hz'. }
    split; [exact Hz|]. intros db' Hroot. unfold info. apply yields_bind_raise; [apply ro_info|].
    apply yields_ro; [apply ro_map|]. intros r Hm. unfold map_loose_object in Hm. rewrite object_path_file, Hroot in Hm.
    apply runs_after in Hm as (r1 & s1 & Hm1 & Hm2). apply (empty_read _ _ _ _ _ Hz) in Hm1 as [-> ->]. now apply runs_ret in Hm2 as [-> _].
  Qed.
End Empty.
