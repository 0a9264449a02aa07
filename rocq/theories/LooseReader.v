(** Reading from a LooseObjectDB while other processes store objects in it. *)
From Coq Require Import ZifyBool ZifyNat Permutation.
From Verif Require Import Py PyFacts FunModel FunSpec FunProofs ZlibModel ReaderModel StreamSpec ReaderProofs IndexSpec PackSpec PackCheckProofs OsModel OsProofs LooseModel LooseSpec LooseProofs LooseTop LooseQuery LooseConc LooseMain.
Ltac Zify.zify_post_hook ::= Z.div_mod_to_equations.

Section Among.
  Context {K : zlib} (L : zlib_laws K) (sha1 : bytes -> bytes) (Hsha : forall d, sha_ok (sha1 d)) (pagesize : Z) (Hpage : 0 < pagesize).
  Context {R : Type} (rd : R -> Z -> res (bytes * R)) (content : R -> bytes) (HR : stream_reader rd content).
  Context (O : os) (root : path) (objs : list object).
  Notation sound := (sound_dir L sha1 objs root).
  Notation obj := (object_file root).
  Context (P : path -> bytes -> Prop).
  Notation pool_ok := (pool_ok K sha1 pagesize rd O root P).
  Notation Guar := (loose_guar P root false false).

  (** What the reader relies on; it knows the files it has opened. *)
  Definition rely (h : list ino) (s s' : world) : Prop :=
    (forall i, In i h -> w_data s' i = w_data s i) /\ (forall sha, is_file s (obj sha) = true -> is_file s' (obj sha) = true) /\ sound s'.
  Definition guar (h : list ino) (e : event) (h' : list ino) (s s' : world) : Prop :=
    s' = s /\ forall i, In i h' -> In i h \/ exists sha, lookup s (obj sha) = Some i.
  Lemma rely_trans h s1 s2 s3 : rely h s1 s2 -> rely h s2 s3 -> rely h s1 s3.
  Proof.
    intros (H1 & H2 & _) (H3 & H4 & H5). split; [|split; [auto|easy]]. intros i Hi. rewrite H3, H1; easy.
  Qed.
  (** Nobody writes to the files the reader has opened. *)
  Definition frozen (h : list ino) (ps : list (proc K (R := R))) (s : world) : Prop :=
    forall i, In i h -> (i < w_next s)%nat /\ forall x t fd, In x ps -> g_own (p_ghost K x) = Some (t, fd) -> fd <> i.
  Lemma frozen_own h h' e ps s : pool_ok ps s -> guar h e h' s s -> frozen h ps s -> frozen h' ps s.
  Proof.
    clear Hsha HR. intros (Hw & Hall & _) [_ Hg] Hf i Hi. destruct (Hg i Hi) as [Hi'|[sha Hl]]; [now apply Hf|].
    split; [eapply wf_next; eauto|]. intros x t fd Hx E ->. rewrite Forall_forall in Hall. destruct (Hall x Hx) as [Ho _].
    unfold owns in Ho. rewrite E in Ho. destruct Ho as [Ht Hlt]. apply (temp_not_object root t sha Ht). eapply wf_inj; eauto.
  Qed.
  Lemma frozen_other h ps1 x y ps2 e s s' : frozen h (ps1 ++ x :: ps2) s -> Guar (p_ghost K x) e (p_ghost K y) s s' ->
    frozen h (ps1 ++ y :: ps2) s' /\ forall i, In i h -> w_data s' i = w_data s i.
  Proof.
    clear Hsha HR. intros Hf (Hs & _).
    assert (Hx : forall i, In i h -> forall t fd, g_own (p_ghost K x) = Some (t, fd) -> fd <> i).
    { intros i Hi t fd E. destruct (Hf i Hi) as [_ H]. eapply (H x t fd); [|exact E]. apply in_or_app. right. now left. }
    assert (Ho : forall i, In i h -> forall z t fd, In z ps1 \/ In z ps2 -> g_own (p_ghost K z) = Some (t, fd) -> fd <> i).
    { intros i Hi z t fd Hz E. destruct (Hf i Hi) as [_ H]. eapply (H z t fd); [|exact E]. apply in_or_app. destruct Hz; [now left|right; now right]. }
    assert (Hn : forall i, In i h -> (i < w_next s)%nat) by (intros i Hi; now apply Hf). clear Hf.
    cut ((forall i, In i h -> (i < w_next s')%nat /\ forall t fd, g_own (p_ghost K y) = Some (t, fd) -> fd <> i) /\ (forall i, In i h -> w_data s' i = w_data s i)).
    { intros [H1 H2]. split; [|exact H2]. intros i Hi. destruct (H1 i Hi) as [Ha Hb]. split; [exact Ha|].
      intros z t fd Hz E. apply in_app_or in Hz as [Hz|[<-|Hz]]; [apply (Ho i Hi z t fd); auto|now apply (Hb t fd)|apply (Ho i Hi z t fd); auto]. }
    destruct x as [px ix [ox ? ?]], y as [py iy [oy ? ?]]. cbn [p_ghost g_own] in *. clear Ho.
    destruct Hs as [g s|s t Ht Hex|t fd s x Hl|g s sha|t fd s Hl|t fd s sha Hl HP _].
    - split; [|easy]. intros i Hi. split; [now apply Hn|]. now apply Hx.
    - split.
      + intros i Hi. specialize (Hn i Hi). rewrite next_create. split; [lia|]. intros t' fd [= <- <-]. lia.
      + intros i Hi. specialize (Hn i Hi). rewrite data_create. now replace (Nat.eqb i (w_next s)) with false by lia.
    - split; [intros i Hi; split; [now apply Hn|now apply Hx]|]. intros i Hi. rewrite data_set_data.
      specialize (Hx i Hi t fd eq_refl). now replace (Nat.eqb i fd) with false by lia.
    - split; [|easy]. intros i Hi. split; [now apply Hn|]. now apply Hx.
    - split; [|easy]. intros i Hi. split; [now apply Hn|easy].
    - split; [|easy]. intros i Hi. split; [now apply Hn|easy].
  Qed.
  (** Steps of the others, seen by the reader. *)
  Context (P_ok : forall sha z, sha_ok sha -> P (obj sha) z -> exists o, file_of L sha1 objs sha o z).
  Lemma guar_sound g e g' s s' : wf s -> owns root g s -> Guar g e g' s s' -> sound s -> sound s'.
  Proof.
    clear Hsha HR. intros Hw Ho (Hs & _) Hsd sha Hok. specialize (Hsd sha Hok). destruct g as [og ? ?], g' as [og' ? ?]. cbn [g_own] in *. unfold owns in Ho. cbn [g_own] in Ho.
    destruct Hs as [g s|s t Ht Hex|t fd s x Hl|g s sha1'|t fd s Hl|t fd s sha' Hl HP _].
    - easy.
    - destruct Hsd as [Hd Hc]. split; [exact Hd|]. intros z. rewrite contents_create; [apply Hc|easy|]. intros E. symmetry in E. now apply temp_not_object in E.
    - destruct Hsd as [Hd Hc]. split; [exact Hd|]. intros z. rewrite (contents_set_data s t fd); [apply Hc|easy|easy|].
      intros E. symmetry in E. destruct Ho as [Ho _]. now apply temp_not_object in E.
    - destruct Hsd as [Hd Hc]. split; [now rewrite object_dirs|exact Hc].
    - destruct Hsd as [Hd Hc]. split; [exact Hd|]. intros z. rewrite contents_unlink. destruct (path_eq_dec (obj sha) t); [easy|apply Hc].
    - destruct Hsd as [Hd Hc]. split; [exact Hd|]. intros z. rewrite contents_link. destruct (path_eq_dec (obj sha) (obj sha')) as [E|].
      + intros [= <-]. apply P_ok; [easy|]. rewrite E. exact HP.
      + rewrite contents_unlink. destruct (path_eq_dec (obj sha) t); [easy|apply Hc].
  Qed.

  Context (s0 : world).
  Lemma amid_inv {B} (q : prog B) l s q' l' s' : amid O q l s q' l' s' -> forall ps h sq Q, map (p_prog K) ps = l ->
    pool_ok ps s -> LooseConc.files_ok K P s0 ps s -> frozen h ps s -> sound s -> rely h sq s -> wp O rely guar q h sq Q ->
    exists ps' h' sq', map (p_prog K) ps' = l' /\ pool_ok ps' s' /\ LooseConc.files_ok K P s0 ps' s' /\ sound s' /\ rely h' sq' s' /\ wp O rely guar q' h' sq' Q.
  Proof.
    induction 1 as [q l s|q l s q1 s1 q2 l2 s2 Hst _ IH|q l1 p l2 s p' s1 q2 l' s2 Hst _ IH]; intros ps h sq Q Hl Hp Hf Hz Hs Hr Hwp.
    - now exists ps, h, sq.
    - destruct q as [r|C c k]; [easy|]. destruct Hst as (a & Ha & ->). destruct (Hwp s a s1 Hr Ha) as (h' & HG & Hk).
      assert (s1 = s) as -> by apply HG. apply (IH ps h' s Q); try easy. eapply frozen_own; eauto.
    - apply map_eq_app in Hl as (ps1 & ps2 & -> & <- & Hl). destruct ps2 as [|x ps2]; [discriminate|]. injection Hl as <- <-.
      destruct (pool_step K sha1 pagesize rd (fun d => proj2 (Hsha d)) O root P s0 ps1 x ps2 s p' s1 Hp Hf Hst) as (y & <- & Hin & Hp' & Hf' & e & HG).
      destruct Hp as (Hw & Hall & Hap). apply Forall_app in Hall as [Hall1 Hall2]. pose proof (Forall_inv Hall2) as [Ho _].
      assert (Hs1 : sound s1) by (eapply guar_sound; eauto).
      destruct (frozen_other h ps1 x y ps2 e s s1 Hz HG) as [Hz1 Hdat].
      apply (IH (ps1 ++ y :: ps2) h sq Q); try easy; [now rewrite map_app|].
      eapply rely_trans; [exact Hr|]. split; [exact Hdat|]. split; [|exact Hs1].
      destruct (guar_others sha1 pagesize rd (fun d => proj2 (Hsha d)) root P _ _ _ _ _ (mk_ghost None false false) Hw Ho I ltac:(easy) HG) as ((_ & H) & _). exact H.
  Qed.

  (** ** The queries *)
  Notation rwp := (wp O rely guar).
  Definition valid (sha z : bytes) : Prop := exists o, file_of L sha1 objs sha o z.
  Lemma valid_nonempty sha z : valid sha z -> z <> [].
  Proof. intros (o & _ & f & _ & _ & Hz). now destruct (zl_start K L _ _ Hz). Qed.
  Lemma guar_same h e s : guar h e h s s.
  Proof. split; [easy|]. intros i Hi. now left. Qed.
  Lemma rwp_contents noatime sha h s (Q : res bytes -> list ino -> world -> Prop) : sha_ok sha ->
    (forall z h' s', valid sha z -> Q (Ok z) h' s') ->
    (forall h' s', is_file s (obj sha) = false -> Q (Raise FileNotFound) h' s') ->
    (forall h' s', is_file s (obj sha) = false \/ may_fail O KOpen = true \/ may_fail O KClose = true \/ noatime = true -> 
       (forall sha', is_file s (obj sha') = true -> is_file s' (obj sha') = true) -> forall e, e = OSError \/ e = PermissionError -> Q (Raise e) h' s') ->
    rwp (file_contents_ro_filepath noatime (obj sha)) h s Q.
  Proof.
    intros Hok H1 H2 H3. unfold file_contents_ro_filepath. apply wp_bind. apply wp_sysr. intros s1 a s2 (_ & Hf & Hsd) Hs. cbn [sys] in Hs.
    destruct Hs as [(Hk & -> & ->)|[(Hn & Hk & -> & ->)|Hs]].
    { exists h. split; [apply guar_same|]. apply H3; [now right; left|exact Hf|now left]. }
    { exists h. split; [apply guar_same|]. apply H3; [now right; right; right|exact Hf|now right]. }
    destruct (lookup s1 (obj sha)) as [i|] eqn:El.
    2: { destruct Hs as [-> ->]. exists h. split; [apply guar_same|].
         assert (Hn : is_file s (obj sha) = false).
         { destruct (is_file s (obj sha)) eqn:E; [|easy]. apply Hf in E. apply is_file_true in E. congruence. }
         destruct (is_dir s1 (obj sha)); [apply H3; [now left|exact Hf|now left]|now apply H2]. }
    destruct Hs as [-> ->]. exists (i :: h). split; [split; [easy|intros j [<-|Hj]; [right; now exists sha|now left]]|].
    assert (Hv : valid sha (w_data s1 i)).
    { destruct (Hsd sha Hok) as [_ Hc]. apply Hc. unfold contents. now rewrite El. }
    unfold finally. apply wp_after. apply wp_sysr. intros s3 a s4 (Hd & Hf3 & _) Hs. cbn [sys] in Hs.
    rewrite (Hd i (or_introl eq_refl)) in Hs. pose proof (valid_nonempty _ _ Hv) as Hne.
    destruct (w_data s1 i) as [|x l] eqn:Ed; [easy|]. destruct Hs as [-> ->]. exists (i :: h). split; [apply guar_same|].
    apply wp_bind. apply wp_sysr. intros s5 a s6 (_ & Hf5 & _) Hs. cbn [sys] in Hs. destruct Hs as [(Hk & -> & ->)|[-> ->]].
    - exists (i :: h). split; [apply guar_same|]. apply H3; [now right; right; left| |now left]. intros sha' E. apply Hf5, Hf3, Hf, E.
    - exists (i :: h). split; [apply guar_same|]. now apply H1.
  Qed.
  Lemma rwp_map db sha h s : sha_ok sha -> l_root db = root ->
    rwp (map_loose_object db sha) h s (fun r _ _ =>
      (exists z, r = Ok z /\ valid sha z) \/ (r = Raise BadObject /\ (is_file s (obj sha) = false \/ ~ can_read O))).
  Proof.
    intros Hok Hroot. unfold map_loose_object, catch. rewrite object_path_file, Hroot. apply wp_after.
    apply rwp_contents; [easy| | |].
    - intros z h' s' Hv. left. now exists z.
    - intros h' s' Hn. cbn. right. split; [easy|now left].
    - intros h' s' Hk Hf e He. replace (is_oserror e) with true by (destruct He as [-> | ->]; reflexivity). replace (is_enoent e) with false by (destruct He as [-> | ->]; reflexivity). cbn [negb]. apply wp_after. apply rwp_contents; [easy| | |].
      + intros z h2 s2 Hv. left. now exists z.
      + intros h2 s2 Hn. cbn. right. split; [easy|]. left. destruct (is_file s (obj sha)) eqn:E; [|easy]. apply Hf in E. congruence.
      + intros h2 s2 Hk2 Hf2 e2 He2. replace (is_oserror e2) with true by (destruct He2 as [-> | ->]; reflexivity). cbn. right. split; [easy|]. unfold can_read. destruct Hk2 as [Hk2|[Hk2|[Hk2|Hk2]]].
        * left. destruct (is_file s (obj sha)) eqn:E; [|easy]. apply Hf in E. congruence.
        * right. rewrite Hk2. intros [E _]. discriminate.
        * right. rewrite Hk2. intros [_ E]. discriminate.
        * discriminate.
  Qed.
  Lemma rwp_info db sha h s : sha_ok sha -> l_root db = root ->
    (forall o, In o objs -> ~ In 32 (fst o) /\ ~ In 0 (fst o) /\ len (loose_object_header (fst o) (len (snd o))) <= 8192) ->
    rwp (info K db sha) h s (fun r _ _ =>
      (exists o z, file_of L sha1 objs sha o z /\ r = Ok (sha, fst o, len (snd o))) \/ (r = Raise BadObject /\ (is_file s (obj sha) = false \/ ~ can_read O))).
  Proof.
    intros Hok Hroot Hty. unfold info. apply wp_bind. eapply wp_mono; [|now apply rwp_map].
    intros r h' s' [(z & -> & o & Hz)|(-> & Hb)]; [|right; now split]. cbn [OsProofs.wp]. left. exists o, z. split; [exact Hz|].
    destruct Hz as (Hin & f & Hf & -> & Hz). destruct (Hty o Hin) as (H1 & H2 & H3).
    rewrite (loose_form_unique _ _ _ _ Hf (loose_form_header _ _)) in Hz.
    pose proof (header_info_ok L _ _ z [] Hz H1 H2 H3) as Hi. rewrite app_nil_r in Hi. rewrite Hi. reflexivity.
  Qed.
  Lemma rwp_stream f db sha ops h s : sha_ok sha -> l_root db = root ->
    rwp (read_stream (K := K) f db sha ops) h s (fun r _ _ =>
      (exists o z, file_of L sha1 objs sha o z /\ r = read_object (K := K) z f ops) \/ (r = Raise BadObject /\ (is_file s (obj sha) = false \/ ~ can_read O))).
  Proof.
    intros Hok Hroot. unfold read_stream, stream. apply wp_bind. apply wp_bind. eapply wp_mono; [|now apply rwp_map].
    intros r h' s' [(z & -> & o & Hz)|(-> & Hb)]; [|right; now split]. cbn [OsProofs.wp]. unfold read_object.
    destruct (reader_new K f z) as [[[t n] r']|e|] eqn:En; cbn [bind OsProofs.wp]; left; exists o, z; (split; [exact Hz|]); rewrite En; reflexivity.
  Qed.
  Lemma rwp_has db sha h s : sha_ok sha -> l_root db = root -> cache_ok db s -> sound s ->
    rwp (has_object db sha) h s (fun r _ s' => exists b db', r = Ok (b, db') /\
      (if b then is_file s' (obj sha) = true else is_file s (obj sha) = false)).
  Proof.
    intros Hok Hroot Hc Hsd. unfold has_object, readable_db_object_path. rewrite object_path_file, Hroot. apply wp_after.
    destruct (cache_get (bin_to_hex sha) (l_cache db)) as [p|] eqn:Eg.
    - cbn. exists true, db. split; [easy|]. destruct (Hc _ _ Eg) as [-> He]. rewrite object_path_file, Hroot in He.
      unfold path_exists in He. destruct (Hsd sha Hok) as [Hd _]. now rewrite Hd, orb_false_r in He.
    - apply wp_bind. apply wp_sysv. intros s1 a s2 (_ & Hf & Hsd1) Hs. destruct Hs as [-> ->]. exists h. split; [apply guar_same|].
      unfold path_exists. destruct (Hsd1 sha Hok) as [Hd _]. rewrite Hd, orb_false_r. destruct (is_file s1 (obj sha)) eqn:E; cbn.
      + eexists true, _. split; [reflexivity|]. exact E.
      + eexists false, _. split; [reflexivity|]. destruct (is_file s (obj sha)) eqn:E2; [|easy]. apply Hf in E2. congruence.
  Qed.
End Among.

(** ** Starting from the beginning *)
Section Start.
  Context {K : zlib} (L : zlib_laws K) (sha1 : bytes -> bytes) (Hsha : forall d, sha_ok (sha1 d)) (pagesize : Z) (Hpage : 0 < pagesize).
  Context {R : Type} (rd : R -> Z -> res (bytes * R)) (content : R -> bytes) (HR : stream_reader rd content).
  Context (O : os) (root : path) (objs : list object) (jobs : list (nat * ldb * istream R)).
  Context (Hjobs : forall f db i, In (f, db, i) jobs -> l_root db = root /\ honest L sha1 content objs i /\ (is_binsha i = None \/ may_fail O KShort = false)).
  Notation start := (map (fun j => match j with (f, db, i) => store K sha1 pagesize rd f db None i end) jobs).
  Notation obj := (object_file root).
  Lemma honest_storable i : honest L sha1 content objs i -> storable content i.
  Proof.
    clear Hjobs HR Hpage. unfold honest, storable. destruct (is_binsha i) as [sha|]; [|now intros [H _]]. intros (Hl & o & _ & f & _ & -> & _). split; [apply Hsha|exact Hl].
  Qed.
  Lemma interleaved_amid {B} (q : prog B) {A} (l : list (prog A)) s l' s' : interleaved O l s l' s' -> amid O q l s q l' s'.
  Proof. clear Hjobs HR Hpage Hsha. induction 1; [constructor|eapply am_other; eauto]. Qed.
  Lemma query_amid {B} (q : prog B) Q s l1 s1 r l2 s2 : wf s -> sound_dir L sha1 objs root s ->
    interleaved O start s l1 s1 ->
    (sound_dir L sha1 objs root s1 -> wp O (rely L sha1 root objs) (guar root) q [] s1 Q) ->
    amid O q l1 s1 (Ret r) l2 s2 -> sound_dir L sha1 objs root s1 /\ sound_dir L sha1 objs root s2 /\ exists h sq, Q r h sq /\ rely L sha1 root objs h sq s2.
  Proof.
    intros Hw Hsd Hrun Hq Ham.
    set (P := fun p z => exists f db i, In (f, db, i) jobs /\ stored_as K sha1 pagesize rd O root i p z).
    assert (HP : forall sha z, sha_ok sha -> P (obj sha) z -> exists o, file_of L sha1 objs sha o z).
    { intros sha z Hok (f & db & i & Hin & Hst). destruct (Hjobs f db i Hin) as (Hroot & Hh & Hk).
      assert (Hc : complete L sha1 content root i (obj sha) z) by (rewrite <- Hroot in *; eapply store_complete; eauto using honest_storable).
      unfold complete in Hc. unfold honest in Hh. destruct (is_binsha i) as [sha'|].
      - destruct Hc as [E ->]. destruct Hh as (_ & o & Ho). exists o.
        assert (sha = sha') as -> by (apply object_file_inj in E; [easy|apply Hok|destruct Ho as (_ & ? & _ & -> & _); apply Hsha]). exact Ho.
      - destruct Hh as [_ Hin']. destruct Hc as (form & Hf & E & Hz). exists (object_of content i). split; [exact Hin'|]. exists form.
        split; [exact Hf|]. split; [|exact Hz]. apply object_file_inj in E; [exact E|apply Hok|apply Hsha]. }
    set (st := fun j => match j with (f, db, i) => mk_proc K (store K sha1 pagesize rd f db None i) i (mk_ghost None false false) end).
    destruct (amid_inv L sha1 Hsha pagesize rd O root objs P HP s _ _ _ _ _ _ (interleaved_amid (ret tt) _ _ _ _ Hrun) (map st jobs) [] s (fun _ _ _ => True))
      as (ps & h & sq & H1 & H2 & H3 & Hs1 & _); try easy.
    - rewrite map_map. apply map_ext. now intros [[f db] i].
    - split; [easy|]. split.
      + apply Forall_forall. intros x Hx. apply in_map_iff in Hx as ([[f db] i] & <- & Hin). destruct (Hjobs f db i Hin) as (Hroot & Hh & _). cbn [st p_prog p_ghost p_in]. split; [exact I|].
        apply wp_store; try easy.
        * intros d. apply Hsha.
        * intros t fd b d a b' [Hm1 Hm2] [Ho _]. destruct (Ho t fd eq_refl Hm1) as [Ha Hd]. split; [easy|congruence].
        * intros g a b' sha [_ Hf]. apply Hf.
        * intros sha z Hst. now exists f, db, i.
        * intros sha E. apply honest_storable in Hh. unfold storable in Hh. rewrite E in Hh. apply Hh.
      + clear. induction jobs as [|[[f db] i] l IH]; cbn [map]; constructor; [|exact IH].
        apply Forall_forall. intros x Hx. apply in_map_iff in Hx as ([[f' db'] i'] & <- & _). easy.
    - split; [intros p _; now left|]. intros x t fd Hx. apply in_map_iff in Hx as ([[f db] i] & <- & _). discriminate.
    - destruct (amid_inv L sha1 Hsha pagesize rd O root objs P HP s _ _ _ _ _ _ Ham ps [] s1 Q) as (ps' & h' & sq' & G1 & G2 & G3 & G4 & G5 & G6); try easy; [now apply Hq|].
      split; [exact Hs1|]. split; [exact G4|]. now exists h', sq'.
  Qed.
  Lemma rely_file h s s' sha : rely L sha1 root objs h s s' -> is_file s (obj sha) = true -> contents s' (obj sha) <> None.
  Proof. clear Hjobs HR Hpage Hsha. intros (_ & H & _) Hf. apply H in Hf. apply is_file_true in Hf. intros E. apply contents_none in E. congruence. Qed.
  Lemma not_there s sha : is_file s (obj sha) = false \/ ~ can_read O ->
    contents s (obj sha) = None \/ may_fail O KOpen = true \/ may_fail O KClose = true.
  Proof.
    clear Hjobs HR Hpage Hsha. intros [H|H]; [left; now apply contents_none, is_file_lookup|right].
    unfold can_read in H. destruct (may_fail O KOpen); [now left|]. destruct (may_fail O KClose); [now right|]. exfalso. now apply H.
  Qed.
  Lemma info_amid s l1 s1 db sha r l2 s2 : wf s -> sound_dir L sha1 objs root s -> interleaved O start s l1 s1 ->
    (forall o, In o objs -> ~ In 32 (fst o) /\ ~ In 0 (fst o) /\ len (loose_object_header (fst o) (len (snd o))) <= 8192) ->
    l_root db = root -> sha_ok sha -> amid O (info K db sha) l1 s1 (Ret r) l2 s2 ->
    (exists o z, file_of L sha1 objs sha o z /\ r = Ok (sha, fst o, len (snd o))) \/
    (r = Raise BadObject /\ (contents s1 (obj sha) = None \/ may_fail O KOpen = true \/ may_fail O KClose = true)).
  Proof.
    intros Hw Hsd Hrun Hty Hroot Hok Ham.
    destruct (query_amid _ _ s l1 s1 r l2 s2 Hw Hsd Hrun (fun _ => rwp_info L sha1 O root objs db sha [] s1 Hok Hroot Hty) Ham) as (_ & _ & h & sq & [H|[-> H]] & _).
    - now left.
    - right. split; [easy|]. now apply not_there.
  Qed.
  Lemma stream_amid s l1 s1 db sha f ops r l2 s2 : wf s -> sound_dir L sha1 objs root s -> interleaved O start s l1 s1 ->
    l_root db = root -> sha_ok sha -> amid O (read_stream (K := K) f db sha ops) l1 s1 (Ret r) l2 s2 ->
    (exists o z, file_of L sha1 objs sha o z /\ r = read_object (K := K) z f ops) \/
    (r = Raise BadObject /\ (contents s1 (obj sha) = None \/ may_fail O KOpen = true \/ may_fail O KClose = true)).
  Proof.
    intros Hw Hsd Hrun Hroot Hok Ham.
    destruct (query_amid _ _ s l1 s1 r l2 s2 Hw Hsd Hrun (fun _ => rwp_stream L sha1 O root objs f db sha ops [] s1 Hok Hroot) Ham) as (_ & _ & h & sq & [H|[-> H]] & _).
    - now left.
    - right. split; [easy|]. now apply not_there.
  Qed.
  Lemma has_amid s l1 s1 db sha r l2 s2 : wf s -> sound_dir L sha1 objs root s -> interleaved O start s l1 s1 ->
    l_root db = root -> cache_ok db s1 -> sha_ok sha -> amid O (has_object db sha) l1 s1 (Ret r) l2 s2 ->
    exists b db', r = Ok (b, db') /\ if b then contents s2 (obj sha) <> None else contents s1 (obj sha) = None.
  Proof.
    intros Hw Hsd Hrun Hroot Hc Hok Ham.
    destruct (query_amid _ _ s l1 s1 r l2 s2 Hw Hsd Hrun (fun H => rwp_has L sha1 O root objs db sha [] s1 Hok Hroot Hc H) Ham) as (_ & _ & h & sq & (b & db' & -> & H) & Hr).
    exists b, db'. split; [easy|]. destruct b; [eapply rely_file; eauto|]. now apply contents_none, is_file_lookup.
  Qed.
  (** A store that has ended can be read. *)
  Lemma finished_there s l1 s1 n i' out sha : wf s -> interleaved O start s l1 s1 ->
    nth_error l1 n = Some (Ret (Ok (i', out))) -> is_binsha i' = Some sha -> contents s1 (obj sha) <> None.
  Proof.
    intros Hw Hrun Hn Hs.
    destruct (stores_at_once L sha1 Hsha pagesize Hpage rd content HR O root jobs s l1 s1 Hw) as (_ & _ & _ & H); [|exact Hrun|].
    { intros f db i Hin. destruct (Hjobs f db i Hin) as (H1 & H2 & H3). split; [easy|]. split; [now apply honest_storable|easy]. }
    assert (Hlen : forall A (l : list (prog A)) s l' s', interleaved O l s l' s' -> length l' = length l).
    { clear. induction 1 as [|l1 p l2 s p' s' l'' s'' _ _ IH]; [easy|]. rewrite IH, !app_length. reflexivity. }
    apply Hlen in Hrun. rewrite map_length in Hrun.
    destruct (nth_error jobs n) as [[[f db] i]|] eqn:Ej.
    2: { apply nth_error_None in Ej. assert (n < length l1)%nat by (apply nth_error_Some; congruence). lia. }
    destruct (H n f db i i' out Ej Hn) as (sha' & z & E & _ & Hc). rewrite Hs in E. injection E as <-. exact Hc.
  Qed.
End Start.
