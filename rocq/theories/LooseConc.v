(** Several processes storing objects in the same LooseObjectDB at the same time. *)
From Coq Require Import ZifyBool ZifyNat Permutation.
From Verif Require Import Py PyFacts FunModel FunSpec FunProofs ZlibModel ReaderModel StreamSpec ReaderProofs IndexSpec PackSpec OsModel OsProofs LooseModel LooseSpec LooseProofs LooseTop.
Ltac Zify.zify_post_hook ::= Z.div_mod_to_equations.

Section Conc.
  Context (K : zlib) (sha1 : bytes -> bytes) (pagesize : Z) {R : Type} (read : R -> Z -> res (bytes * R)).
  Context (Hsha : forall d, is_bytes (sha1 d)) (O : os) (root : path).

  (** What the others leave alone. *)
  Definition others (g : ghost) (s s' : world) : Prop :=
    (forall t fd, g_own g = Some (t, fd) -> lookup s t = Some fd -> lookup s' t = Some fd /\ w_data s' fd = w_data s fd) /\
    (forall sha, is_file s (object_file root sha) = true -> is_file s' (object_file root sha) = true).
  Lemma others_refl g s : others g s s.
  Proof. easy. Qed.
  Lemma others_trans g s1 s2 s3 : others g s1 s2 -> others g s2 s3 -> others g s1 s3.
  Proof.
    intros [H1 H2] [H3 H4]. split; [|auto]. intros t fd E Hl. destruct (H1 t fd E Hl) as [Ha Hb]. destruct (H3 t fd E Ha) as [Hc Hd].
    split; [easy|congruence].
  Qed.
  Context (P : path -> bytes -> Prop).
  Notation Guar := (loose_guar P root false false).
  Notation wp := (wp O others Guar).
  Lemma wp_others A (p : prog A) g s s' (Q : res A -> ghost -> world -> Prop) :
    (forall r g s s', Q r g s -> others g s s' -> Q r g s') -> others g s s' -> wp p g s Q -> wp p g s' Q.
  Proof.
    intros HQ Ho Hwp. destruct p as [r|B c k].
    - cbn in *. eapply HQ; eauto.
    - cbn [OsProofs.wp] in *. intros s1 a s2 Hr Hs. apply (Hwp s1 a s2); [|easy]. eapply others_trans; eauto.
  Qed.
  Lemma post_others i r g s s' : store_post K sha1 pagesize read O root i r g s -> others g s s' -> store_post K sha1 pagesize read O root i r g s'.
  Proof.
    intros [H1 H2] [Ho Hf]. split; [easy|]. destruct r as [[i' out]|e|]; [| |easy].
    - destruct H2 as (Ha & Hb & sha & z & H3 & H4 & H5 & H6 & H7 & H8). split; [easy|]. split; [easy|]. exists sha, z.
      do 5 (split; [easy|]). now apply Hf.
    - destruct H2 as [H2 H3]. split; [easy|]. destruct (g_own g) as [[t fd]|] eqn:Eg; [|easy]. destruct H3 as (Ht & d & Hl & Hd).
      split; [easy|]. destruct (Ho t fd eq_refl Hl) as [Hl' Hd']. exists d. split; [easy|congruence].
  Qed.

  Definition owns (g : ghost) (s : world) : Prop :=
    match g_own g with Some (t, fd) => temp_file root t /\ lookup s t = Some fd | None => True end.
  Definition apart (g g' : ghost) : Prop :=
    forall t fd t' fd', g_own g = Some (t, fd) -> g_own g' = Some (t', fd') -> t <> t'.
  Lemma apart_sym g g' : apart g g' -> apart g' g.
  Proof. intros H t fd t' fd' E E' ->. eapply H; eauto. Qed.
  (** A step of one process, seen by another. *)
  Lemma guar_others g e g' s s' h : wf s -> owns g s -> owns h s -> apart g h -> Guar g e g' s s' ->
    others h s s' /\ owns h s' /\ owns g' s' /\ apart g' h /\ wf s'.
  Proof.
    intros Hw Hg Hh Hap (Hs & _). unfold others, owns, apart in *. destruct g as [og ? ?], g' as [og' ? ?], h as [oh ? ?]. cbn [g_own] in *.
    assert (Hfd : forall t fd t' fd', og = Some (t, fd) -> oh = Some (t', fd') -> fd <> fd').
    { intros t fd t' fd' -> ->. intros <-. apply (Hap t fd t' fd eq_refl eq_refl). eapply wf_inj; [exact Hw|apply Hg|apply Hh]. }
    destruct Hs as [g s|s t Ht Hex|t fd s x Hl|g s sha|t fd s Hl|t fd s sha Hl HP _].
    - easy.
    - apply orb_false_elim in Hex as [Hex _]. apply is_file_lookup in Hex.
      assert (Hk : forall t' fd', lookup s t' = Some fd' -> t' <> t /\ lookup (create s t) t' = Some fd' /\ w_data (create s t) fd' = w_data s fd').
      { intros t' fd' Hl'. assert (t' <> t) by congruence. split; [easy|]. rewrite lookup_create, data_create. destruct (path_eq_dec t' t); [easy|]. split; [easy|].
        apply (wf_next s Hw) in Hl'. now replace (Nat.eqb fd' (w_next s)) with false by lia. }
      split; [split|split; [|split; [|split]]].
      + intros t' fd' -> Hl'. now apply Hk.
      + intros sha Hf. apply is_file_true in Hf. apply is_file_true. rewrite lookup_create. now destruct (path_eq_dec _ t).
      + destruct oh as [[t' fd']|]; [|easy]. destruct Hh as [Ht' Hl']. split; [easy|]. now apply Hk.
      + split; [easy|]. rewrite lookup_create. now destruct (path_eq_dec t t).
      + intros t1 fd1 t' fd' [= <- <-] -> ->. destruct Hh as [_ Hl']. now apply Hk in Hl'.
      + now apply wf_create.
    - split; [split|split; [|split; [|split]]].
      + intros t' fd' E Hl'. split; [easy|]. rewrite data_set_data. specialize (Hfd t fd t' fd' eq_refl E).
        now replace (Nat.eqb fd' fd) with false by lia.
      + easy.
      + easy.
      + easy.
      + easy.
      + now apply wf_set_data.
    - split; [easy|]. split; [easy|]. split; [easy|]. split; [easy|]. now apply wf_add_dirs.
    - assert (Hne : forall t' fd', oh = Some (t', fd') -> t' <> t).
      { intros t' fd' E ->. eapply Hap; eauto. }
      split; [split|split; [|split; [|split]]].
      + intros t' fd' E Hl'. split; [|easy]. rewrite lookup_unlink. destruct (path_eq_dec t' t); [|easy]. exfalso. eapply Hne; eauto.
      + intros sha Hf. apply is_file_true in Hf. apply is_file_true. rewrite lookup_unlink. destruct Hg as [Ht _].
        destruct (path_eq_dec (object_file root sha) t) as [E|]; [|easy]. symmetry in E. now apply temp_not_object in E.
      + destruct oh as [[t' fd']|]; [|easy]. destruct Hh as [Ht' Hl']. split; [easy|]. rewrite lookup_unlink. destruct (path_eq_dec t' t); [|easy]. exfalso. eapply Hne; eauto.
      + easy.
      + easy.
      + now apply wf_unlink.
    - destruct Hg as [Ht _]. set (target := object_file root sha) in *.
      assert (Hne : forall t' fd', oh = Some (t', fd') -> t' <> t).
      { intros t' fd' E ->. eapply Hap; eauto. }
      assert (Hk : forall t' fd', oh = Some (t', fd') -> lookup s t' = Some fd' -> lookup (link (unlink s t) target fd) t' = Some fd').
      { intros t' fd' E Hl'. rewrite lookup_link, lookup_unlink. destruct (path_eq_dec t' target) as [E'|].
        - exfalso. rewrite E in Hh. destruct Hh as [Ht' _]. now apply temp_not_object in E'.
        - destruct (path_eq_dec t' t); [|easy]. exfalso. eapply Hne; eauto. }
      split; [split|split; [|split; [|split]]].
      + intros t' fd' E Hl'. split; [now apply Hk|easy].
      + intros sha' Hf. apply is_file_true in Hf. apply is_file_true. rewrite lookup_link, lookup_unlink.
        destruct (path_eq_dec (object_file root sha') target); [easy|].
        destruct (path_eq_dec (object_file root sha') t) as [E|]; [|easy]. symmetry in E. now apply temp_not_object in E.
      + destruct oh as [[t' fd']|]; [|easy]. destruct Hh as [Ht' Hl']. split; [easy|]. now apply Hk.
      + easy.
      + easy.
      + apply wf_link; [now apply wf_unlink|exact (wf_next s Hw _ _ Hl)|]. intros p. rewrite lookup_unlink.
        destruct (path_eq_dec p t); [easy|]. intros E. exfalso. apply n. eapply wf_inj; eauto.
  Qed.

  (** ** The pool *)
  Record proc := mk_proc { p_prog : prog (istream R * option (writer K)); p_in : istream R; p_ghost : ghost }.
  Definition pool_ok (ps : list proc) (s : world) : Prop :=
    wf s /\ Forall (fun x => owns (p_ghost x) s /\ wp (p_prog x) (p_ghost x) s (store_post K sha1 pagesize read O root (p_in x))) ps /\
    ForallOrdPairs (fun x y => apart (p_ghost x) (p_ghost y)) ps.
  Context (s0 : world).
  (** A file is as before, or a temporary file of one of the processes, or a complete object. *)
  Definition files_ok (ps : list proc) (s : world) : Prop :=
    (forall p, (forall x t fd, In x ps -> g_own (p_ghost x) = Some (t, fd) -> p <> t) ->
      contents s p = contents s0 p \/ exists z, contents s p = Some z /\ P p z) /\
    (forall x t fd, In x ps -> g_own (p_ghost x) = Some (t, fd) -> contents s0 t = None).
  Lemma files_step (ps : list proc) x y e s s' : wf s -> (forall z, In z (x :: ps) -> owns (p_ghost z) s) -> Guar (p_ghost x) e (p_ghost y) s s' ->
    files_ok (x :: ps) s -> files_ok (y :: ps) s'.
  Proof.
    intros Hw Hown (Hs & _) [Hf Ht]. unfold files_ok. cbn [In] in *. destruct x as [px ix gx], y as [py iy gy]. cbn [p_ghost p_prog p_in] in *.
    set (X := mk_proc px ix gx) in *. set (Y := mk_proc py iy gy) in *.
    assert (Hfx : forall p, (forall t fd, g_own gx = Some (t, fd) -> p <> t) -> (forall z t fd, In z ps -> g_own (p_ghost z) = Some (t, fd) -> p <> t) ->
      contents s p = contents s0 p \/ exists z, contents s p = Some z /\ P p z).
    { intros p H1 H2. apply Hf. intros z t fd [<-|Hz] E; [now apply (H1 t fd)|now apply (H2 z t fd)]. }
    assert (Htx : forall t fd, g_own gx = Some (t, fd) -> contents s0 t = None) by (intros t fd E; apply (Ht X t fd); [now left|exact E]).
    assert (Hty : forall z t fd, In z ps -> g_own (p_ghost z) = Some (t, fd) -> contents s0 t = None) by (intros z t fd Hz E; apply (Ht z t fd); [now right|exact E]).
    assert (Hox : owns gx s) by (apply (Hown X); now left).
    assert (Hoz : forall z, In z ps -> owns (p_ghost z) s) by (intros z Hz; apply Hown; now right).
    clear Hf Ht Hown.
    cut ((forall p, (forall t fd, g_own gy = Some (t, fd) -> p <> t) -> (forall z t fd, In z ps -> g_own (p_ghost z) = Some (t, fd) -> p <> t) ->
      contents s' p = contents s0 p \/ exists z, contents s' p = Some z /\ P p z) /\ (forall t fd, g_own gy = Some (t, fd) -> contents s0 t = None)).
    { intros [H1 H2]. split.
      - intros p Hp. apply H1; [intros t fd E; apply (Hp Y t fd); [now left|exact E]|intros z t fd Hz E; apply (Hp z t fd); [now right|exact E]].
      - intros z t fd [<-|Hz] E; [apply (H2 t fd E)|now apply (Hty z t fd)]. }
    unfold owns in Hox. destruct gx as [ox ? ?], gy as [oy ? ?]. subst X Y. cbn [g_own] in *.
    destruct Hs as [g s|s t Ht Hex|t fd s x Hl|g s sha|t fd s Hl|t fd s sha Hl HP _].
    - easy.
    - apply orb_false_elim in Hex as [Hex _]. apply is_file_lookup in Hex. split.
      + intros p H1 H2. rewrite contents_create; [|easy|eapply H1; reflexivity]. now apply Hfx.
      + intros t' fd' [= <- <-]. apply contents_none in Hex. destruct (Hfx t) as [Hq|(z & Hz & _)]; [easy| |congruence|congruence].
        intros z t1 fd1 Hz E <-. specialize (Hoz z Hz). unfold owns in Hoz. rewrite E in Hoz. destruct Hoz as [_ Hoz].
        apply contents_none in Hex. congruence.
    - split; [|easy]. intros p H1 H2. rewrite (contents_set_data s t fd); [now apply Hfx|easy|easy|eapply H1; reflexivity].
    - easy.
    - split; [|easy]. intros p _ H2. rewrite contents_unlink. destruct (path_eq_dec p t) as [->|Hne].
      + left. symmetry. eapply Htx; reflexivity.
      + apply Hfx; [congruence|easy].
    - split; [|easy]. intros p _ H2. rewrite contents_link, contents_unlink. destruct (path_eq_dec p (object_file root sha)) as [->|].
      + right. now exists (w_data s fd).
      + destruct (path_eq_dec p t) as [->|Hne].
        * left. symmetry. eapply Htx; reflexivity.
        * apply Hfx; [congruence|easy].
  Qed.

  Lemma pairs_mid {A} (Rel : A -> A -> Prop) (l1 : list A) x l2 : (forall a b, Rel a b -> Rel b a) ->
    ForallOrdPairs Rel (l1 ++ x :: l2) <-> ForallOrdPairs Rel (l1 ++ l2) /\ Forall (Rel x) (l1 ++ l2).
  Proof.
    intros Hsym. induction l1 as [|a l1 IH]; cbn [app].
    - split; [intros H; inversion H; subst; now split|intros [H1 H2]; now constructor].
    - split.
      + intros H. inversion H as [|? ? Ha Hb]; subst. apply IH in Hb as [Hb Hc]. apply Forall_app in Ha as [Ha1 Ha2]. inversion Ha2; subst.
        split; [constructor; [now apply Forall_app|easy]|]. constructor; [now apply Hsym|easy].
      + intros [H1 H2]. inversion H1 as [|? ? Ha Hb]; subst. inversion H2; subst. constructor; [|now apply IH].
        apply Forall_app in Ha as [Ha1 Ha2]. apply Forall_app. split; [easy|]. constructor; [now apply Hsym|easy].
  Qed.
  Lemma pool_step ps1 x ps2 s p' s' : pool_ok (ps1 ++ x :: ps2) s -> files_ok (ps1 ++ x :: ps2) s -> step O (p_prog x) s p' s' ->
    exists y, p_prog y = p' /\ p_in y = p_in x /\ pool_ok (ps1 ++ y :: ps2) s' /\ files_ok (ps1 ++ y :: ps2) s' /\
      exists e, Guar (p_ghost x) e (p_ghost y) s s'.
  Proof.
    intros (Hw & Hall & Hap) Hfiles Hstep.
    assert (Hx := Hall). apply Forall_app in Hx as [Hall1 Hx]. pose proof (Forall_inv Hx) as [Hox Hwp]. apply Forall_inv_tail in Hx. rename Hx into Hall2.
    apply pairs_mid in Hap as [Hap Hapx]; [|intros a b; apply apart_sym].
    destruct x as [px ix gx]. cbn [p_prog p_in p_ghost] in *. destruct px as [r|B c k]; [easy|]. destruct Hstep as (a & Hs & ->).
    destruct (Hwp s a s' (others_refl gx s) Hs) as (g' & HG & Hk). exists (mk_proc (k a) ix g'). cbn [p_prog p_in p_ghost]. split; [easy|]. split; [easy|].
    assert (Hothers : forall h, owns h s -> apart gx h -> others h s s' /\ owns h s' /\ owns g' s' /\ apart g' h /\ wf s').
    { intros h H1 H2. exact (guar_others gx _ g' s s' h Hw Hox H1 H2 HG). }
    destruct (Hothers (mk_ghost None false false) I ltac:(easy)) as (_ & _ & Hog & _ & Hw').
    assert (Hrest : Forall (fun z => owns (p_ghost z) s' /\ wp (p_prog z) (p_ghost z) s' (store_post K sha1 pagesize read O root (p_in z))) (ps1 ++ ps2) /\
                    Forall (fun z => apart g' (p_ghost z)) (ps1 ++ ps2)).
    { assert (Hall' : Forall (fun z => owns (p_ghost z) s /\ wp (p_prog z) (p_ghost z) s (store_post K sha1 pagesize read O root (p_in z))) (ps1 ++ ps2)) by (apply Forall_app; now split).
      split; apply Forall_forall; intros z Hz; rewrite Forall_forall in Hall', Hapx; destruct (Hall' z Hz) as [Ho1 Hw1];
        destruct (Hothers (p_ghost z) Ho1 (Hapx z Hz)) as (H1 & H2 & _ & H4 & _); [|exact H4].
      split; [exact H2|]. eapply wp_others; [|exact H1|exact Hw1]. intros r g a1 b1. apply post_others. }
    destruct Hrest as [Hr1 Hr2]. split; [|split; [|now exists (Ev c a)]].
    - split; [exact Hw'|]. split.
      + apply Forall_app in Hr1 as [Ha Hb]. apply Forall_app. split; [exact Ha|]. constructor; [cbn [p_prog p_in p_ghost]; now split|exact Hb].
      + apply pairs_mid; [intros u v; apply apart_sym|]. now split.
    - assert (Hperm : forall z w, In w (ps1 ++ z :: ps2) <-> In w (z :: ps1 ++ ps2)).
      { intros z w. rewrite in_app_iff. cbn [In]. rewrite in_app_iff. tauto. }
      assert (Hcong : forall z s, files_ok (ps1 ++ z :: ps2) s <-> files_ok (z :: ps1 ++ ps2) s).
      { intros z s1. unfold files_ok. split; intros [H1 H2]; (split; [intros p Hp; apply H1; intros w t fd Hin; apply Hp; now apply Hperm|intros w t fd Hin; apply H2; now apply Hperm]). }
      apply Hcong. eapply files_step with (x := mk_proc (Call c k) ix gx); [exact Hw| |exact HG|now apply Hcong].
      intros z Hz. apply Hperm in Hz. rewrite Forall_forall in Hall. now apply Hall.
  Qed.
  Lemma pool_run l s l' s' : interleaved O l s l' s' -> forall ps, map p_prog ps = l -> pool_ok ps s -> files_ok ps s ->
    exists ps', map p_prog ps' = l' /\ map p_in ps' = map p_in ps /\ pool_ok ps' s' /\ files_ok ps' s'.
  Proof.
    induction 1 as [l s|l1 p l2 s p' s1 l2' s2 Hst _ IH]; intros ps Hl Hp Hf; [now exists ps|].
    apply map_eq_app in Hl as (ps1 & ps2 & -> & <- & Hl). destruct ps2 as [|x ps2]; [discriminate|]. injection Hl as <- <-.
    destruct (pool_step ps1 x ps2 s p' s1 Hp Hf Hst) as (y & <- & Hin & Hp' & Hf' & _).
    destruct (IH (ps1 ++ y :: ps2)) as (ps' & H1 & H2 & H3 & H4); [now rewrite map_app|easy|easy|].
    exists ps'. split; [easy|]. split; [|easy]. rewrite H2, !map_app. cbn [map]. now rewrite Hin.
  Qed.
End Conc.

(** All processes start a store. *)
Lemma concurrent_stores (K : zlib) sha1 pagesize {R} (read : R -> Z -> res (bytes * R)) (O : os) root
    (jobs : list (nat * ldb * istream R)) s l' s' :
  (forall d, is_bytes (sha1 d)) -> wf s ->
  (forall f db i, In (f, db, i) jobs -> l_root db = root /\ forall sha, is_binsha i = Some sha -> is_bytes sha) ->
  interleaved O (map (fun j => match j with (f, db, i) => store K sha1 pagesize read f db None i end) jobs) s l' s' ->
  wf s' /\
  (forall p, ~ temp_file root p \/ contents s p <> None -> contents s' p = contents s p \/
     exists z f db i, contents s' p = Some z /\ In (f, db, i) jobs /\ stored_as K sha1 pagesize read O root i p z) /\
  (forall p z, contents s p = Some z -> contents s' p <> None) /\
  (forall n f db i i' out, nth_error jobs n = Some (f, db, i) -> nth_error l' n = Some (Ret (Ok (i', out))) ->
     exists sha z, is_binsha i' = Some sha /\ stored_as K sha1 pagesize read O root i (object_file root sha) z /\
       contents s' (object_file root sha) <> None).
Proof.
  intros Hsha Hw Hjobs Hrun.
  set (P := fun p z => exists f db i, In (f, db, i) jobs /\ stored_as K sha1 pagesize read O root i p z).
  set (start := fun j => match j with (f, db, i) => mk_proc K (store K sha1 pagesize read f db None i) i (mk_ghost None false false) end).
  destruct (pool_run K sha1 pagesize read Hsha O root P s _ _ _ _ Hrun (map start jobs)) as (ps' & H1 & H2 & H3 & H4).
  - rewrite map_map. apply map_ext. now intros [[f db] i].
  - split; [easy|]. split.
    + apply Forall_forall. intros x Hx. apply in_map_iff in Hx as ([[f db] i] & <- & Hin). destruct (Hjobs f db i Hin) as [Hroot Hb]. cbn [start p_prog p_ghost p_in]. split; [exact I|].
      apply wp_store; try easy.
      * intros t fd b d a b' [Hm1 Hm2] [Ho _]. destruct (Ho t fd eq_refl Hm1) as [Ha Hd]. split; [easy|congruence].
      * intros g a b' sha [_ Hf]. apply Hf.
      * intros sha z Hst. now exists f, db, i.
    + clear. induction jobs as [|[[f db] i] jobs IH]; cbn [map]; constructor; [|exact IH].
      apply Forall_forall. intros x Hx. apply in_map_iff in Hx as ([[f' db'] i'] & <- & _). easy.
  - split; [intros p _; now left|]. intros x t fd Hx. apply in_map_iff in Hx as ([[f db] i] & <- & _). discriminate.
  - destruct H3 as (Hw' & Hall & _). destruct H4 as [Hf Ht]. split; [easy|].
    assert (Hfile : forall p, ~ temp_file root p \/ contents s p <> None -> contents s' p = contents s p \/
      exists z f db i, contents s' p = Some z /\ In (f, db, i) jobs /\ stored_as K sha1 pagesize read O root i p z).
    { intros p Hp. destruct (Hf p) as [Hq|(z & Hz & f & db & i & Hi & Hs)]; [|now left|right; now exists z, f, db, i].
      intros x t fd Hx E ->. destruct Hp as [Hp|Hp]; [|apply Hp; eapply Ht; eauto]. apply Hp.
      rewrite Forall_forall in Hall. destruct (Hall x Hx) as [Ho _]. unfold owns in Ho. rewrite E in Ho. apply Ho. }
    split; [exact Hfile|]. split.
    + intros p z Hz. destruct (Hfile p) as [Hq|(z' & _ & _ & _ & Hz' & _)]; [right|..]; congruence.
    + intros n f db i i' out Hn Hl. rewrite <- H1, nth_error_map in Hl.
      destruct (nth_error ps' n) as [x|] eqn:Ex; [|discriminate]. cbn [option_map] in Hl.
      assert (Hi : p_in K x = i).
      { apply (f_equal (fun l => nth_error l n)) in H2. rewrite map_map, !nth_error_map, Ex, Hn in H2. cbn in H2. congruence. }
      rewrite Forall_forall in Hall. destruct (Hall x (nth_error_In _ _ Ex)) as [_ Hwp].
      assert (Hp : p_prog K x = Ret (Ok (i', out))) by congruence. rewrite Hp in Hwp. cbn [OsProofs.wp] in Hwp.
      destruct Hwp as [_ (_ & _ & sha & z & G1 & _ & _ & _ & G2 & G3)]. rewrite Hi in G2. exists sha, z. split; [easy|]. split; [easy|].
      intros E. apply contents_none in E. apply is_file_true in G3. congruence.
Qed.
