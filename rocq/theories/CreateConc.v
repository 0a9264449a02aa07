(** Several processes creating packs in the same directory at the same time. *)
From Coq Require Import ZifyBool ZifyNat.
From Verif Require Import Py PyFacts FunModel FunSpec IndexModel ZlibModel ReaderModel PackModel OsModel OsProofs PackDbModel PackDbSpec LooseProofs LooseTop LooseConc CreateModel CreateSpec CreateProofs.
Ltac Zify.zify_post_hook ::= Z.div_mod_to_equations.

Section Conc.
  Context (K : zlib) (sha1 : bytes -> bytes) (pagesize : Z) {R : Type} (oread : R -> Z -> res (bytes * R)) (fuel : nat).
  Context (O : os) (Hshort : may_fail O KShort = false) (base : path).
  Notation cstep := (cstep K sha1 pagesize oread fuel base).
  Notation guar := (guar K sha1 pagesize oread fuel base).
  Notation made := (made K sha1 pagesize oread fuel base).
  Notation others := (CreateProofs.others true).
  Notation post := (create_post K sha1 pagesize oread fuel O base true).
  Notation wpj j := (wp O others (guar j)).

  Lemma made_scanned j pp ip pack idx : made j pp ip pack idx -> scanned base pp /\ scanned base ip.
  Proof. intros (psha & isha & name & iname & _ & H & -> & ->). now apply (new_scanned base psha). Qed.
  Lemma made_differ j pp ip pack idx j' pp' ip' pack' idx' : made j pp ip pack idx -> made j' pp' ip' pack' idx' -> pp <> ip'.
  Proof.
    intros (psha & isha & name & iname & _ & (-> & _) & -> & _) (psha' & isha' & name' & iname' & _ & (_ & ->) & _ & ->) E.
    apply app_inj_tail in E as [_ E]. apply (f_equal (fun l => last l 0)) in E.
    rewrite !app_assoc in E. change [39; 46; 112; 97; 99; 107] with ([39; 46; 112; 97; 99] ++ [107]) in E.
    change [39; 46; 105; 100; 120] with ([39; 46; 105; 100] ++ [120]) in E. rewrite !app_assoc, !last_last in E. discriminate.
  Qed.

  Definition owns (g : phase) (s : world) : Prop :=
    NoDup (map fst (owned g)) /\ forall t fd, In (t, fd) (owned g) -> scratch base t /\ lookup s t = Some fd.
  Definition apart (g g' : phase) : Prop := forall t fd t' fd', In (t, fd) (owned g) -> In (t', fd') (owned g') -> t <> t'.
  Lemma apart_sym g g' : apart g g' -> apart g' g.
  Proof. intros H t fd t' fd' E E' ->. eapply H; eauto. Qed.

  (** What a step does to the contents of files. *)
  Lemma step_contents j g g' s s' p : cstep j g g' s s' -> wf s -> owns g s ->
    (forall t fd, In (t, fd) (owned g) -> p <> t) -> (forall t fd, In (t, fd) (owned g') -> p <> t) ->
    contents s' p = contents s p \/
    (exists t1 f1 t2 f2 ip pack idx, g = Two t1 f1 t2 f2 /\ g' = Packed t2 f2 /\ made j p ip pack idx /\ contents s' p = Some pack) \/
    (exists t2 f2 pp pack idx, g = Packed t2 f2 /\ g' = Done /\ made j pp p pack idx /\ contents s' p = Some idx).
  Proof.
    intros H Hw Ho Hp Hp'. destruct H as [g s|s t Ht Hex|s t1 f1 t Ht Hex|g s t fd d Hin Hl|s t1 f1 t2 f2 pp ip pack idx Hm Hl Hd|s t2 f2 pp ip pack idx Hm Hl Hd].
    - now left.
    - left. apply contents_create; [easy|]. eapply Hp'. now left.
    - left. apply contents_create; [easy|]. eapply Hp'. right. now left.
    - left. apply (contents_set_data s t fd); [easy|easy|]. now apply (Hp t fd).
    - rewrite contents_link, contents_unlink. destruct (path_eq_dec p pp) as [->|].
      + right. left. exists t1, f1, t2, f2, ip, pack, idx. repeat split; try easy. cbn. now rewrite Hd.
      + left. destruct (path_eq_dec p t1) as [->|]; [|easy]. exfalso. apply (Hp t1 f1); [now left|easy].
    - rewrite contents_link, contents_unlink. destruct (path_eq_dec p ip) as [->|].
      + right. right. exists t2, f2, pp, pack, idx. repeat split; try easy. cbn. now rewrite Hd.
      + left. destruct (path_eq_dec p t2) as [->|]; [|easy]. exfalso. apply (Hp t2 f2); [now left|easy].
  Qed.
  Lemma scratch_owned g s p : owns g s -> scanned base p -> forall t fd, In (t, fd) (owned g) -> p <> t.
  Proof. intros [_ Ho] Hs t fd Hin ->. destruct (Ho t fd Hin) as [H _]. now apply (scratch_not_scanned base t H). Qed.

  (** A step of one process, seen by another. *)
  Lemma guar_others j g g' s s' h : wf s -> owns g s -> owns h s -> apart g h -> cstep j g g' s s' ->
    others h s s' /\ owns h s' /\ owns g' s' /\ apart g' h /\ wf s'.
  Proof.
    intros Hw [Hng Hg] [Hnh Hh] Hap H.
    assert (Hfd : forall t fd t' fd', In (t, fd) (owned g) -> In (t', fd') (owned h) -> fd <> fd').
    { intros t fd t' fd' H1 H2 <-. apply (Hap t fd t' fd H1 H2). exact (wf_inj s Hw t t' fd (proj2 (Hg t fd H1)) (proj2 (Hh t' fd H2))). }
    assert (Hw' : wf s').
    { destruct H as [g s|s t Ht Hex|s t1 f1 t Ht Hex|g s t fd d Hin Hl|s t1 f1 t2 f2 pp ip pack idx Hm Hl Hd|s t2 f2 pp ip pack idx Hm Hl Hd].
      - easy.
      - now apply wf_create.
      - now apply wf_create.
      - now apply wf_set_data.
      - apply wf_link; [now apply wf_unlink|exact (wf_next s Hw _ _ Hl)|]. intros p. rewrite lookup_unlink.
        destruct (path_eq_dec p t1); [easy|]. intros E. exfalso. apply n. eapply wf_inj; eauto.
      - apply wf_link; [now apply wf_unlink|exact (wf_next s Hw _ _ Hl)|]. intros p. rewrite lookup_unlink.
        destruct (path_eq_dec p t2); [easy|]. intros E. exfalso. apply n. eapply wf_inj; eauto. }
    assert (Hnew : forall t, path_exists s t = false -> lookup s t = None).
    { intros t Hex. apply orb_false_elim in Hex as [Hex _]. now apply is_file_lookup. }
    (* the owned files of h *)
    assert (Hkeep : forall t fd, In (t, fd) (owned h) -> lookup s' t = Some fd /\ w_data s' fd = w_data s fd).
    { intros t' fd' Hin'. destruct (Hh t' fd' Hin') as [Hsc Hl'].
      destruct H as [g s|s t Ht Hex|s t1 f1 t Ht Hex|g s t fd d Hin Hl|s t1 f1 t2 f2 pp ip pack idx Hm Hl Hd|s t2 f2 pp ip pack idx Hm Hl Hd].
      - easy.
      - rewrite lookup_create, data_create. apply Hnew in Hex. destruct (path_eq_dec t' t); [congruence|]. split; [easy|].
        apply (wf_next s Hw) in Hl'. now replace (Nat.eqb fd' (w_next s)) with false by lia.
      - rewrite lookup_create, data_create. apply Hnew in Hex. destruct (path_eq_dec t' t); [congruence|]. split; [easy|].
        apply (wf_next s Hw) in Hl'. now replace (Nat.eqb fd' (w_next s)) with false by lia.
      - rewrite lookup_set_data, data_set_data. split; [easy|]. specialize (Hfd t fd t' fd' Hin Hin'). now replace (Nat.eqb fd' fd) with false by lia.
      - split; [|easy]. rewrite lookup_link, lookup_unlink. destruct (path_eq_dec t' pp) as [->|].
        + exfalso. apply (scratch_not_scanned base pp Hsc). apply (made_scanned _ _ _ _ _ Hm).
        + destruct (path_eq_dec t' t1) as [->|]; [|easy]. exfalso. apply (Hap t1 f1 t1 fd'); [now left|easy|easy].
      - split; [|easy]. rewrite lookup_link, lookup_unlink. destruct (path_eq_dec t' ip) as [->|].
        + exfalso. apply (scratch_not_scanned base ip Hsc). apply (made_scanned _ _ _ _ _ Hm).
        + destruct (path_eq_dec t' t2) as [->|]; [|easy]. exfalso. apply (Hap t2 f2 t2 fd'); [now left|easy|easy]. }
    split; [|split; [|split; [|split]]].
    - split; [easy|]. split; [intros _; apply (cstep_dirs _ _ _ _ _ _ _ _ _ _ _ H)|]. intros t fd Hin _. now apply Hkeep.
    - split; [easy|]. intros t fd Hin. split; [now apply (Hh t fd)|now apply Hkeep].
    - destruct H as [g s|s t Ht Hex|s t1 f1 t Ht Hex|g s t fd d Hin Hl|s t1 f1 t2 f2 pp ip pack idx Hm Hl Hd|s t2 f2 pp ip pack idx Hm Hl Hd].
      + easy.
      + split; [repeat constructor; easy|]. intros t' fd' [[= <- <-]|[]]. split; [easy|]. rewrite lookup_create. now destruct (path_eq_dec t t).
      + destruct (Hg t1 f1 (or_introl eq_refl)) as [Hs1 Hl1]. apply Hnew in Hex. assert (t1 <> t) by congruence. split.
        { cbn. repeat constructor; cbn; try easy. intros [E|[]]. congruence. }
        intros t' fd' [[= <- <-]|[[= <- <-]|[]]]; rewrite lookup_create.
        * split; [easy|]. now destruct (path_eq_dec t1 t).
        * split; [easy|]. now destruct (path_eq_dec t t).
      + split; [easy|]. intros t' fd' Hin'. rewrite lookup_set_data. now apply Hg.
      + split; [repeat constructor; easy|]. intros t' fd' [[= <- <-]|[]]. destruct (Hg t2 f2 (or_intror (or_introl eq_refl))) as [Hs2 Hl2]. split; [easy|].
        rewrite lookup_link, lookup_unlink. destruct (path_eq_dec t2 pp) as [E|].
        * exfalso. apply (scratch_not_scanned base t2 Hs2). rewrite E. apply (made_scanned _ _ _ _ _ Hm).
        * destruct (path_eq_dec t2 t1) as [E|]; [|easy]. exfalso. inversion Hng as [|? ? Hn _]; subst. apply Hn. now left.
      + split; [constructor|]. easy.
    - intros t' fd' t fd Hin' Hin. destruct H as [g s|s t1 Ht Hex|s t1 f1 t2 Ht Hex|g s t1 fd1 d Hin1 Hl|s t1 f1 t2 f2 pp ip pack idx Hm Hl Hd|s t2 f2 pp ip pack idx Hm Hl Hd].
      + eapply Hap; eauto.
      + destruct Hin' as [[= <- <-]|[]]. intros <-. apply Hnew in Hex. destruct (Hh _ _ Hin). congruence.
      + destruct Hin' as [[= <- <-]|[[= <- <-]|[]]]; [eapply Hap; [now left|exact Hin]|]. intros <-. apply Hnew in Hex. destruct (Hh _ _ Hin). congruence.
      + eapply Hap; eauto.
      + destruct Hin' as [[= <- <-]|[]]. eapply Hap; [right; now left|exact Hin].
      + easy.
    - exact Hw'.
  Qed.

  (** ** The pool *)
  Record proc := mk_proc { p_prog : prog path; p_job : job R; p_phase : phase }.
  Context (js : list (job R)) (s0 : world).
  Notation new_pack := (new_pack K sha1 pagesize oread fuel base js).
  Notation new_index := (new_index K sha1 pagesize oread fuel base js).
  Definition pool_ok (ps : list proc) (s : world) : Prop :=
    wf s /\ w_dirs s = w_dirs s0 /\ Forall (fun x => In (p_job x) js /\ owns (p_phase x) s /\ wpj (p_job x) (p_prog x) (p_phase x) s (post (p_job x) s0)) ps /\
    ForallOrdPairs (fun x y => apart (p_phase x) (p_phase y)) ps.
  (** How far a process has come. *)
  Definition progress (x : proc) (s : world) : Prop :=
    match p_phase x with
    | Packed _ _ => exists pp ip pack idx, made (p_job x) pp ip pack idx /\ new_pack s pp
    | Done => exists pp ip pack idx, made (p_job x) pp ip pack idx /\ new_pack s pp /\ new_index s ip
    | _ => True
    end.
  Definition files_ok (ps : list proc) (s : world) : Prop :=
    (forall p, (forall x t fd, In x ps -> In (t, fd) (owned (p_phase x)) -> p <> t) -> contents s p = contents s0 p \/ new_pack s p \/ new_index s p) /\
    (forall x t fd, In x ps -> In (t, fd) (owned (p_phase x)) -> contents s0 t = None) /\
    (forall x, In x ps -> progress x s).

  (** New packs and indexes stay. *)
  Lemma made_same j pp ip pack idx pp' ip' pack' idx' : made j pp ip pack idx -> made j pp' ip' pack' idx' -> pp = pp' /\ ip = ip' /\ pack = pack' /\ idx = idx'.
  Proof.
    intros (psha & isha & name & iname & E & (-> & ->) & -> & ->) (psha' & isha' & name' & iname' & E' & (-> & ->) & -> & ->).
    rewrite E in E'. injection E' as <- <- <- <-. easy.
  Qed.
  Lemma made_pair j pp ip pack idx j' pp' ip' pack' idx' : made j pp ip pack idx -> made j' pp' ip' pack' idx' -> ip = ip' -> pp = pp'.
  Proof.
    intros (psha & isha & name & iname & E & (-> & ->) & -> & ->) (psha' & isha' & name' & iname' & E' & (-> & ->) & -> & ->) H.
    apply app_inj_tail in H as [_ H]. apply app_inv_head in H. apply app_inv_tail in H. now rewrite H.
  Qed.
  Lemma step_new_pack j g g' s s' pp : cstep j g g' s s' -> wf s -> owns g s -> owns g' s' -> In j js -> new_pack s pp -> new_pack s' pp.
  Proof.
    intros Hs Hw Ho Ho' Hj (j1 & ip & pack & idx & Hin & Hm & Hc). pose proof (proj1 (made_scanned _ _ _ _ _ Hm)) as Hsc.
    destruct (step_contents j g g' s s' pp Hs Hw Ho (scratch_owned _ _ _ Ho Hsc) (scratch_owned _ _ _ Ho' Hsc)) as
      [E|[(t1 & f1 & t2 & f2 & ip' & pack' & idx' & _ & _ & Hm' & E)|(t2 & f2 & pp' & pack' & idx' & _ & _ & Hm' & E)]].
    - exists j1, ip, pack, idx. now rewrite E.
    - now exists j, ip', pack', idx'.
    - exfalso. now apply (made_differ _ _ _ _ _ _ _ _ _ _ Hm Hm').
  Qed.
  Lemma step_new_index j g g' s s' ip : cstep j g g' s s' -> wf s -> owns g s -> owns g' s' -> In j js ->
    (g' = Done -> exists pp ip pack idx, made j pp ip pack idx /\ new_pack s pp) -> new_index s ip -> new_index s' ip.
  Proof.
    intros Hs Hw Ho Ho' Hj Hg (j1 & pp & pack & idx & Hin & Hm & Hc & Hn). pose proof (proj2 (made_scanned _ _ _ _ _ Hm)) as Hsc.
    pose proof (step_new_pack j g g' s s' pp Hs Hw Ho Ho' Hj Hn) as Hn'.
    destruct (step_contents j g g' s s' ip Hs Hw Ho (scratch_owned _ _ _ Ho Hsc) (scratch_owned _ _ _ Ho' Hsc)) as
      [E|[(t1 & f1 & t2 & f2 & ip' & pack' & idx' & _ & _ & Hm' & E)|(t2 & f2 & pp' & pack' & idx' & _ & _ & Hm' & E)]].
    - exists j1, pp, pack, idx. now rewrite E.
    - exfalso. now apply (made_differ _ _ _ _ _ _ _ _ _ _ Hm' Hm).
    - exists j, pp', pack', idx'. rewrite <- (made_pair _ _ _ _ _ _ _ _ _ _ Hm Hm' eq_refl). rewrite <- (made_pair _ _ _ _ _ _ _ _ _ _ Hm Hm' eq_refl) in Hm'. easy.
  Qed.

  Lemma files_step (ps : list proc) x y s s' : wf s -> (forall z, In z (x :: ps) -> owns (p_phase z) s) -> (forall z, In z (y :: ps) -> owns (p_phase z) s') ->
    In (p_job x) js -> p_job y = p_job x -> cstep (p_job x) (p_phase x) (p_phase y) s s' ->
    files_ok (x :: ps) s -> files_ok (y :: ps) s'.
  Proof.
    intros Hw Hown Hown' Hj Ejob Hs (Hf & Ht & Hp). destruct x as [px j gx], y as [py j' gy]. cbn [p_phase p_prog p_job] in *. subst j'.
    assert (Hox : owns gx s) by (apply (Hown (mk_proc px j gx)); now left).
    assert (Hoy : owns gy s') by (apply (Hown' (mk_proc py j gy)); now left).
    assert (Hpx := Hp (mk_proc px j gx) (or_introl eq_refl)).
    assert (Hdone : gy = Done -> exists pp ip pack idx, made j pp ip pack idx /\ new_pack s pp).
    { intros ->. inversion Hs; subst.
      - destruct Hpx as (pp & ip & pack & idx & H1 & H2 & _). now exists pp, ip, pack, idx.
      - easy.
      - exact Hpx. }
    assert (Hnp : forall pp, new_pack s pp -> new_pack s' pp) by (intros pp; now apply (step_new_pack j gx gy)).
    assert (Hni : forall ip, new_index s ip -> new_index s' ip) by (intros ip; now apply (step_new_index j gx gy)).
    split; [|split].
    - intros p Hpy.
      destruct (in_dec path_eq_dec p (map fst (owned gx))) as [Hin|Hin].
      + (* an owned file that is no longer owned was renamed *)
        assert (contents s0 p = None) as E0.
        { apply in_map_iff in Hin as ([t fd] & <- & Hin). apply (Ht (mk_proc px j gx) t fd); [now left|exact Hin]. }
        assert (Hnot : ~ In p (map fst (owned gy))).
        { intros H. apply in_map_iff in H as ([t fd] & <- & H). now apply (Hpy (mk_proc py j gy) t fd (or_introl eq_refl) H). }
        assert (scratch base p) as Hsc.
        { apply in_map_iff in Hin as ([t fd] & <- & Hin). now apply (proj2 Hox t fd). }
        left. rewrite E0. destruct Hs as [g s|s t Ht1 Hex|s t1 f1 t Ht1 Hex|g s t fd d Hin1 Hl|s t1 f1 t2 f2 pp ip pack idx Hm Hl Hd|s t2 f2 pp ip pack idx Hm Hl Hd].
        * easy.
        * destruct Hin.
        * exfalso. apply Hnot. destruct Hin as [<-|[]]. now left.
        * easy.
        * rewrite contents_link, contents_unlink. destruct (path_eq_dec p pp) as [->|].
          { exfalso. apply (scratch_not_scanned base pp Hsc). apply (made_scanned _ _ _ _ _ Hm). }
          destruct (path_eq_dec p t1); [easy|]. exfalso. destruct Hin as [<-|[<-|[]]]; [easy|]. apply Hnot. now left.
        * rewrite contents_link, contents_unlink. destruct (path_eq_dec p ip) as [->|].
          { exfalso. apply (scratch_not_scanned base ip Hsc). apply (made_scanned _ _ _ _ _ Hm). }
          destruct (path_eq_dec p t2); [easy|]. exfalso. destruct Hin as [<-|[]]; easy.
      + assert (Hnx : forall t fd, In (t, fd) (owned gx) -> p <> t).
        { intros t fd H ->. apply Hin, in_map_iff. now exists (t, fd). }
        assert (Hny : forall t fd, In (t, fd) (owned gy) -> p <> t).
        { intros t fd H. apply (Hpy (mk_proc py j gy) t fd (or_introl eq_refl) H). }
        destruct (step_contents j gx gy s s' p Hs Hw Hox Hnx Hny) as
          [E|[(t1 & f1 & t2 & f2 & ip & pack & idx & -> & -> & Hm & E)|(t2 & f2 & pp & pack & idx & -> & -> & Hm & E)]].
        * destruct (Hf p) as [H|[H|H]]; [|left; congruence|right; left; auto|right; right; auto].
          intros z t fd [<-|Hz] H; [now apply (Hnx t fd)|]. apply (Hpy z t fd); [now right|exact H].
        * right. left. now exists j, ip, pack, idx.
        * right. right. exists j, pp, pack, idx. split; [easy|]. split; [easy|]. split; [easy|]. apply Hnp.
          destruct Hpx as (pp' & ip' & pack' & idx' & Hm' & Hn'). destruct (made_same _ _ _ _ _ _ _ _ _ Hm Hm') as (-> & _). exact Hn'.
    - intros z t fd [<-|Hz] H; [|apply (Ht z t fd); [now right|exact H]]. cbn [p_phase] in H.
      assert (Hx : forall t fd, In (t, fd) (owned gx) -> contents s0 t = None) by (intros t' fd' H'; apply (Ht (mk_proc px j gx) t' fd'); [now left|exact H']).
      assert (Hfresh : forall t, path_exists s t = false -> scratch base t -> contents s0 t = None).
      { intros t' Hex Hsc. apply orb_false_elim in Hex as [Hex _]. apply is_file_lookup in Hex. apply contents_none in Hex as Hex'.
        destruct (Hf t') as [E|[(? & ? & ? & ? & _ & _ & E)|(? & ? & ? & ? & _ & _ & E & _)]]; [|congruence|congruence|congruence].
        intros z t1 fd1 Hz H1 <-. destruct (proj2 (Hown z Hz) _ _ H1) as [_ Hl]. congruence. }
      destruct Hs as [g s|s t1 Ht1 Hex|s t1 f1 t2 Ht1 Hex|g s t1 fd1 d Hin1 Hl|s t1 f1 t2 f2 pp ip pack idx Hm Hl Hd|s t2 f2 pp ip pack idx Hm Hl Hd].
      + now apply (Hx t fd).
      + destruct H as [[= <- <-]|[]]. now apply Hfresh.
      + destruct H as [[= <- <-]|[[= <- <-]|[]]]; [apply (Hx t1 f1); now left|now apply Hfresh].
      + now apply (Hx t fd).
      + destruct H as [[= <- <-]|[]]. apply (Hx t2 f2). right. now left.
      + destruct H.
    - intros z [<-|Hz].
      + unfold progress. cbn [p_phase p_job]. unfold progress in Hpx. cbn [p_phase p_job] in Hpx.
        destruct Hs as [g s|s t1 Ht1 Hex|s t1 f1 t2 Ht1 Hex|g s t1 fd1 d Hin1 Hl|s t1 f1 t2 f2 pp ip pack idx Hm Hl Hd|s t2 f2 pp ip pack idx Hm Hl Hd]; try easy.
        * destruct g; try easy. destruct Hpx as (pp & ip & pack & idx & H1 & H2). exists pp, ip, pack, idx. auto.
        * exists pp, ip, pack, idx. split; [easy|]. exists j, ip, pack, idx. split; [easy|]. split; [easy|]. rewrite contents_link.
          destruct (path_eq_dec pp pp); [|easy]. cbn. now rewrite Hd.
        * destruct Hpx as (pp' & ip' & pack' & idx' & Hm' & Hn'). destruct (made_same _ _ _ _ _ _ _ _ _ Hm' Hm) as (-> & -> & -> & ->).
          exists pp, ip, pack, idx. split; [easy|]. split; [auto|]. exists j, pp, pack, idx. split; [easy|]. split; [easy|]. split; [|auto]. rewrite contents_link.
          destruct (path_eq_dec ip ip); [|easy]. cbn. now rewrite Hd.
      + specialize (Hp z (or_intror Hz)). unfold progress in *. destruct (p_phase z); try easy.
        * destruct Hp as (pp & ip & pack & idx & H1 & H2). exists pp, ip, pack, idx. auto.
        * destruct Hp as (pp & ip & pack & idx & H1 & H2 & H3). exists pp, ip, pack, idx. auto.
  Qed.

  Lemma wp_others j A (p : prog A) g s s' (Q : res A -> phase -> world -> Prop) :
    (forall r g s s', Q r g s -> others g s s' -> Q r g s') -> others g s s' -> wpj j p g s Q -> wpj j p g s' Q.
  Proof.
    intros HQ Ho Hwp. destruct p as [r|B c k].
    - cbn in *. eapply HQ; eauto.
    - cbn [OsProofs.wp] in *. intros s1 a s2 Hr Hs. apply (Hwp s1 a s2); [|easy]. eapply others_trans; eauto.
  Qed.
  Lemma pool_step ps1 x ps2 s p' s' : pool_ok (ps1 ++ x :: ps2) s -> files_ok (ps1 ++ x :: ps2) s -> step O (p_prog x) s p' s' ->
    exists y, p_prog y = p' /\ p_job y = p_job x /\ pool_ok (ps1 ++ y :: ps2) s' /\ files_ok (ps1 ++ y :: ps2) s'.
  Proof.
    intros (Hw & Hdirs & Hall & Hap) Hfiles Hstep.
    assert (Hx := Hall). apply Forall_app in Hx as [Hall1 Hx]. pose proof (Forall_inv Hx) as (Hjx & Hox & Hwp). apply Forall_inv_tail in Hx. rename Hx into Hall2.
    apply pairs_mid in Hap as [Hap Hapx]; [|intros a b; apply apart_sym].
    destruct x as [px j gx]. cbn [p_prog p_job p_phase] in *. destruct px as [r|B c k]; [easy|]. destruct Hstep as (a & Hs & ->).
    destruct (Hwp s a s' (others_refl true gx s) Hs) as (g' & HG & Hk). exists (mk_proc (k a) j g'). cbn [p_prog p_job p_phase]. split; [easy|]. split; [easy|].
    assert (Hothers : forall h, owns h s -> apart gx h -> others h s s' /\ owns h s' /\ owns g' s' /\ apart g' h /\ wf s').
    { intros h H1 H2. exact (guar_others j gx g' s s' h Hw Hox H1 H2 HG). }
    destruct (Hothers Start) as (_ & _ & Hog & _ & Hw'); [split; [constructor|easy]|easy|].
    assert (Hrest : Forall (fun z => In (p_job z) js /\ owns (p_phase z) s' /\ wpj (p_job z) (p_prog z) (p_phase z) s' (post (p_job z) s0)) (ps1 ++ ps2) /\
                    Forall (fun z => apart g' (p_phase z)) (ps1 ++ ps2)).
    { assert (Hall' : Forall (fun z => In (p_job z) js /\ owns (p_phase z) s /\ wpj (p_job z) (p_prog z) (p_phase z) s (post (p_job z) s0)) (ps1 ++ ps2)) by (apply Forall_app; now split).
      split; apply Forall_forall; intros z Hz; rewrite Forall_forall in Hall', Hapx; destruct (Hall' z Hz) as (Hj1 & Ho1 & Hw1);
        destruct (Hothers (p_phase z) Ho1 (Hapx z Hz)) as (H1 & H2 & _ & H4 & _); [|exact H4].
      split; [exact Hj1|]. split; [exact H2|]. eapply wp_others; [|exact H1|exact Hw1]. easy. }
    destruct Hrest as [Hr1 Hr2]. split.
    - split; [exact Hw'|]. split; [rewrite <- Hdirs; apply (cstep_dirs _ _ _ _ _ _ _ _ _ _ _ HG)|]. split.
      + apply Forall_app in Hr1 as [Ha Hb]. apply Forall_app. split; [exact Ha|]. constructor; [cbn [p_prog p_job p_phase]; now split|exact Hb].
      + apply pairs_mid; [intros u v; apply apart_sym|]. now split.
    - assert (Hperm : forall z w, In w (ps1 ++ z :: ps2) <-> In w (z :: ps1 ++ ps2)).
      { intros z w. rewrite in_app_iff. cbn [In]. rewrite in_app_iff. tauto. }
      assert (Hcong : forall z s, files_ok (ps1 ++ z :: ps2) s <-> files_ok (z :: ps1 ++ ps2) s).
      { intros z s1. unfold files_ok. split; intros (H1 & H2 & H3); (split; [intros p Hp; apply H1; intros w t fd Hin; apply Hp; now apply Hperm|split; [intros w t fd Hin; apply H2; now apply Hperm|intros w Hin; apply H3; now apply Hperm]]). }
      apply Hcong. eapply files_step with (x := mk_proc (Call c k) j gx) (s := s); cbn [p_phase p_job]; [exact Hw| | |exact Hjx|reflexivity|exact HG|now apply Hcong].
      + intros z Hz. apply Hperm in Hz. rewrite Forall_forall in Hall. now apply Hall.
      + intros z [<-|Hz]; [exact Hog|]. rewrite Forall_forall in Hr1. now apply Hr1.
  Qed.
  Lemma pool_run l s l' s' : interleaved O l s l' s' -> forall ps, map p_prog ps = l -> pool_ok ps s -> files_ok ps s ->
    exists ps', map p_prog ps' = l' /\ map p_job ps' = map p_job ps /\ pool_ok ps' s' /\ files_ok ps' s'.
  Proof.
    induction 1 as [l s|l1 p l2 s p' s1 l2' s2 Hst _ IH]; intros ps Hl Hp Hf; [now exists ps|].
    apply map_eq_app in Hl as (ps1 & ps2 & -> & <- & Hl). destruct ps2 as [|x ps2]; [discriminate|]. injection Hl as <- <-.
    destruct (pool_step ps1 x ps2 s p' s1 Hp Hf Hst) as (y & <- & Hin & Hp' & Hf').
    destruct (IH (ps1 ++ y :: ps2)) as (ps' & H1 & H2 & H3 & H4); [now rewrite map_app|easy|easy|].
    exists ps'. split; [easy|]. split; [|easy]. rewrite H2, !map_app. cbn [map]. now rewrite Hin.
  Qed.

  Definition start_of (j : job R) : prog path := create_pack K sha1 pagesize oread fuel base (j_level j) (j_objs j) (j_count j).
  Notation ended := (outcome K sha1 pagesize oread fuel O base js s0).
  Lemma creators l s : wf s0 -> interleaved O (map start_of js) s0 l s ->
    (forall p, contents s p = contents s0 p \/ (scratch base p /\ contents s0 p = None) \/ new_pack s p \/ new_index s p) /\
    Forall2 (fun j q => ended j s q) js l /\
    (Forall returned l -> forall p, contents s p = contents s0 p \/ new_pack s p \/ new_index s p).
  Proof.
    intros Hw H. set (ps := map (fun j => mk_proc (start_of j) j Start) js).
    destruct (pool_run _ _ _ _ H ps) as (ps' & <- & Ejobs & (Hw' & Hd & Hall & Hap) & (Hf & Ht & Hp)).
    { unfold ps. rewrite map_map. reflexivity. }
    { split; [exact Hw|]. split; [easy|]. split.
      - unfold ps. apply Forall_forall. intros x Hx. apply in_map_iff in Hx as (j & <- & Hj). cbn [p_job p_phase p_prog]. split; [exact Hj|].
        split; [split; [constructor|easy]|]. apply wp_create; [exact Hshort|exact Hw|easy].
      - unfold ps. generalize js. intros l'. induction l' as [|j l' IH]; cbn [map]; constructor; [|exact IH]. apply Forall_forall. intros x _. easy. }
    { split; [now left|]. split; unfold ps.
      - intros x t fd Hx. apply in_map_iff in Hx as (j & <- & Hj). easy.
      - intros x Hx. apply in_map_iff in Hx as (j & <- & Hj). easy. }
    split; [|split].
    - intros p. destruct (in_dec path_eq_dec p (flat_map (fun x => map fst (owned (p_phase x))) ps')) as [Hin|Hin].
      + right. left. apply in_flat_map in Hin as (x & Hx & Hin). apply in_map_iff in Hin as ([t fd] & <- & Hin). cbn [fst].
        rewrite Forall_forall in Hall. destruct (Hall x Hx) as (_ & [_ Ho] & _). split; [now apply (Ho t fd)|now apply (Ht x t fd)].
      + destruct (Hf p) as [E|E]; [|now left|now right; right]. intros x t fd Hx H1 ->. apply Hin, in_flat_map. exists x. split; [easy|]. apply in_map_iff. now exists (t, fd).
    - assert (E : js = map p_job ps') by (rewrite Ejobs; unfold ps; rewrite map_map; cbn; now rewrite map_id).
      assert (Hg : forall x, In x ps' -> ended (p_job x) s (p_prog x)).
      { intros x Hx. rewrite Forall_forall in Hall. destruct (Hall x Hx) as (_ & _ & Hwp). specialize (Hp x Hx). unfold progress in Hp.
        destruct (p_prog x) as [[pp|e|]|B c k]; cbn [wp create_post outcome] in *; [| | |easy].
        - destruct Hwp as (Eg & ip & pack & idx & Hm). rewrite Eg in Hp. destruct Hp as (pp' & ip' & pack' & idx' & Hm' & H1 & H2).
          destruct (made_same _ _ _ _ _ _ _ _ _ Hm Hm') as (-> & -> & -> & ->). exists ip', pack', idx'. easy.
        - intros Hr. apply (proj2 Hwp eq_refl Hr).
        - exact Hwp. }
      rewrite E at 1. clear -Hg. induction ps' as [|x l IH]; cbn [map]; constructor; [apply Hg; now left|]. apply IH. intros y Hy. apply Hg. now right.
    - intros Hend p. apply Hf. intros x t fd Hx H1. rewrite Forall_forall in Hall, Hend. destruct (Hall x Hx) as (_ & _ & Hwp).
      destruct (Hend (p_prog x) (in_map p_prog _ _ Hx)) as (pp & E). rewrite E in Hwp. cbn [wp create_post] in Hwp. destruct Hwp as [Eg _].
      rewrite Eg in H1. easy.
  Qed.
End Conc.

(** One process alone. *)
Lemma steps_interleaved O A (p : prog A) s p' s' : steps O p s p' s' -> interleaved O [p] s [p'] s'.
Proof.
  induction 1 as [|p s p1 s1 p2 s2 H1 _ IH]; [constructor|]. apply (il_step O [] p [] s p1 s1); [exact H1|exact IH].
Qed.
