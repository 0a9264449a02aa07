(** The file of a new object is a new file, and what it was given may be lost (C102). *)
From Coq Require Import ZifyBool ZifyNat.
From Verif Require Import Py PyFacts ZlibModel OsModel OsProofs IndexSpec LooseModel LooseSpec LooseProofs LooseTop LooseLive LooseMain LockModel LockSpec LockProofs LockTop StoreShort DurableSpec.

Section Young.
  Context (P : path -> bytes -> Prop) (root : path) (strict : bool) (s0 : world) (Hw0 : wf s0).
  (** Compared with s0: other files are new ones, old ones keep their data. *)
  Definition young (g : ghost) (s : world) : Prop :=
    wf s /\ (w_next s0 <= w_next s)%nat /\
    (forall p i, lookup s p = Some i -> lookup s0 p = Some i \/ (w_next s0 <= i)%nat) /\
    (forall t fd, g_own g = Some (t, fd) -> (w_next s0 <= fd)%nat /\ lookup s t = Some fd) /\
    (forall i, (i < w_next s0)%nat -> w_data s i = w_data s0 i) /\
    (forall p i, lookup s0 p = Some i -> lookup s p = Some i).
  Lemma young_step g e g' s s' : loose_guar P root true strict g e g' s s' -> young g s -> young g' s'.
  Proof using Hw0.
    intros (Hs & _) (Hw & Hn & Hl & Ho & Hd & Hk). unfold young.
    assert (Hnew : forall t fd, g_own g = Some (t, fd) -> lookup s0 t = None).
    { intros t fd E. destruct (Ho t fd E) as [H1 H2]. destruct (lookup s0 t) as [i|] eqn:E0; [|easy].
      pose proof (wf_next s0 Hw0 _ _ E0). apply Hk in E0. rewrite E0 in H2. injection H2 as ->. lia. }
    destruct g as [og sg qg], g' as [og' sg' qg']. cbn [g_own] in *.
    destruct Hs as [g s|s t Ht Hex|t fd s x Hlk|g s p|t fd s Hlk|t fd s sha Hlk HP Hfree].
    - easy.
    - assert (Ht0 : lookup s t = None).
      { unfold path_exists in Hex. apply orb_false_iff in Hex as [Hex _]. unfold is_file in Hex. now destruct (lookup s t). }
      split; [now apply wf_create|]. split; [cbn; lia|]. split; [|split; [|split]].
      + intros p i H. rewrite lookup_create in H. destruct (path_eq_dec p t); [injection H as <-; now right|now apply Hl].
      + intros t' fd' [= <- <-]. split; [easy|]. rewrite lookup_create. now destruct (path_eq_dec t t).
      + intros i Hi. rewrite data_create. replace (Nat.eqb i (w_next s)) with false by lia. now apply Hd.
      + intros p i H. rewrite lookup_create. apply Hk in H. destruct (path_eq_dec p t); [congruence|easy].
    - destruct (Ho t fd eq_refl) as [Hfd _]. split; [now apply wf_set_data|]. split; [easy|]. split; [easy|]. split; [easy|]. split; [|easy].
      intros i Hi. rewrite data_set_data. replace (Nat.eqb i fd) with false by lia. now apply Hd.
    - split; [now apply wf_add_dirs|]. easy.
    - split; [now apply wf_unlink|]. split; [easy|]. split; [|split; [easy|split; [easy|]]].
      + intros p i. rewrite lookup_unlink. destruct (path_eq_dec p t); [easy|]. apply Hl.
      + intros p i H. rewrite lookup_unlink. destruct (path_eq_dec p t) as [->|]; [|now apply Hk]. rewrite (Hnew t fd eq_refl) in H. discriminate.
    - destruct (Ho t fd eq_refl) as [Hfd _]. specialize (Hfree eq_refl). split; [|split; [easy|split; [|split; [easy|split; [easy|]]]]].
      + apply wf_link; [now apply wf_unlink|exact (wf_next s Hw _ _ Hlk)|]. intros p. rewrite lookup_unlink.
        destruct (path_eq_dec p t); [easy|]. intros E. exfalso. apply n. eapply wf_inj; eauto.
      + intros p i H. rewrite lookup_link, lookup_unlink in H. destruct (path_eq_dec p (object_file root sha)); [injection H as <-; now right|].
        destruct (path_eq_dec p t); [easy|]. now apply Hl.
      + intros p i H. rewrite lookup_link, lookup_unlink. pose proof (Hk p i H). destruct (path_eq_dec p (object_file root sha)) as [->|]; [congruence|].
        destruct (path_eq_dec p t) as [->|]; [|easy]. rewrite (Hnew t fd eq_refl) in H. discriminate.
  Qed.
  Lemma young_start : wf s0 -> young (mk_ghost None false false) s0.
  Proof. intros Hw. split; [easy|]. split; [easy|]. split; [now left|]. split; [easy|]. now split. Qed.
End Young.

Lemma loss_contents s0 s s' p : power_loss s0 s s' -> lookup s' p = lookup s p.
Proof. intros (H & _). unfold lookup. now rewrite H. Qed.
Lemma loss_file s0 s s' p : power_loss s0 s s' -> is_file s' p = is_file s p.
Proof. intros H. unfold is_file. now rewrite (loss_contents _ _ _ _ H). Qed.
Lemma loss_wf s0 s s' : power_loss s0 s s' -> wf s -> wf s'.
Proof.
  intros (H1 & H2 & H3 & _) [A B C]. assert (E : forall p, lookup s' p = lookup s p) by (intros p; unfold lookup; now rewrite H1).
  split; [now rewrite H1|intros p i; rewrite E, H3; apply B|intros p q i; rewrite !E; apply C].
Qed.

Section Stored.
  Context (K : zlib) (sha1 : bytes -> bytes) (pagesize : Z) {R : Type} (rd : R -> Z -> res (bytes * R)) (O : os) (fuel : nat).
  Context (Hsha : forall d, sha_ok (sha1 d)).
  Notation store := (LooseModel.store K sha1 pagesize rd fuel).
  Lemma store_young db i s p' s' : (forall sha, is_binsha i = Some sha -> is_bytes sha) -> wf s -> steps O (store db None i) s p' s' ->
    exists g, young s g s'.
  Proof.
    intros Hb Hw Hst.
    destruct (wp_steps O alone _ (fun g s => eq_refl) _ s p' s' _ Hst _ (store_wp K sha1 pagesize rd (fun d => proj2 (Hsha d)) O fuel db i Hb s) (young s)) as (g & _ & H2).
    - intros g e g' a b. now apply young_step.
    - now apply young_start.
    - now exists g.
  Qed.
  (** The file of a new object may be empty after a power failure. *)
  Lemma store_lost db i s i' out s' sha : (forall sha, is_binsha i = Some sha -> is_bytes sha) -> wf s -> contents s (object_file (l_root db) sha) = None ->
    runs O (store db None i) s (Ok (i', out)) s' -> is_binsha i' = Some sha ->
    exists s2, power_loss s s' s2 /\ wf s2 /\ contents s2 (object_file (l_root db) sha) = Some [].
  Proof.
    intros Hb Hw Hnone Hrun Hsha'. destruct (store_young db i s _ s' Hb Hw Hrun) as (g & Hw' & Hn & Hl & _ & Hd & _).
    destruct (store_ok K sha1 pagesize rd (fun d => proj2 (Hsha d)) O fuel db i Hb s i' out s' Hw Hrun) as (_ & sha2 & z & E & _ & _ & _ & _ & _ & Hc).
    rewrite Hsha' in E. injection E as <-. destruct (lookup s' (object_file (l_root db) sha)) as [k|] eqn:El; [|unfold contents in Hc; rewrite El in Hc; easy].
    assert (Hk : (w_next s <= k)%nat). { destruct (Hl _ _ El) as [E|E]; [|easy]. unfold contents in Hnone. rewrite E in Hnone. discriminate. }
    exists (set_data s' k []). assert (Hloss : power_loss s s' (set_data s' k [])).
    { split; [easy|]. split; [easy|]. split; [easy|]. intros j. rewrite data_set_data. destruct (Nat.eqb_spec j k) as [->|Hj].
      - split; [now exists (w_data s' k)|lia].
      - split; [exists []; now rewrite app_nil_r|easy]. }
    split; [easy|]. split; [eapply loss_wf; eauto|]. unfold contents. rewrite lookup_set_data, El. cbn [option_map]. rewrite data_set_data, Nat.eqb_refl. reflexivity.
  Qed.
  (** Whatever happens, the other files are unharmed, and the object file has a first part of
      what it should have. *)
  Lemma store_left db i s s' s2 : (forall sha, is_binsha i = Some sha -> is_bytes sha) -> wf s -> stops O (store db None i) s s' -> power_loss s s' s2 ->
    exists tmp, (forall t, tmp = Some t -> temp_file (l_root db) t /\ contents s t = None) /\
    forall p, tmp <> Some p -> contents s2 p = contents s p \/
      (contents s p = None /\ exists z z', contents s' p = Some z /\ contents s2 p = Some z' /\ prefix z' z /\ stored_as K sha1 pagesize rd O (l_root db) i p z).
  Proof.
    intros Hb Hw Hst Hloss. destruct (store_stops K sha1 pagesize rd (fun d => proj2 (Hsha d)) O fuel db i Hb s s' Hw Hst) as (Hw' & _ & tmp & Ht & Hc).
    destruct Hst as (p' & Hst). destruct (store_young db i s p' s' Hb Hw Hst) as (g & _ & Hn & Hl & _ & Hd & Hk).
    exists tmp. split; [easy|]. intros p Hp. destruct (Hc p Hp) as [Hq|(Hq & z & Hz & HP)].
    - left. rewrite <- Hq. unfold contents in *. rewrite (loss_contents _ _ _ _ Hloss). destruct (lookup s' p) as [k|] eqn:El; [|easy]. cbn [option_map] in *.
      f_equal. destruct Hloss as (_ & _ & _ & Hloss). destruct (lookup s p) as [k0|] eqn:E0; [|easy].
      pose proof (Hk p k0 E0) as E. rewrite El in E. injection E as ->. apply Hloss; [exact (wf_next s Hw _ _ E0)|]. apply Hd. exact (wf_next s Hw _ _ E0).
    - right. split; [easy|]. unfold contents in Hz |- *. rewrite (loss_contents _ _ _ _ Hloss). destruct (lookup s' p) as [k|] eqn:El; [|easy].
      cbn [option_map] in *. injection Hz as <-. exists (w_data s' k), (w_data s2 k). split; [easy|]. split; [easy|]. split; [apply Hloss|easy].
  Qed.
End Stored.

(** ** LockedFD *)
Section Locked.
  Context (O : os) (file : path) (s0 : world) (Hw0 : wf s0).
  Notation lock := (lockfilepath file).
  Definition aged (s : world) : Prop :=
    (w_next s0 <= w_next s)%nat /\
    (forall i, lookup s lock = Some i -> (w_next s0 <= i)%nat) /\
    (forall i, lookup s file = Some i -> lookup s0 file = Some i \/ (w_next s0 <= i)%nat) /\
    (forall i, (i < w_next s0)%nat -> w_data s i = w_data s0 i).
  Lemma aged_step com rel g g' s s' : lstep O file com rel g g' s s' -> aged s -> aged s'.
  Proof.
    intros Hs (Hn & Hl & Hf & Hd). pose proof (lock_not_file file) as Hne. unfold aged. destruct Hs as [g s|s Hno|fd s x Hlk|fd s w _ _ Hlk _|fd s _ Hlk|fd s w _ _ Hlk _].
    - easy.
    - split; [cbn; lia|]. split; [|split].
      + intros i. rewrite lookup_create. destruct (path_eq_dec lock lock); [|easy]. now intros [= <-].
      + intros i. rewrite lookup_create. destruct (path_eq_dec file lock) as [E|]; [now symmetry in E|]. apply Hf.
      + intros i Hi. rewrite data_create. replace (Nat.eqb i (w_next s)) with false by lia. now apply Hd.
    - specialize (Hl fd Hlk) as Hfd. split; [easy|]. split; [easy|]. split; [easy|]. intros i Hi. rewrite data_set_data. replace (Nat.eqb i fd) with false by lia. now apply Hd.
    - split; [easy|]. split; [|split; [|easy]]; intros i; rewrite lookup_unlink; [destruct (path_eq_dec lock file); [easy|]; apply Hl|]. destruct (path_eq_dec file file); easy.
    - split; [easy|]. split; [|split; [|easy]]; intros i; rewrite lookup_unlink; [destruct (path_eq_dec lock lock); easy|].
      destruct (path_eq_dec file lock); [easy|]. apply Hf.
    - split; [easy|]. split; [|split; [|easy]]; intros i; rewrite lookup_link, lookup_unlink.
      + destruct (path_eq_dec lock file); [easy|]. now destruct (path_eq_dec lock lock).
      + destruct (path_eq_dec file file); [|easy]. intros [= <-]. right. now apply Hl.
  Qed.
  Lemma aged_ustep u g s u' s' : uinv O file u g s -> ustep O u s u' s' -> aged s -> aged s'.
  Proof.
    intros [Ho Hu] Hs Ha. destruct Hs as [l w op s|l w op p s p' s' Hs|l w op l' w' r s]; cbn [u_run u_lock u_written] in *; [easy| |easy].
    destruct Hu as [Hwp Hg]. destruct p as [r|B c k]; [easy|]. destruct Hs as (a & Hs & ->).
    destruct (Hwp s a s' (lrely_refl file g s) Hs) as (g' & HG & Hk). exact (aged_step _ _ _ _ _ _ HG Ha).
  Qed.
  Lemma aged_usteps us s us' s' : usteps O us s us' s' -> forall ps, map fst ps = us -> pool_ok O file ps s -> aged s -> aged s'.
  Proof.
    induction 1 as [us s|us1 u us2 s u' s1 us' s2 Hs _ IH]; intros ps Hps Hok Ha; [easy|].
    apply map_eq_app in Hps as (ps1 & ps2 & -> & <- & Hps). destruct ps2 as [|[u0 g] ps2]; [discriminate|]. injection Hps as E <-. cbn in E. subst u0.
    destruct (pool_step O file ps1 u g ps2 s u' s1 Hok Hs) as (g' & Hok' & _). apply (IH (ps1 ++ (u', g') :: ps2)); [now rewrite map_app|easy|].
    destruct Hok as (_ & Hall & _). apply Forall_app in Hall as [_ Hall]. apply Forall_inv in Hall. exact (aged_ustep u g s u' s1 Hall Hs Ha).
  Qed.
  Lemma aged_start : contents s0 lock = None -> aged s0.
  Proof.
    intros E. split; [easy|]. split; [|split; [now left|easy]]. intros i Hi. unfold contents in E. rewrite Hi in E. discriminate.
  Qed.
  Lemma commit_lost us us1 us2 l w s l' s' : windows O = false -> contents s0 lock = None -> contents s0 file <> Some w ->
    Forall (newcomer file) us -> usteps O us s0 (us1 ++ mk_user l w None :: us2) s -> lf_fd l <> None -> lf_write l = Some true ->
    runs O (lf_commit (windows O) l) s (Ok (l', Ok tt)) s' ->
    contents s' file = Some w /\ exists s2, power_loss s0 s' s2 /\ contents s2 file = Some [].
  Proof.
    intros Hwin Hlock Hw Hn Hu Hf Hwr Hrun.
    destruct (end_result O file us s0 Hw0 Hn us1 us2 l w s true l' (Ok tt) s' Hu Hwin Hf Hrun) as (_ & _ & H3 & _).
    destruct (H3 eq_refl) as (_ & H6 & _). rewrite Hwr in H6. specialize (H6 eq_refl). split; [easy|].
    assert (Hu' : usteps O us s0 (us1 ++ mk_user l' w None :: us2) s').
    { eapply usteps_trans; [exact Hu|]. eapply (whole_call O us1 us2 l w UCommit); [|apply uss_refl]. cbn [u_do]. unfold pbind. eapply run_then; [exact Hrun|apply steps_refl]. }
    destruct (aged_usteps us s0 _ s' Hu' (map (fun u => (u, None)) us)) as (_ & _ & Hf' & Hd).
    { rewrite map_map. apply map_id. } { now apply pool_start. } { now apply aged_start. }
    unfold contents in H6. destruct (lookup s' file) as [k|] eqn:El; [|easy]. cbn [option_map] in H6. injection H6 as H6.
    assert (Hk : (w_next s0 <= k)%nat).
    { destruct (Hf' k eq_refl) as [E|E]; [|easy]. exfalso. apply Hw. unfold contents. rewrite E. cbn [option_map]. f_equal. rewrite <- H6. symmetry. apply Hd. exact (wf_next s0 Hw0 _ _ E). }
    exists (set_data s' k []). split.
    - split; [easy|]. split; [easy|]. split; [easy|]. intros j. rewrite data_set_data. destruct (Nat.eqb_spec j k) as [->|Hj].
      + split; [now exists (w_data s' k)|lia].
      + split; [exists []; now rewrite app_nil_r|easy].
    - unfold contents. rewrite lookup_set_data, El. cbn [option_map]. now rewrite data_set_data, Nat.eqb_refl.
  Qed.
End Locked.
