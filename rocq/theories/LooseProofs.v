(** Proofs about LooseObjectDB.store. *)
From Coq Require Import ZifyBool ZifyNat.
From Verif Require Import Py PyFacts FunModel FunSpec FunProofs ZlibModel ReaderModel StreamSpec PackSpec OsModel OsProofs LooseModel LooseSpec.
Ltac Zify.zify_post_hook ::= Z.div_mod_to_equations.

Lemma beq_true a : forall b, beq a b = true <-> a = b.
Proof.
  induction a as [|x a IH]; intros [|y b]; cbn [beq]; split; try easy.
  - intros H. apply andb_prop in H as [H1 H2]. apply Z.eqb_eq in H1 as ->. apply IH in H2 as ->. easy.
  - intros [= -> ->]. rewrite Z.eqb_refl. now apply IH.
Qed.
Lemma object_path_file root sha : db_path root (object_path (bin_to_hex sha)) = object_file root sha.
Proof.
  unfold db_path, object_path, object_file. f_equal. f_equal; [|f_equal].
  - unfold slice_to, norm_idx. replace (2 <? 0) with false by easy.
    destruct (Z.le_gt_cases 2 (len (bin_to_hex sha))).
    + now rewrite Z.min_l by easy.
    + rewrite Z.min_r by lia. rewrite !firstn_all2; [easy| |]; unfold len in *; lia.
  - unfold slice_from, norm_idx. replace (2 <? 0) with false by easy.
    destruct (Z.le_gt_cases 2 (len (bin_to_hex sha))).
    + now rewrite Z.min_l by easy.
    + rewrite Z.min_r by lia. rewrite !skipn_all2; [easy| |]; unfold len in *; lia.
Qed.

(** Feeding chunks to a compressor. *)
Fixpoint zc_feed (K : zlib) (c : zc K) (chunks : list bytes) : bytes * zc K :=
  match chunks with
  | [] => ([], c)
  | d :: l => let (o, c) := zc_compress K c d in let (o', c) := zc_feed K c l in (o ++ o', c)
  end.
Lemma zc_all_feed K chunks : forall c, zc_all K c chunks = fst (zc_feed K c chunks) ++ zc_flush K (snd (zc_feed K c chunks)).
Proof.
  induction chunks as [|d l IH]; intros c; cbn [zc_all zc_feed]; [easy|].
  destruct (zc_compress K c d) as [o c']. rewrite IH. destruct (zc_feed K c' l). cbn [fst snd]. now rewrite app_assoc.
Qed.

(** ** Writing into the own temporary file *)
(** What the process knows: its temporary file, whether a write was short, and
    whether it has renamed a file. *)
Record ghost := mk_ghost { g_own : option (path * ino); g_short : bool; g_pub : bool }.
Definition ev_short (e : event) : bool := match e with Ev c a => is_short c a end.
(** A file was renamed. *)
Definition renames {B} (c : call B) : B -> bool :=
  match c in call B return B -> bool with
  | Rename _ _ => fun a => match a with Ok _ => true | _ => false end
  | _ => fun _ => false
  end.
Definition ev_pub (e : event) : bool := match e with Ev c a => renames c a end.

Section Feed.
  Context (K : zlib) (pagesize : Z) {R : Type} (read : R -> Z -> res (bytes * R)).
  Context (O : os) (Rely : ghost -> world -> world -> Prop) (Guar : ghost -> event -> ghost -> world -> world -> Prop).
  Context (t : path) (fd : ino).
  Definition mine (d : bytes) (s : world) : Prop := lookup s t = Some fd /\ w_data s fd = d.
  Notation own b := (mk_ghost (Some (t, fd)) b false).
  Context (rely_mine : forall b d s s1, mine d s -> Rely (own b) s s1 -> mine d s1).
  Context (guar_data : forall b e s x, ev_pub e = false -> mine (w_data s fd) s ->
    Guar (own b) e (own (b || ev_short e)) s (set_data s fd (w_data s fd ++ x))).
  Context (guar_same : forall b e s, ev_short e = false -> ev_pub e = false -> Guar (own b) e (own b) s s).
  Notation wp := (wp O Rely Guar).

  Lemma mine_set d s x : mine d s -> mine x (set_data s fd x).
  Proof. intros [H1 H2]. split; [exact H1|]. rewrite data_set_data. now rewrite Nat.eqb_refl. Qed.

  (** One write to the file. *)
  Lemma wp_write b d0 s d (Q : res Z -> ghost -> world -> Prop) : mine d0 s ->
    (forall s', mine (d0 ++ d) s' -> Q (Ok (len d)) (own b) s') ->
    (forall s' k x, 0 <= k < len d -> may_fail O KShort = true -> mine x s' -> Q (Ok k) (own true) s') ->
    (forall s' x, mine x s' -> Q (Raise OSError) (own b) s') ->
    wp (sysr (Write fd d)) (own b) s Q.
  Proof.
    intros Hm H1 H2 H3. apply wp_sysr. intros s1 a s2 Hr Hs. pose proof (rely_mine _ _ _ _ Hm Hr) as Hm1.
    cbn [sys] in Hs. destruct Hs as [Hs|[(Hf & k & Hk & Hs)|Hs]].
    - destruct Hs as (_ & -> & ->). exists (own b). split; [now apply guar_same|]. eapply H3; eauto.
    - destruct Hs as [-> ->]. exists (own true). split.
      + replace true with (b || ev_short (Ev (Write fd d) (Ok k))); [apply guar_data; [easy|now destruct Hm1 as [? <-]]|].
        cbn [ev_short is_short]. replace (k <? len d) with true by lia. apply orb_true_r.
      + destruct Hm1 as [Ha Hb]. rewrite Hb. eapply H2; eauto. eapply mine_set; split; eauto.
    - destruct Hs as [-> ->]. exists (own b). split.
      + replace b with (b || ev_short (Ev (Write fd d) (Ok (len d)))) at 2; [apply guar_data; [easy|now destruct Hm1 as [? <-]]|].
        cbn [ev_short is_short]. rewrite Z.ltb_irrefl. apply orb_false_r.
      + apply H1. destruct Hm1 as [Ha Hb]. rewrite Hb. eapply mine_set; split; eauto.
  Qed.

  (** The outcome of a copy into a file through a compressor. *)
  Definition fdc_post {A} (zip : zc K) (seen d0 : bytes) (ok : list bytes -> R -> Prop) (r : res (res A * R * writer K)) (g : ghost) (s : world) : Prop :=
    match r with
    | Ok (Ok _, r', w') => exists chunks, ok chunks r' /\ w' = WFDC fd (seen ++ concat chunks) (snd (zc_feed K zip chunks)) /\
        mine (d0 ++ fst (zc_feed K zip chunks)) s /\ g = own false
    | Ok (Raise _, _, w') => exists seen zip d b, w' = WFDC fd seen zip /\ mine d s /\ g = own b
    | Ok (Diverge, _, _) => False
    | Raise _ => False
    | Diverge => g = own false
    end.
  Lemma wp_w_write_fdc d0 s seen zip d (Q : res (res (option Z) * writer K) -> ghost -> world -> Prop) : mine d0 s ->
    (forall s', mine (d0 ++ fst (zc_compress K zip d)) s' ->
       Q (Ok (Ok (Some (len d)), WFDC fd (seen ++ d) (snd (zc_compress K zip d)))) (own false) s') ->
    (forall s' e seen' zip' x b, mine x s' -> Q (Ok (Raise e, WFDC fd seen' zip')) (own b) s') ->
    wp (w_write K (WFDC fd seen zip) d) (own false) s Q.
  Proof.
    intros Hm H1 H2. cbn [w_write]. destruct (zc_compress K zip d) as [o zip'] eqn:E. cbn [fst snd] in *.
    apply wp_after. eapply wp_write; [exact Hm| | |].
    - intros s' Hm'. cbn [OsProofs.wp]. rewrite Z.eqb_refl. now apply H1.
    - intros s' k x Hk _ Hm'. cbn [OsProofs.wp]. replace (k =? len o) with false by lia. eapply H2; eauto.
    - intros s' x Hm'. cbn [OsProofs.wp]. eapply H2; eauto.
  Qed.
  Lemma copy_fdc size chunk : forall fuel r seen zip d0 dbw s, mine d0 s ->
    wp (copy_loop K read fuel r (WFDC fd seen zip) size chunk dbw) (own false) s
      (fdc_post zip seen d0 (fun chunks r' => delivered read size chunk dbw r chunks r')).
  Proof.
    induction fuel as [|f IH]; intros r seen zip d0 dbw s Hm; [reflexivity|]. cbn [copy_loop].
    destruct (read r (Z.min chunk (size - dbw))) as [[data r1]|e|] eqn:Er; [| |reflexivity].
    2: { cbn. exists seen, zip, d0, false. easy. }
    apply wp_bind. apply wp_w_write_fdc with (d0 := d0); [exact Hm| |].
    - intros s' Hm'. destruct ((len data <? Z.min chunk (size - dbw)) || (dbw + len data =? size)) eqn:Ec.
      + cbn. exists [data]. split; [|split; [|split]].
        * econstructor; [exact Er|lia].
        * cbn [concat zc_feed]. rewrite app_nil_r. now destruct (zc_compress K zip data).
        * cbn [zc_feed]. destruct (zc_compress K zip data). cbn [fst] in *. now rewrite app_nil_r.
        * easy.
      + eapply wp_mono; [|apply (IH r1 (seen ++ data) (snd (zc_compress K zip data)) _ (dbw + len data) s' Hm')].
        intros [[[[n|e|] r2] w]|e|] g s2 H; cbn [fdc_post] in *; try easy.
        destruct H as (chunks & Hd & Hw & Hm2 & Hg). exists (data :: chunks). split; [|split; [|split]].
        * eapply dl_more; [exact Er|lia|lia|exact Hd].
        * rewrite Hw. cbn [concat zc_feed]. rewrite app_assoc. destruct (zc_compress K zip data) as [o c]. cbn [snd].
          now destruct (zc_feed K c chunks).
        * cbn [zc_feed]. destruct (zc_compress K zip data) as [o c]. cbn [fst snd] in *. destruct (zc_feed K c chunks). cbn [fst] in *.
          now rewrite app_assoc.
        * easy.
    - intros s' e seen' zip' x b Hm'. cbn. now exists seen', zip', x, b.
  Qed.

  (** A copy into a plain file: the bytes, if no write was short. *)
  Definition fd_post {A} (d0 : bytes) (ok : list bytes -> R -> Prop) (r : res (res A * R * writer K)) (g : ghost) (s : world) : Prop :=
    match r with
    | Ok (Ok _, r', w') => exists chunks pos d b, ok chunks r' /\ w' = WFD fd pos /\ mine d s /\ g = own b /\
        (may_fail O KShort = false -> d = d0 ++ concat chunks)
    | Ok (Raise _, _, w') => exists pos d b, w' = WFD fd pos /\ mine d s /\ g = own b
    | Ok (Diverge, _, _) => False
    | Raise _ => False
    | Diverge => True
    end.
  Lemma copy_fd size chunk : forall fuel r pos d0 dbw s b, mine d0 s ->
    wp (copy_loop K read fuel r (WFD fd pos) size chunk dbw) (own b) s
      (fd_post d0 (fun chunks r' => delivered read size chunk dbw r chunks r')).
  Proof.
    induction fuel as [|f IH]; intros r pos d0 dbw s b Hm; [exact I|]. cbn [copy_loop].
    destruct (read r (Z.min chunk (size - dbw))) as [[data r1]|e|] eqn:Er; [| |exact I].
    2: { cbn. exists pos, d0, b. easy. }
    apply wp_bind. cbn [w_write]. apply wp_after.
    assert (Hstep : forall s' d b, mine d s' -> (may_fail O KShort = false -> d = d0 ++ data) ->
      wp (if (len data <? Z.min chunk (size - dbw)) || (dbw + len data =? size) then ret (Ok (dbw + len data), r1, WFD fd (pos + len data))
          else copy_loop K read f r1 (WFD fd (pos + len data)) size chunk (dbw + len data)) (own b) s'
        (fd_post d0 (fun chunks r' => delivered read size chunk dbw r chunks r'))).
    { intros s' d b' Hm' Hd. destruct ((len data <? Z.min chunk (size - dbw)) || (dbw + len data =? size)) eqn:Ec.
      - cbn. exists [data], (pos + len data), d, b'. split; [|split; [|split; [|split]]].
        + econstructor; [exact Er|lia].
        + easy.
        + easy.
        + easy.
        + cbn [concat]. now rewrite app_nil_r.
      - eapply wp_mono; [|apply (IH r1 (pos + len data) d (dbw + len data) s' b' Hm')].
        intros [[[[n|e|] r2] w]|e|] g s2 H; cbn [fd_post] in *; try easy.
        destruct H as (chunks & pos2 & d2 & b2 & H1 & H2 & H3 & H4 & H5). exists (data :: chunks), pos2, d2, b2.
        split; [|split; [|split; [|split]]]; [|easy|easy|easy|].
        + eapply dl_more; [exact Er|lia|lia|exact H1].
        + intros Hs. rewrite (H5 Hs), (Hd Hs). cbn [concat]. now rewrite app_assoc. }
    eapply wp_write; [exact Hm| | |].
    - intros s' Hm'. cbn [OsProofs.wp]. now apply (Hstep s' (d0 ++ data)).
    - intros s' k x Hk Hs Hm'. cbn [OsProofs.wp]. apply (Hstep s' x); [easy|]. congruence.
    - intros s' x Hm'. cbn. now exists (pos + len data), x, b.
  Qed.

  (** gitdb/db/loose.py:187-205 *)
  Context (guar_drop : forall b e s, ev_short e = false -> ev_pub e = false -> lookup s t = Some fd -> Guar (own b) e (mk_ghost None b false) s (unlink s t)).
  Lemma wp_close b d s (Q : res unit -> ghost -> world -> Prop) : mine d s ->
    (forall s', mine d s' -> Q (Ok tt) (own b) s') -> (forall s', mine d s' -> Q (Raise OSError) (own b) s') ->
    wp (sysr (Close fd)) (own b) s Q.
  Proof.
    intros Hm H1 H2. apply wp_sysr. intros s1 a s2 Hr Hs. pose proof (rely_mine _ _ _ _ Hm Hr) as Hm1. cbn [sys] in Hs.
    exists (own b). destruct Hs as [(_ & -> & ->)|[-> ->]]; (split; [now apply guar_same|]); auto.
  Qed.
  Lemma wp_w_close_fdc b d0 s seen zip (Q : res unit -> ghost -> world -> Prop) : mine d0 s ->
    (forall s', mine (d0 ++ zc_flush K zip) s' -> Q (Ok tt) (own b) s') ->
    (forall s' d b, mine d s' -> Q (Raise OSError) (own b) s') ->
    wp (w_close K (WFDC fd seen zip)) (own b) s Q.
  Proof.
    intros Hm H1 H2. cbn [w_close]. apply wp_bind. eapply wp_write; [exact Hm| | |].
    - intros s' Hm'. rewrite Z.eqb_refl. eapply wp_close; [exact Hm'|easy|]. intros s2 Hm2. eapply H2; eauto.
    - intros s' k x Hk _ Hm'. replace (k =? len (zc_flush K zip)) with false by lia. eapply H2; eauto.
    - intros s' x Hm'. eapply H2; eauto.
  Qed.
  Lemma wp_remove {A} b d s (e : exn) (Q : res A -> ghost -> world -> Prop) : mine d s ->
    (forall s', Q (Raise e) (mk_ghost None b false) s') ->
    (may_fail O KRemove = true -> forall s', mine d s' -> Q (Raise OSError) (own b) s') ->
    wp (do! _ := sysr (Remove t) in Ret (Raise e)) (own b) s Q.
  Proof.
    intros Hm H1 H2. apply wp_bind. apply wp_sysr. intros s1 a s2 Hr Hs. pose proof (rely_mine _ _ _ _ Hm Hr) as Hm1. cbn [sys] in Hs.
    destruct Hs as [(Hf & -> & ->)|Hs].
    - exists (own b). split; [now apply guar_same|]. now apply H2.
    - destruct Hm1 as [Ha Hb]. rewrite Ha in Hs. destruct Hs as [-> ->]. exists (mk_ghost None b false). split; [now apply guar_drop|].
      cbn. apply H1.
  Qed.

  (** What is in the temporary file when it has been filled. *)
  Definition filled (i : istream R) (d : bytes) (seen : option bytes) : Prop :=
    match is_binsha i with
    | None => exists chunks r', delivered read (is_size i) (stream_chunk_size pagesize) 0 (is_stream i) chunks r' /\
        let h := loose_object_header (is_type i) (is_size i) in
        d = zc_all K (zc_new K 1) (h :: chunks) /\ seen = Some (h ++ concat chunks)
    | Some _ => seen = None /\ (may_fail O KShort = false ->
        exists chunks r', delivered read maxsize (stream_chunk_size pagesize) 0 (is_stream i) chunks r' /\ d = concat chunks)
    end.
  Definition w_seen (w : writer K) : option bytes :=
    match w with WSha s | WFlex s _ | WZip s _ _ | WFDC _ s _ => Some s | WFD _ _ => None end.
  Definition fill_post (i : istream R) (r : res (R * writer K)) (g : ghost) (s : world) : Prop :=
    match r with
    | Ok (_, w) => exists d b, mine d s /\ g = own b /\ filled i d (w_seen w) /\ (is_binsha i = None -> b = false)
    | Raise _ => exists b, g = mk_ghost None b false \/ (may_fail O KRemove = true /\ g = own b /\ exists d, mine d s)
    | Diverge => is_binsha i = None -> g = own false
    end.
  Definition start_writer (i : istream R) : writer K :=
    match is_binsha i with None => WFDC fd [] (zc_new K 1) | Some _ => WFD fd 0 end.
  Lemma wp_fill fuel i s : mine [] s ->
    wp (fill K pagesize read fuel (Some t) (start_writer i) i) (own false) s (fill_post i).
  Proof.
    intros Hm. unfold fill, on_error. apply wp_after. apply wp_bind.
    assert (Hfail : forall e b d s', mine d s' -> wp (do! _ := sysr (Remove t) in Ret (Raise e)) (own b) s' (fill_post i)).
    { intros e b d s' Hm'. eapply wp_remove; [exact Hm'| |].
      - intros s2. exists b. now left.
      - intros Hf s2 Hm2. exists b. right. split; [easy|]. split; [easy|]. now exists d. }
    unfold feed, start_writer. destruct (is_binsha i) as [sha|] eqn:Eb.
    - eapply wp_mono; [|eapply copy_fd; exact Hm].
      intros [[[[n|e|] r'] w]|e|] g s' H; cbn [fd_post] in H; try easy.
      + destruct H as (chunks & pos & d & b & Hd & -> & Hm' & -> & Hs). cbn [bind]. apply wp_bind. cbn [w_close].
        eapply wp_close; [exact Hm'| |].
        * intros s2 Hm2. cbn [OsProofs.wp]. exists d, b. split; [easy|]. split; [easy|]. split; [|congruence].
          unfold filled. rewrite Eb. split; [easy|]. intros Hns. rewrite (Hs Hns). exists chunks, r'. easy.
        * intros s2 Hm2. eapply Hfail; eauto.
      + destruct H as (pos & d & b & -> & Hm' & ->). cbn [bind]. apply wp_bind. cbn [w_close]. eapply wp_close; [exact Hm'| |]; intros s2 Hm2; eapply Hfail; eauto.
      + cbn. intros; congruence.
    - unfold write_object_to. apply wp_bind. eapply wp_w_write_fdc; [exact Hm| |].
      + intros s1 Hm1. apply wp_bind. eapply wp_mono; [|eapply copy_fdc; exact Hm1].
        set (h := loose_object_header (is_type i) (is_size i)) in *.
        intros [[[[n|e|] r'] w]|e|] g s' H; cbn [fdc_post] in H; try easy.
        * destruct H as (chunks & Hd & -> & Hm' & ->). cbn [OsProofs.wp ret]. apply wp_bind. eapply wp_w_close_fdc; [exact Hm'| |].
          -- intros s2 Hm2. cbn. eexists _, false. split; [exact Hm2|]. split; [easy|]. split; [|easy].
             unfold filled. rewrite Eb. exists chunks, r'. split; [easy|]. cbv zeta. fold h. split; [|easy].
             rewrite zc_all_feed. cbn [zc_feed]. destruct (zc_compress K (zc_new K 1) h) as [o c].
             cbn [fst snd] in *. destruct (zc_feed K c chunks). cbn [fst snd]. now rewrite app_nil_l.
          -- intros s2 d b Hm2. eapply Hfail; eauto.
        * destruct H as (seen & zip & d & b & -> & Hm' & ->). cbn [OsProofs.wp ret bind]. apply wp_bind.
          eapply wp_w_close_fdc; [exact Hm'| |]; intros; cbn [OsProofs.wp]; eapply Hfail; eauto.
      + intros s' e seen' zip' x b Hm'. cbn [OsProofs.wp ret]. apply wp_bind. eapply wp_w_close_fdc; [exact Hm'| |]; intros; cbn [OsProofs.wp]; eapply Hfail; eauto.
  Qed.
End Feed.

(** ** store *)
Section Steps.
  Context (P : path -> bytes -> Prop) (root : path) (excl strict : bool).
  (** The steps of store: [P p z] says that z may appear as file p; the first argument says
      whether the step makes an object file appear; [excl]: the object file is new; [strict]:
      no object file appears if a write was short. *)
  Inductive loose_step : bool -> option (path * ino) -> option (path * ino) -> world -> world -> Prop :=
  | ls_same g s : loose_step false g g s s
  | ls_new s t : temp_file root t -> path_exists s t = false -> loose_step false None (Some (t, w_next s)) s (create s t)
  | ls_data t fd s x : lookup s t = Some fd -> loose_step false (Some (t, fd)) (Some (t, fd)) s (set_data s fd (w_data s fd ++ x))
  | ls_dirs g s sha : loose_step false g g s (add_dirs s (dirname (object_file root sha)))
  | ls_drop t fd s : lookup s t = Some fd -> loose_step false (Some (t, fd)) None s (unlink s t)
  | ls_publish t fd s sha : lookup s t = Some fd -> P (object_file root sha) (w_data s fd) ->
      (excl = true -> lookup s (object_file root sha) = None) ->
      loose_step true (Some (t, fd)) None s (link (unlink s t) (object_file root sha) fd).
  Definition loose_guar (g : ghost) (e : event) (g' : ghost) (s s' : world) : Prop :=
    loose_step (ev_pub e) (g_own g) (g_own g') s s' /\ g_short g' = g_short g || ev_short e /\
    g_pub g' = g_pub g || ev_pub e /\ (strict = true -> g_short g' && g_pub g' = false).
End Steps.

Lemma temp_not_object root t sha : temp_file root t -> t <> object_file root sha.
Proof.
  intros (suf & _ & ->) H. unfold object_file in H. apply app_inv_head in H. discriminate.
Qed.

Section Store.
  Context (K : zlib) (sha1 : bytes -> bytes) (pagesize : Z) {R : Type} (read : R -> Z -> res (bytes * R)).
  Context (Hsha : forall d, is_bytes (sha1 d)).
  Context (O : os) (Rely : ghost -> world -> world -> Prop) (P : path -> bytes -> Prop) (root : path) (excl strict : bool).
  Context (rely_mine : forall t fd b d s s1, mine t fd d s -> Rely (mk_ghost (Some (t, fd)) b false) s s1 -> mine t fd d s1).
  Context (rely_excl : excl = true -> forall g s s1, Rely g s s1 -> s1 = s).
  Context (rely_file : forall g s s1 sha, Rely g s s1 -> is_file s (object_file root sha) = true -> is_file s1 (object_file root sha) = true).
  Notation Guar := (loose_guar P root excl strict).
  Notation wp := (wp O Rely Guar).

  Lemma wp_chmod (target : path) : (forall g s s1, Rely g s s1 -> is_file s target = true -> is_file s1 target = true) ->
    forall n g s, (strict = true -> g_short g && g_pub g = false) -> is_file s target = true ->
    wp (chmod_loop n target) g s (fun r g' s' => r <> Diverge /\ g' = g /\ is_file s' target = true).
  Proof.
    intros Hrf. induction n as [|n IH]; intros g s Hst Hf; [easy|]. cbn [chmod_loop]. apply wp_after. apply wp_sysr.
    intros s1 a s2 Hr Hs. apply Hrf in Hr; [|easy]. exists g. cbn [sys] in Hs.
    assert (s2 = s1 /\ (a = Ok tt \/ a = Raise PermissionError \/ a = Raise FileNotFound)) as [-> Ha].
    { destruct Hs as [(_ & -> & ->)|Hs]; [now split; [|right; left]|].
      unfold path_exists in Hs. rewrite Hr in Hs. destruct Hs as [-> ->]. split; [easy|now left]. }
    split.
    - split; [constructor|]. cbn [ev_short is_short ev_pub renames]. now rewrite !orb_false_r.
    - destruct Ha as [-> | [-> | ->]]; [|now apply IH|]; now cbn.
  Qed.

  (** From the temporary file to the object file. *)
  Lemma wp_publish t fd b d sha s : temp_file root t -> mine t fd d s -> P (object_file root sha) d -> (strict = true -> b = false) ->
    wp (publish root t (bin_to_hex sha)) (mk_ghost (Some (t, fd)) b false) s (fun r g' s' =>
      match r with
      | Ok _ => (exists q, g' = mk_ghost None b q) /\ is_file s' (object_file root sha) = true
      | Raise _ => ((exists q, g' = mk_ghost None b q) /\ is_file s' (object_file root sha) = true) \/ (g' = mk_ghost (Some (t, fd)) b false /\ mine t fd d s')
      | Diverge => False
      end).
  Proof.
    intros Ht Hm HP Hb0. unfold publish. rewrite object_path_file. set (target := object_file root sha) in *.
    assert (t <> target) as Hne by now apply temp_not_object.
    apply wp_bind. apply wp_sysr. intros s1 a s2 Hr Hs. pose proof (rely_mine _ _ _ _ _ _ Hm Hr) as Hm1. cbn [sys] in Hs.
    assert (Hsame : forall B (c : call B) a s, is_short c a = false -> renames c a = false -> Guar (mk_ghost (Some (t, fd)) b false) (Ev c a) (mk_ghost (Some (t, fd)) b false) s s).
    { intros B c a' s' He He2. split; [cbn [ev_pub]; rewrite He2; constructor|]. cbn [ev_short ev_pub g_short g_pub]. rewrite He, He2, !orb_false_r.
      split; [easy|]. split; [easy|]. intros _. apply andb_false_r. }
    destruct Hs as [(_ & -> & ->)|Hs].
    { exists (mk_ghost (Some (t, fd)) b false). split; [now apply Hsame|]. right. easy. }
    destruct (existsb (is_file s1) (ancestors [] (dirname target))).
    { destruct Hs as [-> ->]. exists (mk_ghost (Some (t, fd)) b false). split; [now apply Hsame|]. right. easy. }
    destruct Hs as [-> ->]. exists (mk_ghost (Some (t, fd)) b false). split.
    { split; [constructor|]. cbn [ev_short is_short ev_pub renames g_short g_pub]. rewrite !orb_false_r. split; [easy|]. split; [easy|]. intros _. apply andb_false_r. }
    assert (Hm2 : mine t fd d (add_dirs s1 (dirname target))) by exact Hm1. clear s Hm Hr Hm1.
    revert Hm2. generalize (add_dirs s1 (dirname target)). clear s1. intros s Hm.
    apply wp_bind. apply wp_sysv. intros s1 a s2 Hr Hs. pose proof (rely_mine _ _ _ _ _ _ Hm Hr) as Hm1. destruct Hs as [-> ->].
    exists (mk_ghost (Some (t, fd)) b false). split; [now apply Hsame|]. clear s Hm Hr.
    assert (Hchmod : forall s' , is_file s' target = true ->
      forall q, wp (chmod_loop 14 target) (mk_ghost None b q) s' (fun r g' s' =>
        match r with
        | Ok _ => (exists q, g' = mk_ghost None b q) /\ is_file s' target = true
        | Raise _ => ((exists q, g' = mk_ghost None b q) /\ is_file s' target = true) \/ (g' = mk_ghost (Some (t, fd)) b false /\ mine t fd d s')
        | Diverge => False
        end)).
    { intros s' Hf q. eapply wp_mono; [|apply wp_chmod; [intros g2 a2 b2 Hr2; exact (rely_file g2 a2 b2 sha Hr2)|cbn; intros E; now rewrite (Hb0 E)|exact Hf]].
      intros [x|e|] g2 s2 (Hnd & -> & Hf2); [split; [now exists q|easy]|left; split; [now exists q|easy]|easy]. }
    apply wp_bind. destruct (is_file s1 target) eqn:Ef.
    - apply wp_sysr. intros s2 a s3 Hr Hs. pose proof (rely_mine _ _ _ _ _ _ Hm1 Hr) as Hm2. apply (rely_file _ _ _ sha) in Hr; [|exact Ef].
      cbn [sys] in Hs. destruct Hs as [(_ & -> & ->)|Hs].
      { exists (mk_ghost (Some (t, fd)) b false). split; [now apply Hsame|]. right. easy. }
      destruct Hm2 as [Ha Hb]. rewrite Ha in Hs. destruct Hs as [-> ->]. exists (mk_ghost None b false). split.
      + split; [now constructor|]. cbn [ev_short is_short ev_pub renames g_short g_pub]. rewrite !orb_false_r. split; [easy|]. split; [easy|]. intros _. apply andb_false_r.
      + apply Hchmod. apply is_file_true. rewrite lookup_unlink. destruct (path_eq_dec target t); [congruence|].
        now apply is_file_true.
    - apply wp_sysr. intros s2 a s3 Hr Hs. pose proof (rely_mine _ _ _ _ _ _ Hm1 Hr) as Hm2.
      cbn [sys] in Hs. destruct Hs as [(_ & -> & ->)|Hs].
      { exists (mk_ghost (Some (t, fd)) b false). split; [now apply Hsame|]. right. easy. }
      destruct Hm2 as [Ha Hb]. rewrite Ha in Hs.
      assert (Herr : forall e, gives (Raise e) s2 a s3 -> exists g', Guar (mk_ghost (Some (t, fd)) b false) (Ev (Rename t target) a) g' s2 s3 /\
         match a with
         | Ok _ => wp (chmod_loop 14 target) g' s3 (fun (r : res unit) g' s' =>
            match r with
            | Ok _ => (exists q, g' = mk_ghost None b q) /\ is_file s' target = true
            | Raise _ => ((exists q, g' = mk_ghost None b q) /\ is_file s' target = true) \/ (g' = mk_ghost (Some (t, fd)) b false /\ mine t fd d s')
            | Diverge => False
            end)
         | Raise e => ((exists q, g' = mk_ghost None b q) /\ is_file s3 target = true) \/ (g' = mk_ghost (Some (t, fd)) b false /\ mine t fd d s3)
         | Diverge => False
         end).
      { intros e [-> ->]. exists (mk_ghost (Some (t, fd)) b false). split; [now apply Hsame|]. right. easy. }
      destruct (is_dir s2 target); [eapply Herr; exact Hs|]. destruct (negb (is_dir s2 (dirname target))); [eapply Herr; exact Hs|].
      destruct (windows O && is_file s2 target); [eapply Herr; exact Hs|]. destruct Hs as [-> ->].
      exists (mk_ghost None b true). split.
      + split; [|cbn [ev_short is_short g_short g_pub ev_pub renames]; rewrite orb_false_r; split; [easy|]; split; [easy|]; intros E; now rewrite (Hb0 E)]. cbn [g_own]. apply ls_publish; [easy|now rewrite Hb|].
        intros Hex. apply (rely_excl Hex) in Hr as ->. now apply is_file_lookup.
      + apply Hchmod. apply is_file_true. rewrite lookup_link. now destruct (path_eq_dec target target).
  Qed.

  (** What store ends with. *)
  Definition store_post (i : istream R) (r : res (istream R * option (writer K))) (g : ghost) (s : world) : Prop :=
    (is_binsha i = None -> g_short g = true -> exists e, r = Raise e) /\
    match r with
    | Ok (i', out) => g_own g = None /\ out = None /\ exists sha z, is_binsha i' = Some sha /\ is_bytes sha /\ is_type i' = is_type i /\ is_size i' = is_size i /\
        stored_as K sha1 pagesize read O root i (object_file root sha) z /\ is_file s (object_file root sha) = true
    | Raise _ => (is_binsha i = None -> g_short g = true -> may_fail O KRemove = false -> g_own g = None) /\
        match g_own g with Some (t, fd) => temp_file root t /\ exists d, mine t fd d s | None => True end
    | Diverge => True
    end.
  Lemma wp_store fuel db i s : l_root db = root ->
    (forall sha z, stored_as K sha1 pagesize read O root i (object_file root sha) z -> P (object_file root sha) z) ->
    (forall sha, is_binsha i = Some sha -> is_bytes sha) -> (strict = true -> is_binsha i = None) ->
    wp (store K sha1 pagesize read fuel db None i) (mk_ghost None false false) s (store_post i).
  Proof.
    intros Hroot HP Hbin Hstr. unfold store. rewrite Hroot. apply wp_bind. apply wp_bind. apply wp_sysr.
    intros s1 a s2 Hr Hs. cbn [sys] in Hs.
    assert (Hend : forall e s', a = Raise e -> s2 = s' -> s' = s1 ->
       exists g', Guar (mk_ghost None false false) (Ev (Mkstemp obj_prefix root) a) g' s1 s2 /\ store_post i (Raise e) g' s2).
    { intros e s' -> -> ->. exists (mk_ghost None false false). split; [split; [constructor|easy]|]. split; [discriminate|]. cbn. easy. }
    destruct Hs as [(_ & -> & ->)|Hs]; [now apply (Hend OSError s1)|].
    destruct (is_dir s1 root); [|destruct Hs as [-> ->]; now apply (Hend FileNotFound s1)].
    clear Hend. destruct Hs as (suf & Hsuf & Hs). cbv zeta in Hs. destruct Hs as [Hfree [-> ->]].
    set (t := root ++ [obj_prefix ++ suf]) in *. set (fd := w_next s1) in *.
    assert (Ht : temp_file root t) by now exists suf.
    exists (mk_ghost (Some (t, fd)) false false). split; [split; [now apply ls_new|easy]|].
    assert (Hm : mine t fd [] (create s1 t)).
    { split; [rewrite lookup_create; now destruct (path_eq_dec t t)|]. rewrite data_create. unfold fd. now rewrite Nat.eqb_refl. }
    revert Hm. generalize (create s1 t). clear Hr. clearbody t fd. clear s. intros s Hm.
    cbn [OsProofs.wp ret]. apply wp_bind.
    change (match is_binsha i with Some _ => WFD fd 0 | None => WFDC fd [] (zc_new K 1) end) with (start_writer K fd i).
    eapply wp_mono; [|eapply (wp_fill K pagesize read O Rely Guar t fd); [| | | |exact Hm]].
    2: { intros b d s0 s0'. apply rely_mine. }
    2: { intros b e s0 x He [Ha _]. split; [rewrite He; now apply ls_data|]. cbn [g_short g_pub]. rewrite He, !orb_false_r. split; [easy|]. split; [easy|]. intros _. apply andb_false_r. }
    2: { intros b e s0 He He2. split; [rewrite He2; constructor|]. cbn [g_short g_pub]. rewrite He, He2, !orb_false_r. split; [easy|]. split; [easy|]. intros _. apply andb_false_r. }
    2: { intros b e s0 He He2 Hl. split; [rewrite He2; now apply ls_drop|]. cbn [g_short g_pub]. rewrite He, He2, !orb_false_r. split; [easy|]. split; [easy|]. intros _. apply andb_false_r. }
    intros [[r' w]|e|] g s' H; cbn [fill_post] in H.
  3: { cbn [OsProofs.wp]. split; [|easy]. intros Hn Hs. rewrite (H Hn) in Hs. discriminate. }
    2: { destruct H as (b & [-> | (Hf & -> & d & Hd)]); cbn [OsProofs.wp]; (split; [now exists e|]); [easy|]. cbn [g_own].
         split; [congruence|]. split; [easy|]. now exists d. }
    destruct H as (d & b & Hm' & -> & Hfill & Hb).
    assert (Hgo : forall sha, P (object_file root sha) d -> is_bytes sha -> stored_as K sha1 pagesize read O root i (object_file root sha) d ->
      wp (do! _ := publish root t (bin_to_hex sha) in
          Ret (let! s := hex_to_bin (bin_to_hex sha) in Ok (mk_istream (Some s) (is_type i) (is_size i) r', None)))
        (mk_ghost (Some (t, fd)) b false) s' (store_post i)).
    { intros sha HPd Hbs Hst. apply wp_bind. eapply wp_mono; [|apply wp_publish with (d := d); [exact Ht|exact Hm'|exact HPd|auto]].
      intros [[]|e|] g2 s2 H; [| |easy].
      - destruct H as [[q ->] Hf]. cbn [OsProofs.wp]. rewrite hex_to_bin_to_hex by easy. cbn [bind]. split.
        + intros Hn Hs. cbn [g_short] in Hs. rewrite (Hb Hn) in Hs. discriminate.
        + split; [easy|]. split; [easy|]. exists sha, d. easy.
      - destruct H as [[[q ->] Hf]|[-> Hm2]]; cbn [OsProofs.wp]; (split; [now exists e|]); [easy|]. cbn [g_own g_short]. split.
        + intros Hn Hs. rewrite (Hb Hn) in Hs. discriminate.
        + split; [easy|]. now exists d. }
    unfold filled in Hfill. unfold stored_as in *. destruct (is_binsha i) as [[|x sha]|] eqn:Eb.
    - (* an empty preset sha *)
      destruct Hfill as [Hseen _]. destruct w; try discriminate Hseen. cbn [w_sha]. cbn. split; [now exists AttributeError|]. split; [congruence|].
      split; [easy|]. now exists d.
    - cbn [OsProofs.wp ret pbind after]. destruct Hfill as [Hseen Hd]. apply Hgo; [apply HP|now apply Hbin|]; (split; [discriminate|]; split; [easy|]; exact Hd).
    - destruct Hfill as (chunks & r1 & Hdel & Hd & Hseen). cbv zeta in *.
      set (h := loose_object_header (is_type i) (is_size i)) in *.
      assert (w_sha K sha1 w = ret (sha1 (h ++ concat chunks))) as -> by (destruct w; cbn [w_seen] in Hseen; try discriminate; injection Hseen as ->; reflexivity).
      cbn [OsProofs.wp ret pbind after]. apply Hgo; [apply HP|apply Hsha|]; (exists chunks, r1; easy).
  Qed.
End Store.
