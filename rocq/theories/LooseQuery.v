(** Queries of LooseObjectDB after a history of operations. *)
From Coq Require Import ZifyBool ZifyNat Permutation.
From Verif Require Import Py PyFacts FunModel FunSpec FunProofs ZlibModel ReaderModel StreamSpec ReaderProofs IndexSpec PackSpec PackCheckProofs OsModel OsProofs LooseModel LooseSpec LooseProofs LooseTop.
Ltac Zify.zify_post_hook ::= Z.div_mod_to_equations.

Lemma yields_bind O A B (p : prog A) (f : A -> prog B) s a r : reads_only (pbind p f) -> yields O p s (Ok a) -> yields O (f a) s r -> yields O (pbind p f) s r.
Proof. intros Hro H1 H2. unfold pbind. eapply yields_after; [exact Hro|exact H1|exact H2]. Qed.
Lemma yields_bind_raise O A B (p : prog A) (f : A -> prog B) s e : reads_only (pbind p f) -> yields O p s (Raise e) -> yields O (pbind p f) s (Raise e).
Proof. intros Hro H1. unfold pbind. eapply yields_after; [exact Hro|exact H1|apply yields_ret]. Qed.

Section After.
  Context {K : zlib} (L : zlib_laws K) (sha1 : bytes -> bytes) (Hsha : forall d, sha_ok (sha1 d)) (pagesize : Z) (Hpage : 0 < pagesize).
  Context {R : Type} (rd : R -> Z -> res (bytes * R)) (content : R -> bytes) (HR : stream_reader rd content).
  Context (O : os) (fuel : nat) (root : path).
  Notation lives := (lives K sha1 pagesize rd O fuel).
  Notation store := (store K sha1 pagesize rd fuel).

  (** What the queries say about an object whose file is there. *)
  Lemma info_yields db s sha z t c : can_read O -> contents s (object_file (l_root db) sha) = Some z ->
    zl_stream L z (form (t, c)) -> ~ In 32 t -> ~ In 0 t -> len (loose_object_header t (len c)) <= 8192 ->
    yields O (info K db sha) s (Ok (sha, t, len c)).
  Proof.
    intros Hcr Hz Hzs H1 H2 Hl. destruct (zl_start K L _ _ Hzs) as (Hne & _).
    unfold info. eapply yields_bind; [apply ro_info|now apply map_yields with (z := z)|].
    unfold form in Hzs. cbn [fst snd] in Hzs. pose proof (header_info_ok L t c z [] Hzs H1 H2 Hl) as Hi. rewrite app_nil_r in Hi. rewrite Hi. apply yields_ret.
  Qed.
  Definition read_stream (f : nat) (db : ldb) (sha : bytes) (ops : list rop) : prog (bytes * Z * list bytes) :=
    do! o := stream K f db sha in
    Ret (let! outs := run_stream (read f) (fun r => seek r 0 0) (ot_stream o) ops in Ok (ot_type o, ot_size o, outs)).
  Lemma stream_yields db s sha z v ops f : can_read O -> contents s (object_file (l_root db) sha) = Some z -> z <> [] ->
    read_object (K := K) z f ops = Ok v -> yields O (read_stream f db sha ops) s (Ok v).
  Proof.
    intros Hcr Hz Hne Hr. unfold read_stream, stream. unfold read_object in Hr.
    destruct (reader_new K f z) as [[[t n] r]|e|] eqn:En; cbn [bind] in Hr; try discriminate.
    assert (Hro : reads_only (stream K f db sha)) by apply ro_stream.
    eapply yields_bind; [apply ro_bind; [exact Hro|easy]| |].
    - unfold stream. eapply yields_bind; [exact Hro|now apply map_yields with (z := z)|]. rewrite En. cbn [bind]. apply yields_ret.
    - cbn [ot_stream ot_type ot_size]. rewrite <- Hr. apply yields_ret.
  Qed.

  Lemma objects_app ops1 ops2 : objects_of content (ops1 ++ ops2) = objects_of content ops1 ++ objects_of content ops2.
  Proof. induction ops1 as [|op ops1 IH]; [easy|]. destruct op; cbn [app objects_of]; now rewrite IH. Qed.
  (** An object stored in the middle of a history. *)
  Lemma stored_then db0 s0 ops1 db1 s1 i i' out s2 ops2 db2 s3 :
    l_root db0 = root -> l_cache db0 = [] -> wf s0 -> no_objects root s0 -> Forall (proper_op content) (ops1 ++ LStore i :: ops2) ->
    no_collision sha1 (objects_of content (ops1 ++ LStore i :: ops2)) ->
    lives db0 s0 ops1 db1 s1 -> runs O (store db1 None i) s1 (Ok (i', out)) s2 -> lives db1 s2 ops2 db2 s3 ->
    exists sha z, is_binsha i' = Some sha /\ is_type i' = is_type i /\ is_size i' = is_size i /\
      sha = sha1 (form (object_of content i)) /\ l_root db2 = root /\ cache_ok db2 s3 /\
      contents s3 (object_file root sha) = Some z /\ zl_stream L z (form (object_of content i)).
  Proof.
    intros Hroot Hcache Hw Hno Hp Hnc Hl1 Hst Hl2. apply Forall_app in Hp as [Hp1 Hp2]. inversion Hp2 as [|? ? Hpi Hp3]; subst x l.
    destruct (lives_inv L sha1 Hsha pagesize Hpage rd content HR O fuel root _ _ _ _ _ Hl1 [] Hroot Hp1 (holds_start L sha1 root s0 Hw Hno)) as (Hh1 & Hk1 & Hc1 & Hr1).
    { intros h p. rewrite Hcache. easy. }
    rewrite app_nil_r in Hh1.
    destruct (store_holds L sha1 Hsha pagesize Hpage rd content HR O fuel root db1 i _ s1 _ s2 Hr1 Hpi Hh1 Hst) as [Hh2 Hk2].
    destruct (lives_inv L sha1 Hsha pagesize Hpage rd content HR O fuel root _ _ _ _ _ Hl2 _ Hr1 Hp3 Hh2 (keeps_cache _ _ _ Hk2 Hc1)) as (Hh3 & Hk3 & Hc3 & Hr3).
    destruct Hpi as (Hb & Hpi).
    destruct (store_ok K sha1 pagesize rd (fun d => proj2 (Hsha d)) O fuel db1 i ltac:(rewrite Hb; easy) s1 i' out s2 (proj1 Hh1) Hst)
      as (_ & sha & z0 & E1 & E0 & E2 & E3 & HP & _ & Hne). rewrite Hr1 in *.
    eapply (stored_proper L) in HP as [Hq _]; [|eassumption..|split; [exact Hb|exact Hpi]].
    apply object_file_inj in Hq; [|exact E0|apply Hsha].
    assert (Hs : sha_ok sha) by (rewrite Hq; apply Hsha).
    destruct (contents s2 (object_file root sha)) as [z2|] eqn:Ez2; [|easy].
    apply (proj1 Hk3) in Ez2. exists sha, z2.
    do 6 (split; [easy|]). split; [exact Ez2|]. destruct Hh3 as (_ & _ & Hh3). destruct (Hh3 sha z2 Hs Ez2) as (o & Hin & Ho & Hzo).
    replace (object_of content i) with o; [exact Hzo|]. apply (Hnc o (object_of content i) sha).
    - rewrite objects_app. cbn [objects_of]. rewrite !in_app_iff in *. cbn [In] in *. tauto.
    - rewrite objects_app. cbn [objects_of]. rewrite !in_app_iff in *. cbn [In] in *. tauto.
    - rewrite Ho. apply form_name.
    - rewrite Hq. apply form_name.
  Qed.

  (** has_object and stream agree as long as nobody else removes files. *)
  Lemma has_agrees db0 s0 ops db s sha : l_root db0 = root -> l_cache db0 = [] -> wf s0 -> no_objects root s0 ->
    Forall (proper_op content) ops -> lives db0 s0 ops db s -> can_read O -> sha_ok sha ->
    exists b db', yields O (has_object db sha) s (Ok (b, db')) /\
      if b then exists o z, In o (objects_of content ops) /\ name_of sha1 o sha /\ yields O (map_loose_object db sha) s (Ok z) /\ zl_stream L z (form o)
      else yields O (stream K fuel db sha) s (Raise BadObject).
  Proof.
    intros Hroot Hcache Hw Hno Hp Hl Hcr Hs.
    destruct (lives_inv L sha1 Hsha pagesize Hpage rd content HR O fuel root _ _ _ _ _ Hl [] Hroot Hp (holds_start L sha1 root s0 Hw Hno)) as (Hh & Hk & Hc & Hr).
    { intros h p. rewrite Hcache. easy. }
    rewrite app_nil_r in Hh. destruct (has_yields O db sha s Hc) as (db' & Hy & _). rewrite Hr in Hy.
    eexists _, db'. split; [exact Hy|]. destruct Hh as (_ & Hd & Hh). unfold path_exists. rewrite (Hd sha Hs), orb_false_r.
    destruct (is_file s (object_file root sha)) eqn:Ef.
    - apply is_file_true in Ef. destruct (contents s (object_file root sha)) as [z|] eqn:Ez; [|apply contents_none in Ez; congruence].
      destruct (Hh sha z Hs Ez) as (o & H1 & H2 & H3). exists o, z. split; [easy|]. split; [rewrite H2; apply form_name|]. split; [|easy].
      apply map_yields; [easy|now rewrite Hr|]. now destruct (zl_start K L _ _ H3).
    - apply is_file_lookup in Ef. unfold stream. apply yields_bind_raise; [apply ro_stream|]. apply map_yields_none. now rewrite Hr.
  Qed.

  (** Only objects look like objects. *)
  Lemma temp_tidy t : temp_file root t -> len (basename t) <> 38.
  Proof.
    intros (suf & [Hs _] & ->). rewrite basename_app, len_app. change (len obj_prefix) with 3. lia.
  Qed.
  Lemma store_tidy db i s p' s' : l_root db = root -> (forall sha, is_binsha i = Some sha -> sha_ok sha) -> wf s -> tidy root s ->
    steps O (store db None i) s p' s' -> tidy root s'.
  Proof.
    intros Hroot Hb Hw Ht Hst.
    destruct (store_stops K sha1 pagesize rd (fun d => proj2 (Hsha d)) O fuel db i (fun sha E => proj2 (Hb sha E)) s s' Hw (ex_intro _ p' Hst))
      as (_ & _ & tmp & Htmp & Hc). rewrite Hroot in *. intros p Hf Hu H1 H2.
    destruct (Hc p) as [Hq|(_ & z & _ & HP)].
    - intros ->. destruct (Htmp p eq_refl) as [Htt _]. now apply temp_tidy in Htt.
    - apply Ht; [|easy..]. apply is_file_true. apply is_file_true in Hf. intros E. apply Hf. apply contents_none. rewrite Hq. now apply contents_none.
    - unfold stored_as in HP. destruct (is_binsha i) as [sha|].
      + destruct HP as (_ & -> & _). exists sha. split; [now apply Hb|reflexivity].
      + destruct HP as (chunks & r' & _ & -> & _). eexists. split; [|reflexivity]. apply Hsha.
  Qed.
  Lemma lives_tidy db s ops db' s' : lives db s ops db' s' -> l_root db = root -> Forall (proper_op content) ops -> wf s -> tidy root s -> tidy root s' /\ l_root db' = root.
  Proof.
    assert (Hdo : forall db op s q s', l_root db = root -> proper_op content op -> wf s -> tidy root s ->
      steps O (l_do K sha1 pagesize rd fuel db op) s q s' -> tidy root s').
    { intros db0 op s0 q s1 Hroot Hp Hw Ht Hst. destruct op as [i|sha|sha|sha]; cbn [l_do] in Hst; apply steps_settle in Hst as (p1 & Hst).
      - destruct Hp as [Hb _]. eapply store_tidy; eauto. rewrite Hb. easy.
      - apply ro_steps in Hst as [-> _]; [easy|apply ro_has].
      - apply ro_steps in Hst as [-> _]; [easy|apply ro_info].
      - apply ro_steps in Hst as [-> _]; [easy|apply ro_stream]. }
    assert (Hroots : forall db op s db' s', runs O (l_do K sha1 pagesize rd fuel db op) s (Ok db') s' -> l_root db' = l_root db).
    { intros db0 op s0 db1 s1 Hr. destruct op as [i|sha|sha|sha]; cbn [l_do] in Hr; apply runs_settle in Hr as (r & Hr & ->); try now destruct r.
      unfold has_object in Hr. apply runs_after in Hr as (r1 & s2 & H1 & H2). unfold readable_db_object_path in H1.
      destruct (cache_get (bin_to_hex sha) (l_cache db0)).
      - apply runs_ret in H1 as [-> ->]. apply runs_ret in H2 as [-> ->]. easy.
      - apply runs_bind in H1 as (r2 & s3 & H3 & H4). destruct r2 as [[]|e|].
        + apply runs_ret in H4 as [-> ->]. apply runs_ret in H2 as [-> ->]. easy.
        + apply runs_ret in H4 as [-> ->]. apply runs_ret in H2 as [-> ->]. easy.
        + destruct H4 as [-> ->]. destruct e; apply runs_ret in H2 as [-> ->]; easy.
        + destruct H4 as [-> ->]. apply runs_ret in H2 as [-> ->]. easy. }
    induction 1 as [db s|db s op db1 s1 ops db2 s2 Hrun Hl IH|db s op s1 na ops db2 s2 Hrun Hl IH]; intros Hroot Hp Hw Ht; [easy| |];
      pose proof (Forall_inv Hp) as Hp1; pose proof (Forall_inv_tail Hp) as Hp2.
    - apply IH; [rewrite <- Hroot; eapply Hroots; eauto|easy|eapply steps_wf; eauto|eapply Hdo; eauto].
    - destruct Hrun as (q & Hrun). apply IH; [exact Hroot|easy|eapply steps_wf; eauto|eapply Hdo; eauto].
  Qed.
End After.

(** ** Iteration and abbreviated names *)
Lemma object_name_parts root sha : sha_ok sha -> basename (dirname (object_file root sha)) ++ basename (object_file root sha) = bin_to_hex sha /\
  len (basename (dirname (object_file root sha))) = 2 /\ len (basename (object_file root sha)) = 38 /\ under root (object_file root sha) = true.
Proof.
  intros [Hl Hb]. unfold object_file. rewrite dirname_app2, basename_app, basename_app2. split; [apply firstn_skipn|].
  pose proof (bin_to_hex_len sha) as Hh. split; [rewrite len_firstn; lia|]. split; [rewrite len_skipn; lia|].
  clear. induction root as [|x r IH]; [easy|]. cbn [app under]. now destruct (list_eq_dec Z.eq_dec x x).
Qed.
Lemma under_iff root : forall p, under root p = true <-> exists x q, p = root ++ x :: q.
Proof.
  induction root as [|a r IH]; intros [|y p]; cbn [under app]; [split; [easy|intros (x & q & H); discriminate]|split; [intros _; now exists y, p|easy]|split; [easy|intros (x & q & H); discriminate]|].
  destruct (list_eq_dec Z.eq_dec a y) as [-> |Hne]; [rewrite IH|]; split; [intros (x & q & ->); now exists x, q|intros (x & q & [= ->]); now exists x, q|easy|intros (x & q & [= -> _]); contradiction].
Qed.
Lemma shas_of_ok root : forall l, (forall p, In p l -> len (basename (dirname p)) = 2 -> len (basename p) = 38 -> exists sha, sha_ok sha /\ p = object_file root sha) ->
  NoDup l -> exists shas, shas_of l = map Ok shas /\ NoDup shas /\ forall sha, In sha shas <-> sha_ok sha /\ In (object_file root sha) l.
Proof.
  induction l as [|p l IH]; intros Hok Hnd.
  - exists []. split; [easy|]. split; [constructor|]. intros sha. cbn. tauto.
  - inversion Hnd as [|? ? Hni Hnd']; subst. destruct IH as (shas & E & Hns & Hin); [intros q Hq; apply Hok; now right|easy|]. cbn [shas_of].
    destruct (negb (len (basename (dirname p)) =? 2) || negb (len (basename p) =? 38)) eqn:Ec.
    + exists shas. split; [easy|]. split; [easy|]. intros sha. rewrite Hin. split; [intros [H1 H2]; split; [easy|now right]|].
      intros [H1 [H2|H2]]; [|easy]. subst p. destruct (object_name_parts root sha H1) as (_ & Ha & Hb & _). rewrite Ha, Hb in Ec. discriminate.
    + destruct (Hok p (or_introl eq_refl) ltac:(lia) ltac:(lia)) as (sha & Hs & ->). destruct (object_name_parts root sha Hs) as (Ha & _).
      rewrite Ha, hex_to_bin_to_hex by apply Hs. rewrite E. exists (sha :: shas). split; [easy|]. split.
      * constructor; [|easy]. rewrite Hin. tauto.
      * intros sha2. cbn [In]. rewrite Hin. split.
        -- intros [<-|[H1 H2]]; [split; [easy|now left]|split; [easy|now right]].
        -- intros [H1 [H2|H2]]; [left; eapply object_file_inj; [apply Hs|apply H1|exact H2]|right; easy].
Qed.
Lemma walk_shas O db s r s' : wf s -> tidy (l_root db) s -> runs O (sha_iter db) s r s' -> s' = s /\ exists shas,
  r = Ok (map Ok shas) /\ NoDup shas /\ forall sha, In sha shas <-> present (l_root db) s sha.
Proof.
  intros Hw Ht H. unfold sha_iter in H. apply runs_bind in H as (r1 & s1 & H1 & H2).
  inversion H1 as [|? ? p1 s2 ? ? H3 H4]; subst. destruct H3 as (l & Hs & ->). apply runs_ret in H4 as [-> ->].
  destruct Hs as [-> Hperm]. apply runs_ret in H2 as [-> ->]. split; [easy|].
  assert (Hin : forall p, In p l <-> is_file s p = true /\ under (l_root db) p = true).
  { intros p. rewrite is_file_true, <- lookup_in. split; intros Hi.
    - apply (Permutation_in p Hperm) in Hi. now apply filter_In in Hi.
    - apply (Permutation_in p (Permutation_sym Hperm)). now apply filter_In. }
  destruct (shas_of_ok (l_root db) l) as (shas & E & Hnd & Hsh).
  - intros p Hp. apply Hin in Hp as [Hp1 Hp2]. apply under_iff in Hp2 as (x & q & Hp2). apply Ht; [easy|]. now exists (x :: q).
  - apply (Permutation_NoDup (Permutation_sym Hperm)). apply NoDup_filter. apply (wf_nodup s Hw).
  - exists shas. rewrite E. split; [easy|]. split; [easy|]. intros sha. rewrite Hsh, Hin. unfold present. split.
    + intros (Ha & Hb & _). easy.
    + intros (Ha & Hb). destruct (object_name_parts (l_root db) sha Ha) as (_ & _ & _ & Hu). easy.
Qed.
Lemma partial_loop_spec partial : forall shas c, NoDup shas ->
  partial_loop partial (map Ok shas) c =
  match filter (fun b => startswith (bin_to_hex b) partial) shas, c with
  | [], None => Raise BadObject
  | [], Some b => Ok b
  | [b], None => Ok b
  | _, _ => Raise AmbiguousObjectName
  end.
Proof.
  induction shas as [|b shas IH]; intros c Hnd; [now destruct c|]. inversion Hnd as [|? ? _ Hnd']; subst.
  cbn [map partial_loop bind filter]. destruct (startswith (bin_to_hex b) partial) eqn:E; [|now apply IH].
  destruct c; [now destruct (filter _ shas)|]. rewrite IH by easy. now destruct (filter _ shas) as [|x [|y l]].
Qed.
Lemma partial_name O db s partial : wf s -> tidy (l_root db) s ->
  (forall sha, present (l_root db) s sha -> startswith (bin_to_hex sha) partial = true ->
     (forall sha', present (l_root db) s sha' -> startswith (bin_to_hex sha') partial = true -> sha' = sha) ->
     yields O (partial_to_complete_sha_hex db partial) s (Ok sha)) /\
  ((forall sha, present (l_root db) s sha -> startswith (bin_to_hex sha) partial = false) ->
     yields O (partial_to_complete_sha_hex db partial) s (Raise BadObject)) /\
  (forall sha sha', sha <> sha' -> present (l_root db) s sha -> present (l_root db) s sha' ->
     startswith (bin_to_hex sha) partial = true -> startswith (bin_to_hex sha') partial = true ->
     yields O (partial_to_complete_sha_hex db partial) s (Raise AmbiguousObjectName)).
Proof.
  intros Hw Ht.
  assert (Hro : reads_only (partial_to_complete_sha_hex db partial)) by (apply ro_bind; [apply ro_bind; easy|easy]).
  assert (Hrun : forall r, runs O (partial_to_complete_sha_hex db partial) s r s -> exists m, NoDup m /\
    (forall sha, In sha m <-> present (l_root db) s sha /\ startswith (bin_to_hex sha) partial = true) /\
    r = match m with [] => Raise BadObject | [b] => Ok b | _ => Raise AmbiguousObjectName end).
  { intros r H. unfold partial_to_complete_sha_hex in H. apply runs_bind in H as (r1 & s1 & H1 & H2).
    apply walk_shas in H1 as [-> (shas & -> & Hnd & Hin)]; [|easy..]. apply runs_ret in H2 as [-> _].
    exists (filter (fun b => startswith (bin_to_hex b) partial) shas). split; [now apply NoDup_filter|]. split.
    - intros sha. now rewrite filter_In, Hin.
    - rewrite partial_loop_spec by easy. now destruct (filter _ shas) as [|b [|b' l]]. }
  split; [|split].
  - intros sha Hp Hst Huniq. apply yields_ro; [exact Hro|]. intros r Hr. apply Hrun in Hr as (m & Hnd & Hin & ->).
    destruct m as [|b [|b' m]].
    + exfalso. assert (In sha []) as H by (apply Hin; easy). exact H.
    + f_equal. apply Huniq; apply Hin; now left.
    + exfalso. inversion Hnd as [|? ? Hni _]; subst. apply Hni. left. assert (Hb : In b (b :: b' :: m)) by now left. assert (Hb' : In b' (b :: b' :: m)) by (right; now left).
      apply Hin in Hb as [Hb1 Hb2]. apply Hin in Hb' as [Hb3 Hb4]. rewrite (Huniq b), (Huniq b'); easy.
  - intros Hno. apply yields_ro; [exact Hro|]. intros r Hr. apply Hrun in Hr as (m & Hnd & Hin & ->).
    destruct m as [|b m]; [easy|]. exfalso. assert (Hb : In b (b :: m)) by now left. apply Hin in Hb as [Hb1 Hb2]. rewrite Hno in Hb2; easy.
  - intros sha sha' Hne Hp Hp' Hs Hs'. apply yields_ro; [exact Hro|]. intros r Hr. apply Hrun in Hr as (m & Hnd & Hin & ->).
    assert (H1 : In sha m) by now apply Hin. assert (H2 : In sha' m) by now apply Hin.
    destruct m as [|b [|b' m]]; [easy| |easy]. exfalso. destruct H1 as [<-|[]], H2 as [<-|[]]. easy.
Qed.
