From Coq Require Import ZifyBool ZifyNat.
From Verif Require Import Py PyFacts FunModel FunSpec FunProofs ZlibModel ReaderModel StreamSpec ReaderProofs IndexModel IndexSpec PackModel PackSpec PackCheckProofs PackWriteProofs
  OsModel OsProofs LooseModel LooseSpec LooseTop LooseQuery PackDbModel PackDbSpec CreateModel CreateSpec CreateProofs CreateConc CreateRead RepackSpec RepackProofs MoveSpec.
Ltac Zify.zify_post_hook ::= Z.div_mod_to_equations.

(** ** A reader over the chunks that were read *)
Definition list_read (l : list bytes) (_ : Z) : res (bytes * list bytes) := match l with [] => Ok ([], []) | c :: l => Ok (c, l) end.
Fixpoint upto (n : Z) (l : list bytes) : list bytes := match l with [] => [[]] | c :: l => if len c =? n then c :: upto n l else [c] end.
Lemma list_reads n l : 0 < n -> chunks_read list_read n l (upto n l).
Proof.
  intros Hn. induction l as [|c l IH]; cbn [upto]; [apply (cr_last _ _ _ _ []); [reflexivity|rewrite len_nil; lia]|].
  destruct (len c =? n) eqn:E; [apply (cr_more _ _ _ _ l); [reflexivity|lia|exact IH]|apply (cr_last _ _ _ _ l); [reflexivity|lia]].
Qed.
Lemma upto_chunks R (rd : R -> Z -> res (bytes * R)) n r l : chunks_read rd n r l -> upto n l = l.
Proof.
  induction 1 as [r c r' _ Hc|r c r' l _ Hc _ IH]; cbn [upto].
  - now replace (len c =? n) with false by lia.
  - replace (len c =? n) with true by lia. now rewrite IH.
Qed.
Definition list_content (pagesize : Z) (l : list bytes) : bytes := concat (upto (chunk_size pagesize) l).
Lemma list_chunk_reader pagesize : 0 < pagesize -> chunk_reader pagesize list_read (list_content pagesize).
Proof. intros Hps r. exists (upto (chunk_size pagesize) r). split; [apply list_reads; unfold chunk_size; lia|reflexivity]. Qed.

(** ** What the chunks of a loose object are *)
Lemma chunks_contiguous R (rd : R -> Z -> res (bytes * R)) rw n c : forall r l, chunks_read rd n r l -> forall p,
  (exists outs, run_stream rd rw r (map Read (repeat n (length l))) = Ok outs /\ contiguous c p (map Read (repeat n (length l))) outs) ->
  (p <= length c)%nat -> concat l = firstn (length (concat l)) (skipn p c).
Proof.
  induction 1 as [r d r' Hr Hd|r d r' l Hr Hd Hl IH]; intros p (outs & Ho & Hc) Hp.
  - cbn [length repeat map run_stream] in Ho. rewrite Hr in Ho. cbn [bind] in Ho. injection Ho as <-. cbn [length repeat map contiguous] in Hc.
    cbn [concat]. rewrite app_nil_r. easy.
  - cbn [length repeat map run_stream] in Ho. rewrite Hr in Ho. cbn [bind] in Ho. apply bind_ok_inv in Ho as (outs' & Ho & E). injection E as <-.
    cbn [length repeat map contiguous] in Hc. destruct Hc as [Hc1 Hc2].
    assert (Hle : (p + length d <= length c)%nat).
    { apply (f_equal (@length Z)) in Hc1. rewrite firstn_length, skipn_length in Hc1. lia. }
    cbn [concat]. rewrite app_length. rewrite (IH (p + length d)%nat) at 1; [|now exists outs'|exact Hle].
    rewrite Hc1 at 1. set (k := length (concat l)).
    replace (skipn p c) with (firstn (length d) (skipn p c) ++ skipn (p + length d) c) at 2.
    + rewrite firstn_app. rewrite (firstn_all2 (n := (length d + k)%nat) (firstn (length d) (skipn p c))) by (rewrite firstn_length; lia).
      f_equal. f_equal. rewrite firstn_length, skipn_length. lia.
    + replace (p + length d)%nat with (length d + p)%nat by lia. rewrite <- skipn_skipn. apply firstn_skipn.
Qed.
Lemma chunks_mono R (rd rd' : R -> Z -> res (bytes * R)) n r l : (forall r v, rd r n = Ok v -> rd' r n = Ok v) -> chunks_read rd n r l -> chunks_read rd' n r l.
Proof. intros Hm. induction 1 as [r c r' H1 H2|r c r' l H1 H2 _ IH]; [now apply (cr_last _ _ _ _ r'); [apply Hm|]|now apply (cr_more _ _ _ _ r'); [apply Hm| |]]. Qed.

Section Object.
  Context {K : zlib} (L : zlib_laws K).
  Lemma object_chunks t c z f t' r n l : zl_stream L z (loose_object_header t (len c) ++ c) -> ~ In 32 t -> ~ In 0 t ->
    reader_new K f z = Ok (t', len c, r) -> chunks_read (read f) n r l -> t' = t /\ (len (concat l) = len c -> concat l = c).
  Proof.
    intros Hz N1 N2 Hn Hl. rewrite <- (app_nil_r z) in Hn.
    destruct (object_contiguous L t c z [] f t' r Hz N1 N2 Hn) as (-> & H). split; [reflexivity|]. intros El.
    destruct (H (repeat n (length l))) as (outs & [f0 He] & Hc). set (f1 := Nat.max f f0).
    assert (Hl1 : chunks_read (read f1) n r l).
    { eapply chunks_mono; [|exact Hl]. intros r0 v Hv. eapply read_mono; [|exact Hv]. unfold f1. lia. }
    pose proof (chunks_contiguous _ (read f1) _ n c r l Hl1 0%nat (ex_intro _ outs (conj (He f1 ltac:(unfold f1; lia)) Hc)) ltac:(lia)) as E.
    rewrite E. cbn [skipn]. apply firstn_all2. unfold len in El. lia.
  Qed.
End Object.

Section Move.
  Context {K : zlib} (L : zlib_laws K) (sha1 : bytes -> bytes) (Hsha : forall d, len (sha1 d) = 20) (pagesize : Z) (Hps : 0 < pagesize).
  Context (O : os) (Hcr : can_read O) (Hshort : may_fail O KShort = false).
  Notation cs := (chunk_size pagesize).
  Definition opened (f : nat) (db : ldb) (s : world) (x : bytes * bytes * Z * bytes) (o : LooseModel.ostream (reader K)) : Prop :=
    ot_binsha o = sha_of x /\ exists z, contents s (object_file (l_root db) (sha_of x)) = Some z /\ z <> [] /\
      reader_new K f z = Ok (ot_type o, ot_size o, ot_stream o).
  Lemma file_there db s x : has_file K L db s x -> exists z, contents s (object_file (l_root db) (sha_of x)) = Some z /\ z <> [].
  Proof. destruct x as [[[sha t] n] c]. intros (z & form & Hz & _ & _ & Hs & _). exists z. split; [exact Hz|]. now destruct (zl_start K L _ _ Hs). Qed.
  Lemma streams_opened f db s : forall xs r s', Forall (has_file K L db s) xs -> runs O (streams K f db (map sha_of xs)) s r s' ->
    s' = s /\ forall os, r = Ok os -> Forall2 (opened f db s) xs os.
  Proof.
    induction xs as [|x xs IH]; intros r s' Hx Hr; cbn [map streams] in Hr.
    { apply runs_ret in Hr as [-> ->]. split; [reflexivity|]. intros os E. injection E as <-. constructor. }
    inversion Hx as [|? ? H1 H2]; subst. destruct (file_there db s x H1) as (z & Hz & Hne).
    apply runs_bind in Hr as (r1 & s1 & R1 & R2). unfold LooseModel.stream in R1. apply runs_bind in R1 as (r0 & s0 & R0 & R1).
    apply (yields_unique _ _ _ _ _ _ _ (map_yields O db (sha_of x) s z Hcr Hz Hne)) in R0 as [-> ->]. apply runs_ret in R1 as [-> ->].
    destruct (reader_new K f z) as [[[t' n'] rr]| |] eqn:En; cbn [bind] in R2; [|destruct R2 as [-> ->]; split; [reflexivity|discriminate]..].
    apply runs_bind in R2 as (r3 & s3 & R3 & R4). destruct (IH _ _ H2 R3) as [-> H].
    destruct r3 as [os| |]; [|destruct R4 as [-> ->]; split; [reflexivity|discriminate]..].
    apply runs_ret in R4 as [-> ->]. split; [reflexivity|]. intros os' E. injection E as <-. constructor; [|now apply H].
    split; [reflexivity|]. exists z. cbn [ot_type ot_size ot_stream]. easy.
  Qed.
  Lemma parts_chunks rd level objs : forall ofs ps ens, parts (K := K) pagesize rd level ofs objs ps ens ->
    Forall (fun o : @wobj (reader K) => exists l, chunks_read rd cs (wo_stream o) l /\ len (concat l) = wo_size o) objs.
  Proof.
    intros ofs ps ens H. induction H as [|ofs o objs p ps en ens (t & hdr & l & _ & _ & H1 & H2 & _) _ IH]; [constructor|]. constructor; [now exists l|exact IH].
  Qed.
  (** The object as its chunks. *)
  Definition chunked (x : bytes * bytes * Z * bytes) (o : @wobj (list bytes)) : Prop :=
    let '(sha, t, n, c) := x in wo_type o = PBytes t /\ wo_size o = n /\ wo_binsha o = sha /\ list_content pagesize (wo_stream o) = c.
  Lemma opened_chunked f db s xs : Forall (has_file K L db s) xs -> Forall (size_right K O db s) xs -> forall os, Forall2 (opened f db s) xs os ->
    Forall (fun o => exists l, chunks_read (read f) cs (wo_stream o) l /\ len (concat l) = wo_size o) (map (to_write K) os) ->
    exists objs, Forall2 chunked xs objs /\ Forall2 (alike pagesize (read f) list_read) (map (to_write K) os) objs.
  Proof.
    intros Hx. induction Hx as [|x xs H1 _ IH]; intros Hr os Ho Hc; inversion Ho as [|? o ? os' Hoo Hos]; subst; [exists []; split; constructor|].
    inversion Hr as [|? ? Hr1 Hr2]; subst. cbn [map] in Hc. inversion Hc as [|? ? (l & Hl1 & Hl2) Hc2]; subst.
    destruct (IH Hr2 _ Hos Hc2) as (objs & I1 & I2). destruct x as [[[sha t] n] c]. destruct H1 as (z & form & Hz & -> & Hf & Hs & N1 & N2).
    destruct Hoo as (E1 & z' & Hz' & Hne & En). cbn [sha_of fst] in *. rewrite Hz in Hz'. injection Hz' as <-.
    assert (form = loose_object_header t (len c) ++ c) as -> by (apply (loose_form_unique t c); [exact Hf|apply loose_form_header]).
    assert (Es : ot_size o = len c).
    { apply (Hr1 f o). cbn [sha_of fst]. unfold LooseModel.stream. eapply yields_bind; [apply ro_stream|now apply map_yields with (z := z)|].
      rewrite En. cbn [bind]. rewrite <- E1. destruct o. apply yields_ret. }
    cbn [to_write wo_stream wo_size] in Hl1, Hl2. rewrite Es in En, Hl2.
    destruct (object_chunks L t c z f (ot_type o) (ot_stream o) cs l Hs N1 N2 En Hl1) as (Et & Ec). specialize (Ec Hl2).
    exists (mk_wobj (PBytes t) (len c) sha l :: objs). split; constructor; try assumption.
    - cbn [chunked wo_type wo_size wo_binsha wo_stream]. repeat (split; [reflexivity|]). unfold list_content. now rewrite (upto_chunks _ _ _ _ _ Hl1).
    - split; [cbn [to_write wo_type]; now rewrite Et|]. split; [exact Es|]. split; [exact E1|]. exists l. cbn [wo_stream]. split; [exact Hl1|].
      rewrite <- (upto_chunks _ _ _ _ _ Hl1) at 2. apply list_reads. unfold chunk_size. lia.
  Qed.
  Lemma chunked_names xs objs : Forall2 chunked xs objs -> map wo_binsha objs = map sha_of xs.
  Proof. induction 1 as [|x o xs objs H _ IH]; [reflexivity|]. cbn [map]. rewrite IH. destruct x as [[[sha t] n] c]. destruct H as (_ & _ & -> & _). reflexivity. Qed.
  Lemma chunked_good xs objs : Forall2 chunked xs objs -> Forall (good_obj (fun c => c)) (map in_memory xs) -> Forall (good_obj (list_content pagesize)) objs.
  Proof.
    induction 1 as [|x o xs objs H _ IH]; intros Hg; [constructor|]. cbn [map] in Hg. inversion Hg as [|? ? H1 H2]; subst. constructor; [|now apply IH].
    destruct x as [[[sha t] n] c]. destruct H as (E1 & E2 & E3 & E4). unfold good_obj in *. rewrite E1, E2, E4. exact H1.
  Qed.
  Lemma chunked_back level ent x o : chunked x o -> reads_back L (list_content pagesize) level ent o -> reads_back L (fun c => c) level ent (in_memory x).
  Proof.
    destruct x as [[[sha t] n] c]. intros (E1 & E2 & E3 & E4) H. unfold reads_back in *. cbn [in_memory wo_stream wo_binsha wo_type]. rewrite E1, E3, E4 in H. exact H.
  Qed.

  Context (db : ldb) (base : path).
  (** A run that returned: the run of create, on objects that are as good as those in memory. *)
  Lemma create_loose_runs f level xs s0 pp s : wf s0 -> Forall (has_file K L db s0) xs -> Forall (size_right K O db s0) xs ->
    runs O (create_loose K sha1 pagesize f db base level (map sha_of xs)) s0 (Ok pp) s ->
    exists os objs, runs O (create_pack K sha1 pagesize (read f) f base level (map (to_write K) os) None) s0 (Ok pp) s /\
      Forall2 chunked xs objs /\ Forall2 (alike pagesize (read f) list_read) (map (to_write K) os) objs.
  Proof.
    intros Hw Hx Hz Hr. unfold create_loose in Hr. apply runs_bind in Hr as (r1 & s1 & R1 & R2).
    destruct (streams_opened f db s0 xs r1 s1 Hx R1) as (-> & Ho). destruct r1 as [os| |]; [|now destruct R2..]. specialize (Ho os eq_refl).
    destruct (create_alone K sha1 pagesize (read f) O Hshort base f level _ None s0 pp s Hw R2) as (ip & pack & idx & (psha & isha & name & iname & Ew & _) & _).
    cbn [j_level j_objs j_count] in Ew.
    destruct (write_pack_inv (K := K) sha1 pagesize (read f) f level _ None pack psha idx isha Ew) as (ps & ens & _ & _ & Hp & _).
    unfold count_of in Hp. unfold len in Hp. rewrite Nat2Z.id, firstn_all in Hp.
    destruct (opened_chunked f db s0 xs Hx Hz os Ho (parts_chunks _ _ _ _ _ _ Hp)) as (objs & H1 & H2). exists os, objs. easy.
  Qed.
  Lemma moved f level xs s0 pp s U m0 m e : wf s0 -> wf s -> Forall (has_file K L db s0) xs -> Forall (size_right K O db s0) xs ->
    Forall (good_obj (fun c => c)) (map in_memory xs) -> Forall sha_ok (map sha_of xs) -> NoDup (map sha_of xs) -> len xs <= 2 ^ 31 ->
    (forall n, packs_in (dir_at base m0 s0) n -> there U (dir_at base m0 s0) n) ->
    (forall n k, packs_in (dir_at base m0 s0) n -> base ++ [n] = pp -> U n = Some k -> incl (k_shas k) (map sha_of xs)) ->
    runs O (create_loose K sha1 pagesize f db base level (map sha_of xs)) s0 (Ok pp) s ->
    (forall pack, contents s pp = Some pack -> len pack < 2 ^ 64) -> proper_env e (dir_at base m s) ->
    let old sha := exists n k, packs_in (dir_at base m0 s0) n /\ U n = Some k /\ In sha (k_shas k) in
    (forall sha, sha_ok sha -> exists b, fst (PackDbModel.has_object e sha packed_init) = Ok b /\ (b = true <-> In sha (map sha_of xs) \/ old sha)) /\
    (forall x, In x xs -> (forall n k, packs_in (dir_at base m0 s0) n -> base ++ [n] <> pp -> U n = Some k -> ~ In (sha_of x) (k_shas k)) ->
       exists ent, reads_back L (fun c => c) level ent (in_memory x) /\
       (forall f, fst (PackDbModel.info K f e (sha_of x) packed_init) = entity_info K f ent (sha_of x)) /\
       (forall f, fst (PackDbModel.stream K f e (sha_of x) packed_init) = entity_stream K f ent (sha_of x))).
  Proof.
    intros Hw0 Hw Hx Hz Hg Hok Hnd Hn Hold Hsame Hr Hsize He old.
    destruct (create_loose_runs f level xs s0 pp s Hw0 Hx Hz Hr) as (os & objs & Hr' & Hc & Ha).
    pose proof (chunked_names _ _ Hc) as En. rewrite <- En in Hok, Hnd, Hsame |- *.
    assert (El : len objs = len xs) by (unfold len; now rewrite <- (map_length wo_binsha objs), En, map_length).
    destruct (created_found_as L sha1 Hsha pagesize Hps list_read (list_content pagesize) (list_chunk_reader pagesize Hps) O Hshort base (read f) (map (to_write K) os)
      f level objs s0 pp s U m0 m e) as (H1 & H2); try assumption.
    - intros v Hv. now rewrite <- (same_pack K sha1 pagesize _ _ f level None _ _ Ha).
    - now apply (chunked_good xs).
    - now rewrite El.
    - split; [exact H1|]. intros x Hin Hno.
      assert (Hex : exists o, In o objs /\ chunked x o).
      { clear - Hc Hin. induction Hc as [|y o xs objs Hy _ IH]; [easy|]. destruct Hin as [->|Hin]; [exists o; split; [now left|exact Hy]|].
        destruct (IH Hin) as (o' & I1 & I2). exists o'. split; [now right|exact I2]. }
      destruct Hex as (o & Ho & Hxo). assert (Eo : wo_binsha o = sha_of x) by (destruct x as [[[sha t] n] c]; now destruct Hxo as (_ & _ & -> & _)).
      destruct (H2 o Ho) as (ent & B1 & B2 & B3); [now rewrite Eo|]. rewrite Eo in B2, B3. exists ent. split; [now apply (chunked_back level ent x o)|]. now split.
  Qed.
  (** The files of the loose objects. *)
  Lemma not_object name sha : sha_ok sha -> (39 <= length name)%nat -> object_file (l_root db) sha <> base ++ [name].
  Proof.
    intros (Hl & _) Hn E. unfold object_file in E. change [firstn 2 (bin_to_hex sha); skipn 2 (bin_to_hex sha)] with ([firstn 2 (bin_to_hex sha)] ++ [skipn 2 (bin_to_hex sha)]) in E.
    rewrite app_assoc in E. apply app_inj_tail in E as [_ <-]. rewrite skipn_length in Hn. pose proof (bin_to_hex_len sha) as H. unfold len in *. lia.
  Qed.
  Lemma objects_stay f level xs s0 pp s : wf s0 -> Forall (has_file K L db s0) xs -> Forall (size_right K O db s0) xs ->
    runs O (create_loose K sha1 pagesize f db base level (map sha_of xs)) s0 (Ok pp) s ->
    forall sha, sha_ok sha -> contents s (object_file (l_root db) sha) = contents s0 (object_file (l_root db) sha).
  Proof.
    intros Hw Hx Hz Hr sha Hs. destruct (create_loose_runs f level xs s0 pp s Hw Hx Hz Hr) as (os & objs & Hr' & _).
    destruct (create_alone K sha1 pagesize (read f) O Hshort base f level _ None s0 pp s Hw Hr') as (ip & pack & idx & (psha & isha & name & iname & Ew & (-> & ->) & -> & ->) & _ & _ & Hrest).
    cbn [j_level j_objs j_count] in Ew.
    destruct (write_pack_inv (K := K) sha1 pagesize (read f) f level _ None pack psha idx isha Ew) as (ps & ens & _ & _ & _ & _ & _ & _ & Hl & _).
    pose proof (bin_to_hex_len psha) as H. apply Hrest; apply (not_object _ sha Hs); rewrite !app_length; cbn [length]; unfold len in *; lia.
  Qed.
End Move.
