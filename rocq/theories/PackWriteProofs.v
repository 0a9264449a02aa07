(** Writing packs and reading them back. *)
From Coq Require Import ZifyBool ZifyNat Sorting.Sorted Sorting.Permutation.
From Verif Require Import Py PyFacts FunModel FunSpec FunProofs ZlibModel ReaderModel StreamSpec ReaderProofs
  DeltaModel DeltaSpec DeltaReaderModel DeltaReaderProofs IndexModel IndexSpec IndexProofs IndexSearch Crc32 Crc32Proofs PackModel PackSpec SimProofs
  PackProofs PackChainProofs PackCheckProofs.
Ltac Zify.zify_post_hook ::= Z.div_mod_to_equations.

Section WriteAny.
  Context {K : zlib} (sha1 : bytes -> bytes) (pagesize : Z) (Hps : 0 < pagesize).
  Context {R : Type} (oread : R -> Z -> res (bytes * R)).
  Notation cs := (chunk_size pagesize).
  Notation wobj := (@wobj R).
  Notation creads := (chunks_read oread cs).

  (** ** One stream *)
  Definition finish (z5 : res (Z * Z * bytes * zc K * R)) : res (Z * Z * bytes) :=
    let! (br, crc, out, z, r) := z5 in
    let compressed := zc_flush K z in Ok (br, crc32 compressed crc, out ++ compressed).
  Lemma wstp_loop_chunks r chunks : creads r chunks -> forall fuel z br crc out, (length chunks <= fuel)%nat ->
    finish (wstp_loop K pagesize oread fuel r z br crc out) =
    Ok (br + len (concat chunks), crc32 (zc_all K z chunks) crc, out ++ zc_all K z chunks).
  Proof.
    induction 1 as [r c r' Hr Hc|r c r' l Hr Hc Hl IH]; intros fuel z br crc out Hf; (destruct fuel as [|fuel]; [cbn in Hf; lia|]);
      cbn [wstp_loop]; rewrite Hr; cbn [bind zc_all]; destruct (zc_compress K z c) as [o z'].
    - replace (len c =? cs) with false by lia. cbn [negb finish bind zc_all concat]. rewrite app_nil_r, crc32_app, app_assoc. reflexivity.
    - replace (len c =? cs) with true by lia. cbn [negb]. rewrite IH by (cbn in Hf; lia). cbn [concat]. rewrite len_app, crc32_app, app_assoc, Z.add_assoc. reflexivity.
  Qed.
  Lemma wstp_chunks r chunks z base fuel : creads r chunks -> (length chunks <= fuel)%nat ->
    write_stream_to_pack K pagesize oread fuel r z base = Ok (len (concat chunks), crc32 (zc_all K z chunks) base, zc_all K z chunks).
  Proof. intros H Hf. pose proof (wstp_loop_chunks r chunks H fuel z 0 base [] Hf) as E. exact E. Qed.
  Lemma wstp_loop_inv : forall fuel r z br crc out br' crc' out' z' r',
    wstp_loop K pagesize oread fuel r z br crc out = Ok (br', crc', out', z', r') -> exists chunks, creads r chunks /\ (length chunks <= fuel)%nat.
  Proof.
    induction fuel as [|fuel IH]; intros r z br crc out br' crc' out' z' r' H; [discriminate|]. cbn [wstp_loop] in H.
    apply bind_ok_inv in H as ([c r1] & H1 & H). destruct (zc_compress K z c) as [o z1].
    destruct (len c =? cs) eqn:E; cbn [negb] in H.
    - destruct (IH _ _ _ _ _ _ _ _ _ _ H) as (l & Hl & Hn). exists (c :: l). split; [apply (cr_more _ _ _ _ r1); [exact H1|lia|exact Hl]|cbn; lia].
    - exists [c]. split; [apply (cr_last _ _ _ _ r1); [exact H1|lia]|cbn; lia].
  Qed.
  Lemma wstp_inv fuel r z base v : write_stream_to_pack K pagesize oread fuel r z base = Ok v -> exists chunks,
    creads r chunks /\ v = (len (concat chunks), crc32 (zc_all K z chunks) base, zc_all K z chunks).
  Proof.
    intros H. pose proof H as H0. unfold write_stream_to_pack in H0. apply bind_ok_inv in H0 as ([[[[br crc] out] z'] r'] & H1 & _).
    destruct (wstp_loop_inv _ _ _ _ _ _ _ _ _ _ _ H1) as (chunks & Hc & Hn). exists chunks. split; [exact Hc|].
    rewrite (wstp_chunks _ _ _ _ _ Hc Hn) in H. congruence.
  Qed.

  (** ** One object *)
  (** What is written for an object: header and compressed data; its index entry. *)
  Definition part_of (level ofs : Z) (o : wobj) (part : bytes) (en : ientry) : Prop :=
    exists t hdr chunks, type_to_type_id (wo_type o) = Ok t /\ create_pack_object_header t (wo_size o) = Ok hdr /\
      creads (wo_stream o) chunks /\ len (concat chunks) = wo_size o /\
      part = hdr ++ zc_all K (zc_new K level) chunks /\ en = (wo_binsha o, crc32 part 0, ofs).
  Lemma write_one_inv fuel level o ofs d en : write_one K pagesize oread fuel level o ofs = Ok (d, en) -> part_of level ofs o d en.
  Proof.
    unfold write_one. intros H. apply bind_ok_inv in H as (t & Ht & H). apply bind_ok_inv in H as (hdr & Hh & H).
    apply bind_ok_inv in H as ([[br crc] out] & Hw & H). destruct (wstp_inv _ _ _ _ _ Hw) as (chunks & Hc & E).
    unfold py_assert in H. destruct (br =? wo_size o) eqn:Eb; [|discriminate].
    exists t, hdr, chunks. injection E as -> -> ->. assert (len (concat chunks) = wo_size o) by lia.
    assert (d = hdr ++ zc_all K (zc_new K level) chunks) as -> by congruence. rewrite crc32_app.
    repeat (split; [first [assumption|reflexivity]|]). congruence.
  Qed.
  Lemma write_one_ok level o ofs d en : part_of level ofs o d en ->
    exists f0, forall f, (f0 <= f)%nat -> write_one K pagesize oread f level o ofs = Ok (d, en).
  Proof.
    intros (t & hdr & chunks & Ht & Hh & Hc & Hl & -> & ->). exists (length chunks). intros f Hf. unfold write_one. rewrite Ht. cbn [bind]. rewrite Hh. cbn [bind].
    rewrite (wstp_chunks _ _ _ _ _ Hc Hf). cbn [bind]. unfold py_assert. rewrite Hl, Z.eqb_refl, crc32_app. reflexivity.
  Qed.
  Lemma write_one_bad level o ofs t hdr chunks : type_to_type_id (wo_type o) = Ok t -> create_pack_object_header t (wo_size o) = Ok hdr ->
    creads (wo_stream o) chunks -> len (concat chunks) <> wo_size o ->
    exists f0, forall f, (f0 <= f)%nat -> write_one K pagesize oread f level o ofs = Raise AssertionError.
  Proof.
    intros Ht Hh Hc Hl. exists (length chunks). intros f Hf. unfold write_one. rewrite Ht. cbn [bind]. rewrite Hh. cbn [bind].
    rewrite (wstp_chunks _ _ _ _ _ Hc Hf). cbn [bind]. unfold py_assert. replace (_ =? _) with false by lia. reflexivity.
  Qed.

  (** ** The loop *)
  Inductive parts (level : Z) : Z -> list wobj -> list bytes -> list ientry -> Prop :=
  | parts_nil ofs : parts level ofs [] [] []
  | parts_cons ofs o objs p ps en ens : part_of level ofs o p en -> parts level (ofs + len p) objs ps ens ->
      parts level ofs (o :: objs) (p :: ps) (en :: ens).
  Lemma parts_len level ofs objs ps ens : parts level ofs objs ps ens -> len ps = len objs /\ len ens = len objs.
  Proof. induction 1 as [|? ? ? ? ? ? ? ? ? [IH1 IH2]]; [now rewrite !len_nil|]. rewrite !len_cons. lia. Qed.
  Lemma write_objs_inv level count : forall objs fuel actual ofs d ens n, 0 <= actual ->
    write_objs K pagesize oread fuel level objs count actual ofs = Ok (d, ens, n) ->
    exists ps, d = concat ps /\ parts level ofs (firstn (Z.to_nat (n - actual)) objs) ps ens /\ actual <= n /\ n - actual <= len objs.
  Proof.
    induction objs as [|o objs IH]; intros fuel actual ofs d ens n Ha H; cbn [write_objs] in H.
    - assert (d = []) as -> by congruence. assert (ens = []) as -> by congruence. assert (n = actual) as -> by congruence.
      exists []. rewrite Z.sub_diag, len_nil. repeat split; [constructor|lia|lia].
    - apply bind_ok_inv in H as ([p en] & Hp & H). pose proof (write_one_inv _ _ _ _ _ _ Hp) as Hpart. rewrite len_cons. pose proof (len_nonneg _ objs).
      destruct (actual + 1 =? count).
      + assert (d = p) as -> by congruence. assert (ens = [en]) as -> by congruence. assert (n = actual + 1) as -> by congruence.
        exists [p]. cbn [concat]. rewrite app_nil_r. split; [reflexivity|]. replace (Z.to_nat (actual + 1 - actual)) with 1%nat by lia. cbn [firstn].
        split; [constructor; [exact Hpart|constructor]|lia].
      + apply bind_ok_inv in H as ([[d' ens'] n'] & Hr & H).
        assert (d = p ++ d') as -> by congruence. assert (ens = en :: ens') as -> by congruence. assert (n' = n) as -> by congruence.
        assert (0 <= actual + 1) as Ha1 by lia. destruct (IH _ _ _ _ _ _ Ha1 Hr) as (ps & -> & Hps' & H1 & H2). exists (p :: ps). split; [reflexivity|].
        replace (Z.to_nat (n - actual)) with (S (Z.to_nat (n - (actual + 1)))) by lia. cbn [firstn]. split; [now constructor|lia].
  Qed.
  Lemma write_objs_ok level count : forall objs ofs ps ens, parts level ofs objs ps ens -> forall actual rest,
    actual + len objs <= count -> (rest = [] \/ (actual + len objs = count /\ objs <> [])) ->
    exists f0, forall f, (f0 <= f)%nat -> write_objs K pagesize oread f level (objs ++ rest) count actual ofs = Ok (concat ps, ens, actual + len objs).
  Proof.
    induction 1 as [ofs|ofs o objs p ps en ens Hp Hr IH]; intros actual rest Hc Hrest.
    - destruct Hrest as [->|[_ Hrest]]; [|easy]. exists O. intros f _. cbn [app write_objs concat]. rewrite len_nil, Z.add_0_r. reflexivity.
    - destruct (write_one_ok _ _ _ _ _ Hp) as (f1 & H1). rewrite len_cons in *. pose proof (len_nonneg _ objs).
      destruct (Z.eq_dec (actual + 1) count) as [E|E].
      + assert (objs = []) as -> by (apply len_0_nil; lia). inversion Hr; subst ps ens.
        exists f1. intros f Hf. cbn [app write_objs]. rewrite H1 by exact Hf. cbn [bind]. rewrite E, Z.eqb_refl. cbn [concat]. rewrite app_nil_r, len_nil.
        rewrite <- E. reflexivity.
      + destruct (IH (actual + 1) rest) as (f2 & H2); [lia| |].
        { destruct Hrest as [->|[Hr1 _]]; [now left|right]. split; [lia|]. intros ->. rewrite len_nil in Hr1. lia. }
        exists (Nat.max f1 f2). intros f Hf. cbn [app write_objs]. rewrite H1 by lia. cbn [bind]. replace (actual + 1 =? count) with false by lia.
        rewrite H2 by lia. cbn [bind concat]. replace (actual + 1 + len objs) with (actual + (len objs + 1)) by lia. reflexivity.
  Qed.
  Lemma write_objs_bad level count o rest e : forall objs ofs ps ens, parts level ofs objs ps ens -> forall actual, actual + len objs < count ->
    (forall ofs, exists f0, forall f, (f0 <= f)%nat -> write_one K pagesize oread f level o ofs = Raise e) ->
    exists f0, forall f, (f0 <= f)%nat -> write_objs K pagesize oread f level (objs ++ o :: rest) count actual ofs = Raise e.
  Proof.
    induction 1 as [ofs|ofs o1 objs p ps en ens Hp Hr IH]; intros actual Hc Hbad.
    - destruct (Hbad ofs) as (f0 & H0). exists f0. intros f Hf. cbn [app write_objs]. now rewrite H0.
    - destruct (write_one_ok _ _ _ _ _ Hp) as (f1 & H1). rewrite len_cons in *. pose proof (len_nonneg _ objs).
      destruct (IH (actual + 1) ltac:(lia) Hbad) as (f2 & H2). exists (Nat.max f1 f2). intros f Hf. cbn [app write_objs].
      rewrite H1 by lia. cbn [bind]. replace (actual + 1 =? count) with false by lia. now rewrite H2 by lia.
  Qed.

  (** ** C30 *)
  Definition count_of (objs : list wobj) (object_count : option Z) : Z :=
    match object_count with None => len objs | Some n => if n =? 0 then len objs else n end.
  Lemma write_pack_inv fuel level objs oc pack psha idx isha :
    write_pack K sha1 pagesize oread fuel level objs oc = Ok (pack, psha, idx, isha) ->
    let count := count_of objs oc in
    exists ps ens, 0 <= count <= len objs /\ count < 2 ^ 32 /\ parts level 12 (firstn (Z.to_nat count) objs) ps ens /\
      len ps = count /\ psha = sha1 (pack_head count ++ concat ps) /\ pack = (pack_head count ++ concat ps) ++ psha /\
      len psha = 20 /\ index_write sha1 ens psha = Ok (idx, isha).
  Proof.
    intros H count. unfold write_pack in H. fold (count_of objs oc) in H. fold count in H. cbv zeta in H.
    apply bind_ok_inv in H as (cnt & Hcnt & H). unfold pack_L in Hcnt. apply pack_be_ok in Hcnt as [-> Hcnt].
    change (256 ^ Z.of_nat 4) with (2 ^ 32) in Hcnt.
    apply bind_ok_inv in H as ([[d ens] actual] & Ho & H).
    destruct (Z.eqb_spec actual count) as [->|]; cbn [negb] in H; [|discriminate].
    unfold py_assert in H. destruct (len (sha1 _) =? 20) eqn:E20; [|discriminate].
    apply bind_ok_inv in H as ([idx' isha'] & Hi & H).
    destruct (write_objs_inv _ _ _ _ _ _ _ _ _ (Z.le_refl 0) Ho) as (ps & -> & Hps' & H1 & H2). rewrite Z.sub_0_r in *.
    exists ps, ens. change (be_enc 4 1346454347 ++ be_enc 4 2 ++ be_enc 4 count) with (pack_head count) in *.
    split; [lia|]. split; [lia|]. split; [exact Hps'|]. split.
    { destruct (parts_len _ _ _ _ _ Hps') as [-> _]. rewrite len_firstn. lia. }
    assert (psha = sha1 (pack_head count ++ concat ps)) as -> by congruence.
    split; [reflexivity|]. split; [congruence|]. split; [lia|]. congruence.
  Qed.
  Lemma write_pack_few level objs oc ps ens : parts level 12 objs ps ens -> len objs < count_of objs oc < 2 ^ 32 ->
    evaluates (fun f => write_pack K sha1 pagesize oread f level objs oc) (Raise ValueError).
  Proof.
    intros Hp Hc. destruct (write_objs_ok level (count_of objs oc) _ _ _ _ Hp 0 [] ltac:(lia) (or_introl eq_refl)) as (f0 & H0).
    exists f0. intros f Hf. unfold write_pack. fold (count_of objs oc). cbv zeta. pose proof (len_nonneg _ objs).
    unfold pack_L. rewrite pack_be_range by (change (256 ^ Z.of_nat 4) with (2 ^ 32); lia). cbn [bind].
    specialize (H0 f Hf). rewrite app_nil_r in H0. rewrite H0. cbn [bind]. replace (0 + len objs =? count_of objs oc) with false by lia. reflexivity.
  Qed.
  Lemma write_pack_bad level objs o rest oc ps ens t hdr chunks : parts level 12 objs ps ens ->
    len objs < count_of (objs ++ o :: rest) oc < 2 ^ 32 ->
    type_to_type_id (wo_type o) = Ok t -> create_pack_object_header t (wo_size o) = Ok hdr ->
    creads (wo_stream o) chunks -> len (concat chunks) <> wo_size o ->
    evaluates (fun f => write_pack K sha1 pagesize oread f level (objs ++ o :: rest) oc) (Raise AssertionError).
  Proof.
    intros Hp Hc Ht Hh Hr Hl. destruct (write_objs_bad level (count_of (objs ++ o :: rest) oc) o rest AssertionError _ _ _ _ Hp 0 ltac:(lia)) as (f0 & H0).
    { intros ofs. now apply (write_one_bad level o ofs t hdr chunks). }
    exists f0. intros f Hf. unfold write_pack. fold (count_of (objs ++ o :: rest) oc). cbv zeta. pose proof (len_nonneg _ objs).
    unfold pack_L. rewrite pack_be_range by (change (256 ^ Z.of_nat 4) with (2 ^ 32); lia). cbn [bind]. rewrite H0 by exact Hf. reflexivity.
  Qed.
  (** Termination and success *)
  Lemma write_pack_ok level objs rest oc ps ens : (forall d, len (sha1 d) = 20) -> parts level 12 objs ps ens ->
    len objs = count_of (objs ++ rest) oc -> len objs < 2 ^ 32 -> (objs = [] -> rest = []) ->
    exists f0, forall f, (f0 <= f)%nat ->
    write_pack K sha1 pagesize oread f level (objs ++ rest) oc =
      let psha := sha1 (pack_head (len objs) ++ concat ps) in
      let! (idx, isha) := index_write sha1 ens psha in Ok ((pack_head (len objs) ++ concat ps) ++ psha, psha, idx, isha).
  Proof.
    intros Hsha Hp Hc Hn Hnil. destruct (write_objs_ok level (count_of (objs ++ rest) oc) _ _ _ _ Hp 0 rest ltac:(lia)) as (f0 & H0).
    { destruct objs as [|o objs]; [left; apply Hnil; reflexivity|right]. split; [rewrite Z.add_0_l; exact Hc|discriminate]. }
    exists f0. intros f Hf. unfold write_pack. fold (count_of (objs ++ rest) oc). cbv zeta. pose proof (len_nonneg _ objs).
    unfold pack_L. rewrite pack_be_range by (change (256 ^ Z.of_nat 4) with (2 ^ 32); lia). cbn [bind]. rewrite H0 by exact Hf. cbn [bind].
    rewrite Z.add_0_l, Hc, Z.eqb_refl. cbn [negb]. unfold py_assert. rewrite Hsha. cbn [Z.eqb Pos.eqb]. reflexivity.
  Qed.
End WriteAny.

(** Reading in chunks to the first that is not full. *)
Lemma chunks_unique R (oread : R -> Z -> res (bytes * R)) n r l1 l2 : chunks_read oread n r l1 -> chunks_read oread n r l2 -> l1 = l2.
Proof.
  intros H. revert l2. induction H as [r c r' Hr Hc|r c r' l Hr Hc Hl IH]; intros l2 H2; inversion H2 as [? c2 r2 H3 H4|? c2 r2 l' H3 H4 H5]; subst;
    rewrite H3 in Hr; injection Hr as -> ->; try easy. f_equal. now apply IH.
Qed.
Arguments chunks_unique {R}.
(** All that the proofs use of the reader: what reading in chunks gives. *)
Definition chunk_reader {R} (pagesize : Z) (oread : R -> Z -> res (bytes * R)) (content : R -> bytes) : Prop :=
  forall r, exists chunks, chunks_read oread (chunk_size pagesize) r chunks /\ concat chunks = content r.
Section Reader.
  Context (pagesize : Z) (Hps : 0 < pagesize) {R : Type} (oread : R -> Z -> res (bytes * R)) (content : R -> bytes) (Hrd : stream_reader oread content).
  Notation cs := (chunk_size pagesize).
  Notation creads := (chunks_read oread cs).
  Lemma reader_chunks_exist : forall n r, (length (content r) <= n)%nat -> exists chunks, creads r chunks.
  Proof.
    assert (0 < cs) as Hcs by (unfold chunk_size; lia).
    induction n as [|n IH]; intros r Hn; destruct (Hrd r cs (or_introl Hcs)) as (r' & H1 & H2).
    - exists [firstn (Z.to_nat cs) (content r)]. apply (cr_last _ _ _ _ r'); [exact H1|]. rewrite len_firstn. unfold len. lia.
    - destruct (Z.eq_dec (len (firstn (Z.to_nat cs) (content r))) cs) as [E|E].
      + destruct (IH r') as (l & Hl).
        { rewrite H2, skipn_length. rewrite len_firstn in E. unfold len in E. lia. }
        exists (firstn (Z.to_nat cs) (content r) :: l). apply (cr_more _ _ _ _ r'); [exact H1|exact E|exact Hl].
      + exists [firstn (Z.to_nat cs) (content r)]. apply (cr_last _ _ _ _ r'); [exact H1|exact E].
  Qed.
  Lemma reader_chunks_concat r chunks : creads r chunks -> concat chunks = content r.
  Proof.
    assert (0 < cs) as Hcs by (unfold chunk_size; lia).
    induction 1 as [r c r' Hr Hc|r c r' l Hr Hc Hl IH]; destruct (Hrd r cs (or_introl Hcs)) as (r1 & H1 & H2).
    - assert (c = firstn (Z.to_nat cs) (content r)) as -> by congruence. cbn [concat]. rewrite app_nil_r. rewrite len_firstn in Hc.
      apply firstn_all2. unfold len in Hc. lia.
    - assert (c = firstn (Z.to_nat cs) (content r)) as -> by congruence. assert (r1 = r') as -> by congruence. cbn [concat]. rewrite IH, H2. apply firstn_skipn.
  Qed.
  Lemma reader_chunks : chunk_reader pagesize oread content.
  Proof.
    intros r. destruct (reader_chunks_exist _ r (Nat.le_refl _)) as (l & H). exists l. split; [exact H|now apply reader_chunks_concat].
  Qed.
End Reader.

Section WriteRead.
  Context {K : zlib} (L : zlib_laws K) (sha1 : bytes -> bytes) (Hsha : forall d, len (sha1 d) = 20) (pagesize : Z) (Hps : 0 < pagesize).
  Context {R : Type} (oread : R -> Z -> res (bytes * R)) (content : R -> bytes) (Hrd : chunk_reader pagesize oread content).
  Notation cs := (chunk_size pagesize).
  Notation wobj := (@wobj R).
  Notation creads := (chunks_read oread cs).

  Notation good_obj := (good_obj content).
  Notation entry_for := (entry_for (K := K) content).
  Notation reads_back := (reads_back L content).
  Notation missing_objects := (missing_objects (K := K)).

  Lemma chunks_exist r : exists chunks, creads r chunks.
  Proof. destruct (Hrd r) as (l & H & _). now exists l. Qed.
  Lemma chunks_concat r chunks : creads r chunks -> concat chunks = content r.
  Proof. intros H. destruct (Hrd r) as (l & H1 & <-). now rewrite (chunks_unique oread cs r chunks l H H1). Qed.
  Lemma concat_bytes (l : list bytes) : is_bytes (concat l) -> Forall is_bytes l.
  Proof. induction l as [|x l IH]; cbn [concat]; intros H; constructor; apply is_bytes_app in H as [H1 H2]; [exact H1|now apply IH]. Qed.

  (** The entry for an object *)
  Lemma type_back t n : In t [1; 2; 3; 4] -> type_id_to_type t = Ok n -> type_to_type_id n = Ok t.
  Proof.
    intros Ht Hn. destruct (type_ids_inverse t) as (n' & H1 & H2); [cbn in *; tauto|]. assert (n' = n) as <- by congruence. exact H2.
  Qed.
  Lemma part_exists level ofs o : good_obj o -> exists p en, part_of (K := K) pagesize oread level ofs o p en.
  Proof.
    intros (t & Ht & Hn & Hs & Hb). destruct (chunks_exist (wo_stream o)) as (chunks & Hc).
    destruct (create_pack_object_header_ok t (wo_size o)) as (hdr & Hh & _); [cbn in Ht; lia|rewrite Hs; apply len_nonneg|].
    eexists _, _. exists t, hdr, chunks. split; [now apply type_back|]. split; [exact Hh|]. split; [exact Hc|].
    split; [rewrite Hs; f_equal; now apply chunks_concat|]. split; reflexivity.
  Qed.
  Lemma parts_exist level objs : Forall good_obj objs -> forall ofs, exists ps ens, parts (K := K) pagesize oread level ofs objs ps ens.
  Proof.
    induction 1 as [|o objs Ho _ IH]; intros ofs; [exists [], []; constructor|].
    destruct (part_exists level ofs o Ho) as (p & en & Hp). destruct (IH (ofs + len p)) as (ps & ens & Hr). exists (p :: ps), (en :: ens). now constructor.
  Qed.
  Lemma part_entry level ofs o p en : good_obj o -> part_of (K := K) pagesize oread level ofs o p en ->
    exists e hdr z, entry_bytes L e hdr z /\ p = hdr ++ z /\ entry_for level o e /\ en = (wo_binsha o, crc32 p 0, ofs) /\ 0 < len p /\ is_bytes p.
  Proof.
    intros (t & Ht & Hn & Hs & Hb) (t' & hdr & chunks & Ht' & Hh & Hc & Hl & Ep & Een).
    assert (t' = t) as -> by (rewrite (type_back t _ Ht Hn) in Ht'; congruence).
    pose proof (chunks_concat _ _ Hc) as Econ.
    destruct (create_pack_object_header_ok t (wo_size o)) as (hdr' & Hh' & Hph); [cbn in Ht; lia|rewrite Hs; apply len_nonneg|].
    assert (hdr' = hdr) as -> by congruence. set (z := zc_all K (zc_new K level) chunks) in *.
    assert (zl_stream L z (content (wo_stream o))) as Hz.
    { rewrite <- Econ. apply (zl_compress K L). apply concat_bytes. rewrite Econ. exact Hb. }
    exists (mk_pentry t NoDelta (content (wo_stream o)) z), hdr, z.
    assert (entry_bytes L (mk_pentry t NoDelta (content (wo_stream o)) z) hdr z) as He by (constructor; [exact Ht|now rewrite <- Hs|exact Hz]).
    split; [exact He|]. split; [exact Ep|]. split.
    { unfold entry_for. cbn [pn_type pn_delta pn_data pn_z]. repeat (split; [easy|]). exists chunks. now split. }
    split; [exact Een|]. destruct (entry_fields L _ _ _ He) as (_ & _ & Hhl & _). split.
    - rewrite Ep, len_app. pose proof (len_nonneg _ z). lia.
    - rewrite Ep. apply is_bytes_app. split; [apply (pack_header_bytes t _ (wo_size o)); [cbn in Ht; lia|exact Hph]|]. apply (zl_bytes K L _ _ Hz).
  Qed.
  Lemma parts_entries level ofs objs ps ens : Forall good_obj objs -> parts (K := K) pagesize oread level ofs objs ps ens ->
    is_bytes (concat ps) /\
    exists es, entries L ofs es (concat ps) (ofs + len (concat ps)) /\ Forall2 (fun o p => entry_for level o (snd p)) objs es.
  Proof.
    intros Hg Hp. induction Hp as [ofs|ofs o objs p ps en ens Hp Hr IH].
    - split; [constructor|]. exists []. cbn [concat]. rewrite len_nil, Z.add_0_r. split; constructor.
    - inversion Hg as [|? ? Ho Hg']; subst. destruct (IH Hg') as (Hb & es & He & HF). destruct (part_entry _ _ _ _ _ Ho Hp) as (e & hdr & z & Hbb & Ep & Hfor & _ & _ & Hpb).
      split; [cbn [concat]; now apply is_bytes_app|].
      exists ((ofs, e) :: es). split; [|constructor; [exact Hfor|exact HF]]. cbn [concat]. rewrite Ep, <- app_assoc. apply es_cons; [exact Hbb|].
      rewrite Ep, len_app in He. rewrite !len_app. replace (ofs + len hdr + len z) with (ofs + (len hdr + len z)) by lia.
      replace (ofs + (len hdr + (len z + len (concat ps)))) with (ofs + (len hdr + len z) + len (concat ps)) by lia. exact He.
  Qed.
  Lemma parts_ofs level ofs objs ps ens : Forall good_obj objs -> parts (K := K) pagesize oread level ofs objs ps ens ->
    map e_sha ens = map wo_binsha objs /\ Forall (fun en => ofs <= e_ofs en <= ofs + len (concat ps)) ens /\
    match ens with [] => concat ps = [] | en :: _ => e_ofs en = ofs end.
  Proof.
    intros Hg Hp. induction Hp as [ofs|ofs o objs p ps en ens Hp Hr IH]; [now repeat split|].
    inversion Hg as [|? ? Ho Hg']; subst. destruct (IH Hg') as (E & HF & _). destruct (part_entry _ _ _ _ _ Ho Hp) as (e & hdr & z & _ & _ & _ & -> & Hl & _).
    cbn [map e_sha fst]. split; [now f_equal|]. cbn [concat]. rewrite len_app. pose proof (len_nonneg _ (concat ps)). split; [|reflexivity]. constructor; [unfold e_ofs; cbn [snd]; lia|].
    eapply Forall_impl; [|exact HF]. cbv beta. intros; lia.
  Qed.
  Lemma parts_end level ofs objs ps ens : Forall good_obj objs -> parts (K := K) pagesize oread level ofs objs ps ens ->
    forall o, In o objs -> exists en pre hdr z post e, In en ens /\ concat ps = pre ++ (hdr ++ z) ++ post /\
      en = (wo_binsha o, crc32 (hdr ++ z) 0, ofs + len pre) /\ entry_bytes L e hdr z /\ entry_for level o e /\
      is_bytes (hdr ++ z) /\ 0 < len (hdr ++ z) /\
      object_end (map e_ofs ens) (ofs + len (concat ps)) (ofs + len pre) (ofs + len pre + len (hdr ++ z)).
  Proof.
    intros Hg Hp. induction Hp as [ofs|ofs o objs p ps en ens Hp Hr IH]; intros o' Hin; [easy|].
    inversion Hg as [|? ? Ho Hg']; subst. destruct (part_entry _ _ _ _ _ Ho Hp) as (e & hdr & z & Hbb & Ep & Hfor & Een & Hl & Hpb).
    destruct (parts_ofs _ _ _ _ _ Hg' Hr) as (_ & HF & Hhd). rewrite Forall_forall in HF.
    destruct Hin as [<-|Hin].
    - exists en, [], hdr, z, (concat ps), e. rewrite len_nil, Z.add_0_r. split; [now left|]. split; [cbn [concat app]; now rewrite Ep|].
      split; [now rewrite Een, Ep|]. split; [exact Hbb|]. split; [exact Hfor|]. rewrite <- Ep. split; [exact Hpb|]. split; [exact Hl|].
      destruct ens as [|en2 ens].
      + right. split; [|cbn [concat]; rewrite Hhd, app_nil_r; reflexivity]. intros x [<-|[]]. rewrite Een. unfold e_ofs. cbn [snd]. lia.
      + left. split; [lia|]. split; [right; left; exact Hhd|]. intros x [<-|Hx]; [left; rewrite Een; unfold e_ofs; cbn [snd]; lia|right].
        apply in_map_iff in Hx as (y & <- & Hy). specialize (HF y Hy). lia.
    - destruct (IH Hg' _ Hin) as (en' & pre & hdr' & z' & post & e' & H1 & H2 & H3 & H4 & H5 & H6 & H7 & H8).
      exists en', (p ++ pre), hdr', z', post, e'. pose proof (HF _ H1) as Hofs. rewrite H3 in Hofs. unfold e_ofs in Hofs. cbn [snd] in Hofs.
      cbn [concat]. rewrite H2. rewrite H2 in H8. rewrite !(len_app _ p). rewrite !Z.add_assoc.
      split; [now right|]. split; [now rewrite <- !app_assoc|]. split; [exact H3|]. split; [exact H4|]. split; [exact H5|]. split; [exact H6|]. split; [exact H7|].
      destruct H8 as [(A & B & C)|(A & B)].
      + left. split; [exact A|]. split; [now right|]. intros x [<-|Hx]; [left; rewrite Een; unfold e_ofs; cbn [snd]; lia|now apply C].
      + right. split; [|exact B]. intros x [<-|Hx]; [rewrite Een; unfold e_ofs; cbn [snd]; lia|now apply A].
  Qed.

  (** ** The index *)
  Lemma sorted_strict l : Forall sha_ok l -> StronglySorted sha_le l -> NoDup l -> strictly_sorted_shas l.
  Proof.
    intros Hok Hs Hn. split; [exact Hok|]. clear Hok. induction Hs as [|a l Hs IH Hall]; constructor.
    - apply IH. now inversion Hn.
    - inversion Hn as [|? ? Hni Hn']; subst. apply Forall_forall. intros b Hb. rewrite Forall_forall in Hall. specialize (Hall b Hb).
      unfold sha_lt. apply blt_total; [exact Hall|]. apply beq_neq. intros ->. easy.
  Qed.
  Lemma in_index_map {A} (l : list A) x : In x l -> exists i, 0 <= i /\ index l i = Ok x.
  Proof.
    intros H. apply in_split in H as (a & b & ->). exists (len a). split; [apply len_nonneg|]. now apply index_app.
  Qed.
  Lemma index_map {A B} (f : A -> B) (l : list A) i x : 0 <= i -> index l i = Ok x -> index (map f l) i = Ok (f x).
  Proof.
    intros Hi H. apply index_ok_split in H as (a & b & -> & Hl); [|exact Hi]. rewrite map_app. cbn [map]. apply index_app. rewrite len_map. congruence.
  Qed.
  Record indexed (ens : list ientry) (idx : bytes) (ix : pidx) (s : list ientry) : Prop := {
    id_perm : Permutation ens s;
    id_open : index_open idx = Ok ix;
    id_sort : strictly_sorted_shas (map e_sha s);
    id_ans : answers ix (map e_sha s) (map e_ofs s);
    id_file : exists crcs, index_file 2 (map e_sha s) crcs (map e_ofs s) idx;
    id_small : Forall (fun e => 0 <= e_ofs e < 2 ^ 31) ens ->
      exists trailer, idx = v2_file (map e_sha s) (map (fun e => e_crc e mod 2 ^ 32) s) (map e_ofs s) [] trailer }.
  Lemma index_written ens psha : Forall (fun e => sha_ok (e_sha e) /\ 0 <= e_ofs e < 2 ^ 64) ens -> len psha = 20 ->
    NoDup (map e_sha ens) -> len ens <= 2 ^ 31 ->
    exists idx isha ix s, index_write sha1 ens psha = Ok (idx, isha) /\ indexed ens idx ix s.
  Proof.
    intros Hens Hp Hnd Hn.
    destruct (index_write_ok sha1 ens psha Hsha Hens Hp) as (s & raw & Hperm & Hsort & Hr & Hw).
    { change (2 ^ 31) with 2147483648 in *. change (2 ^ 32) with 4294967296. lia. }
    { rewrite <- (len_map _ _ e_ofs) in Hn. apply Z.le_trans with (2 := Hn). unfold len. apply inj_le. generalize (map e_ofs ens). clear. induction l as [|x l IH]; cbn [filter length]; [lia|].
      destruct (is_large x); cbn [length]; lia. }
    cbv zeta in Hr, Hw. set (big := filter is_large (map e_ofs s)) in *.
    set (crcs := map (fun e => e_crc e mod 2 ^ 32) s) in *.
    assert (Forall (fun e => sha_ok (e_sha e) /\ 0 <= e_ofs e < 2 ^ 64) s) as Hs by now apply (Permutation_Forall Hperm).
    set (body := v2_file (map e_sha s) crcs raw big psha) in *.
    assert (body ++ sha1 body = v2_file (map e_sha s) crcs raw big (psha ++ sha1 body)) as E.
    { unfold body at 1. unfold v2_file. now rewrite <- !app_assoc. }
    assert (index_file 2 (map e_sha s) crcs (map e_ofs s) (body ++ sha1 body)) as Hfile.
    { rewrite E. constructor.
      - rewrite Forall_map. eapply Forall_impl; [|exact Hs]. now intros e [].
      - unfold crcs. now rewrite !map_length.
      - unfold crcs. rewrite Forall_map. apply Forall_forall. intros e _. apply Z.mod_pos_bound. reflexivity.
      - exact Hr.
      - now rewrite !map_length.
      - apply Forall_forall. intros o Hin. apply filter_In in Hin as [Hin _]. apply in_map_iff in Hin as (e & <- & Hin).
        rewrite Forall_forall in Hs. now apply Hs.
      - rewrite len_map. unfold len in *. rewrite <- (Permutation_length Hperm). change (2 ^ 31) with 2147483648 in *. change (2 ^ 32) with 4294967296. lia. }
    assert (strictly_sorted_shas (map e_sha s)) as Hstr.
    { apply sorted_strict; [rewrite Forall_map; eapply Forall_impl; [|exact Hs]; now intros e []|exact Hsort|].
      apply (Permutation_NoDup (Permutation_map e_sha Hperm) Hnd). }
    destruct (open_file _ _ _ _ _ Hfile) as (ix & Hop & _).
    exists (body ++ sha1 body), (sha1 body), ix, s. split; [exact Hw|]. constructor; [exact Hperm|exact Hop|exact Hstr| |now exists crcs|].
    - exact (index_answers _ _ _ _ _ _ Hfile Hstr Hop).
    - intros Hsm. apply (Permutation_Forall Hperm) in Hsm. exists (psha ++ sha1 body). rewrite E. unfold crcs.
      assert (big = []) as ->.
      { unfold big. clear - Hsm. induction Hsm as [|e s He _ IH]; cbn [map filter]; [reflexivity|]. unfold is_large at 1. change (2 ^ 31) with 2147483648 in He.
        replace (2147483647 <? e_ofs e) with false by lia. exact IH. }
      assert (raw = map e_ofs s) as ->; [|reflexivity].
      clear - Hr. induction Hr as [|a b l l' Hab _ IH]; [reflexivity|]. f_equal; [|exact IH]. destruct Hab as [[_ ->]|(k & _ & _ & Hk)]; [reflexivity|]. destruct k; discriminate.
  Qed.
  Lemma indexed_found ens idx ix s en : indexed ens idx ix s -> In en ens -> exists i, 0 <= i /\ index s i = Ok en /\
    index (map e_sha s) i = Ok (e_sha en) /\ index (map e_ofs s) i = Ok (e_ofs en).
  Proof.
    intros Hx Hin. apply (Permutation_in _ (id_perm _ _ _ _ Hx)) in Hin. destruct (in_index_map _ _ Hin) as (i & Hi & H). exists i.
    split; [exact Hi|]. split; [exact H|]. split; now apply index_map.
  Qed.

  (** ** Reading one object back *)
  Definition raises_struct {A} (v : res A) : Prop := v = Raise StructError.
  Lemma struct_be n v : match pack_be n v with Ok _ => True | r => r = Raise StructError end.
  Proof. unfold pack_be. destruct (_ && _); [exact I|reflexivity]. Qed.
  Lemma struct_each {A} n (f : A -> Z) l : match write_each (fun x => pack_be n (f x)) l with Ok _ => True | r => r = Raise StructError end.
  Proof.
    induction l as [|x l IH]; cbn [write_each]; [exact I|]. pose proof (struct_be n (f x)) as H. destruct (pack_be n (f x)); cbn [bind]; [|congruence|congruence].
    destruct (write_each _ l); cbn [bind]; [exact I|congruence|congruence].
  Qed.
  Lemma struct_offsets l : forall big, match offset_table l big with Ok _ => True | r => r = Raise StructError end.
  Proof.
    induction l as [|x l IH]; intros big; cbn [offset_table]; [exact I|]. cbv zeta. set (v := Z.land _ _). set (big' := if 2147483647 <? e_ofs x then big ++ [e_ofs x] else big).
    pose proof (struct_be 4 v) as H. unfold pack_L. destruct (pack_be 4 v); cbn [bind]; [|congruence|congruence].
    specialize (IH big'). destruct (offset_table l big') as [[? ?]| |]; cbn [bind]; [exact I|congruence|congruence].
  Qed.
  Lemma index_write_struct ens psha : Forall (fun e => sha_ok (e_sha e)) ens -> len psha = 20 -> len ens < 2 ^ 32 ->
    match index_write sha1 ens psha with Ok _ => True | r => r = Raise StructError end.
  Proof.
    intros Hs Hp Hn. unfold index_write. set (s := sort_entries ens). pose proof (sort_perm ens : Permutation ens s) as Hperm.
    unfold index_version_default, pack_L at 1. rewrite pack_be_range by (split; [discriminate|reflexivity]). cbn [bind].
    destruct (fanout_write_ok s) as (tmp & -> & H2); [now apply (Permutation_Forall Hperm)|unfold len in *; now rewrite <- (Permutation_length Hperm)|]. cbn [bind]. rewrite H2. cbn [bind].
    pose proof (struct_each 4 (fun e => Z.land (e_crc e) 4294967295) s) as H3. unfold pack_L at 1.
    destruct (write_each _ s); cbn [bind]; [|congruence|congruence].
    pose proof (struct_offsets s []) as H4. destruct (offset_table s []) as [[o32 big]| |]; cbn [bind]; [|congruence|congruence].
    pose proof (struct_each 8 (fun x => x) big) as H5. unfold pack_Q. change (write_each (fun x => pack_be 8 x) big) with (write_each (pack_be 8) big) in H5.
    destruct (write_each (pack_be 8) big); cbn [bind]; [|congruence|congruence]. rewrite Hp. cbn [Z.eqb Pos.eqb py_assert]. exact I.
  Qed.

  (** What reading an object back gives *)
  Lemma read_back level pack ix shas offs o off e : answers ix shas offs -> index pack 0 = Ok 80 ->
    found_at shas offs (wo_binsha o) off -> entry_at L pack off e -> entry_for level o e -> reads_back level (mk_entity ix pack) o.
  Proof.
    intros Hans Hsig Hfnd He (Ht & Hd & Hdat & chunks & Hch & Hz). set (d := content (wo_stream o)) in *.
    destruct (entity_index_found pack ix shas offs Hans _ _ Hfnd) as (i & E1 & E2).
    destruct (entry_region L _ _ _ He) as (rg & k & Er & Eh). destruct (entry_type L pack _ _ He) as (Hdt & _). rewrite Hd in Hdt.
    destruct (pack_stream_entry L pack Hsig _ _ He) as (o1 & Eo1 & Ho1). destruct (obj_fields L _ _ Ho1) as (_ & Et1 & Es1 & _). cbn [fst snd] in *.
    split.
    { intros f. unfold entity_info. rewrite E1. cbn [bind]. unfold info_at. cbn [en_index en_pack]. rewrite E2. cbn [bind].
      rewrite Er. cbn [bind]. rewrite Eh. cbn [bind]. rewrite Hdt. cbn [negb]. rewrite Ht. cbn [bind]. now rewrite Hdat. }
    exists (OPlain (wo_binsha o) (wo_type o) (len d) (po_stream o1)), chunks. split; [exact Hch|]. split.
    { intros f. unfold entity_stream. rewrite E1. cbn [bind]. unfold stream_at. cbn [en_index en_pack]. rewrite E2. cbn [bind].
      rewrite Er. cbn [bind]. rewrite Eh. cbn [bind]. rewrite Hdt. cbn [negb]. rewrite Eo1. cbn [bind]. rewrite Et1, Ht. cbn [bind]. now rewrite Es1, Hdat. }
    split; [reflexivity|]. split; [reflexivity|]. destruct Ho1 as (rest & -> & Hzs). cbn [snd po_stream] in *. rewrite Hdat, Hz in *.
    set (z := zc_all K (zc_new K level) chunks) in *.
    split; [|split; [|split]].
    - intros ops. destruct (known_contiguous L z d rest ops Hzs) as (outs & [f0 Hf0] & H2 & H3). exists outs. split; [|now split].
      exists f0. intros f Hf. apply run_plain. now apply Hf0.
    - intros Hw n Hn. exists (2 * length d + 3)%nat. intros f Hf. destruct (read_whole L z d rest n f Hzs Hw Hn Hf) as (r' & Hr & _).
      cbn [run_stream os_read]. rewrite Hr. reflexivity.
    - intros Hden ops. destruct (known_exact L z d rest ops Hzs Hden) as [f0 Hf0]. exists f0. intros f Hf. apply run_plain. now apply Hf0.
    - exists rest. intros ops outs [f0 Hf0]. exists f0. intros f Hf. apply run_plain. now apply Hf0.
  Qed.

  (** ** The whole *)
  Lemma object_end_incl offs offs' footer off next : (forall x, In x offs <-> In x offs') -> object_end offs footer off next -> object_end offs' footer off next.
  Proof.
    intros H [(A & B & C)|(A & B)]; [left|right].
    - split; [exact A|]. split; [now apply H|]. intros o Ho. apply C. now apply H.
    - split; [|exact B]. intros o Ho. apply A. now apply H.
  Qed.
  Lemma slice_at (a b c : bytes) x y : x = len a -> y = len a + len b -> slice (a ++ b ++ c) x y = b.
  Proof. intros -> ->. apply slice_mid; reflexivity. Qed.
  Lemma write_read_any level objs oc : Forall good_obj objs -> Forall sha_ok (map wo_binsha objs) -> NoDup (map wo_binsha objs) ->
    len objs <= 2 ^ 31 -> count_of objs oc = len objs ->
    exists v, evaluates (fun f => write_pack K sha1 pagesize oread f level objs oc) v /\
    match v with
    | Diverge => False
    | Raise e => e = StructError
    | Ok (pack, psha, idx, isha) =>
        (exists es, pack_file L sha1 es pack /\ Forall2 (fun o p => entry_for level o (snd p)) objs es) /\
        (len pack < 2 ^ 64 -> exists ix, index_open idx = Ok ix /\
          (forall o, In o objs -> reads_back level (mk_entity ix pack) o) /\
          missing_objects (mk_entity ix pack) objs /\
          (len pack < 2 ^ 31 -> forall o, In o objs -> evaluates (fun f => is_valid_crc pagesize f (mk_entity ix pack) (wo_binsha o)) (Ok true)) /\
          exists shas crcs offs, Permutation (map wo_binsha objs) shas /\ strictly_sorted_shas shas /\ index_file 2 shas crcs offs idx)
    end.
  Proof.
    intros Hg Hok Hnd Hn Hoc. assert (len objs < 2 ^ 32) as Hn32 by (change (2 ^ 31) with 2147483648 in *; change (2 ^ 32) with 4294967296; lia).
    destruct (parts_exist level objs Hg 12) as (ps & ens & Hp).
    destruct (parts_len sha1 _ _ _ _ _ _ _ Hp) as [_ Hlens]. destruct (parts_ofs level _ _ _ _ Hg Hp) as (Eshas & Hofs & _).
    destruct (parts_entries level _ _ _ _ Hg Hp) as (Hbytes & es & Hes & HF).
    destruct (write_pack_ok (K := K) sha1 pagesize oread level objs [] oc ps ens Hsha Hp) as (f0 & Hw).
    { now rewrite app_nil_r. } { exact Hn32. } { easy. } rewrite app_nil_r in Hw.
    set (body := pack_head (len objs) ++ concat ps) in *. cbv zeta in Hw. set (psha := sha1 body) in *.
    assert (Forall (fun e => sha_ok (e_sha e)) ens) as Hshas by (rewrite <- Eshas, Forall_map in Hok; exact Hok).
    assert (len psha = 20) as Hpsha by apply Hsha.
    assert (len ens < 2 ^ 32) as Hens32 by lia.
    pose proof (index_write_struct ens psha Hshas Hpsha Hens32) as Hstr.
    destruct (index_write sha1 ens psha) as [[idx isha]| |] eqn:Eidx; [|exists (Raise StructError)|congruence].
    2:{ split; [|reflexivity]. exists f0. intros f Hf. rewrite Hw by exact Hf. injection Hstr as ->. reflexivity. }
    exists (Ok (body ++ psha, psha, idx, isha)). split.
    { exists f0. intros f Hf. rewrite Hw by exact Hf. reflexivity. }
    assert (len es = len objs) as Hles by (unfold len; f_equal; symmetry; apply (Forall2_length _ _ _ _ _ HF)).
    assert (Hlp : len (body ++ psha) = 12 + len (concat ps) + 20).
    { unfold body. rewrite !len_app, Hpsha. change (len (pack_head (len objs))) with 12. lia. }
    split.
    { exists es. split; [|exact HF]. exists (concat ps), (12 + len (concat ps)). rewrite Hles. split; [exact Hes|]. split; [exact Hn32|]. reflexivity. }
    intros H64. rewrite Hlp in *. pose proof (len_nonneg _ (concat ps)) as Hnn.
    assert (Forall (fun e => sha_ok (e_sha e) /\ 0 <= e_ofs e < 2 ^ 64) ens) as Hens.
    { apply Forall_forall. intros e He. rewrite Forall_forall in Hshas, Hofs. split; [now apply Hshas|]. specialize (Hofs e He). lia. }
    destruct (index_written ens psha Hens Hpsha) as (idx' & isha' & ix & s & Eidx' & Hx).
    { now rewrite Eshas. } { now rewrite Hlens. }
    assert (idx' = idx) as -> by congruence. exists ix. split; [apply (id_open _ _ _ _ Hx)|].
    assert (Hsig : index (body ++ psha) 0 = Ok 80) by reflexivity.
    assert (Hat : forall pre hdr z post e, concat ps = pre ++ (hdr ++ z) ++ post -> entry_bytes L e hdr z -> entry_at L (body ++ psha) (12 + len pre) e).
    { intros pre hdr z post e E He. exists (pack_head (len objs) ++ pre), hdr, z, (post ++ psha). split; [|split; [|exact He]].
      - unfold body. rewrite E, <- !app_assoc. reflexivity.
      - rewrite len_app. reflexivity. }
    split; [|split; [|split]].
    - intros o Ho. destruct (parts_end level _ _ _ _ Hg Hp o Ho) as (en & pre & hdr & z & post & e & Hin & E & Een & He & Hfor & _).
      destruct (indexed_found _ _ _ _ _ Hx Hin) as (i & Hi & _ & I1 & I2). rewrite Een in I1, I2. cbn [e_sha e_ofs fst snd] in I1, I2.
      apply (read_back level (body ++ psha) ix (map e_sha s) (map e_ofs s) o (12 + len pre) e (id_ans _ _ _ _ Hx) Hsig); [|now apply (Hat pre hdr z post)|exact Hfor].
      now exists i.
    - intros sha Hs Hni f. assert (~ In sha (map e_sha s)) as Hni2.
      { intros Hi. apply Hni. rewrite <- Eshas. apply (Permutation_in _ (Permutation_sym (Permutation_map e_sha (id_perm _ _ _ _ Hx))) Hi). }
      unfold entity_info, entity_stream. rewrite (entity_index_missing (body ++ psha) ix _ _ (id_ans _ _ _ _ Hx) sha Hs Hni2). now split.
    - intros H31 o Ho. destruct (parts_end level _ _ _ _ Hg Hp o Ho) as (en & pre & hdr & z & post & e & Hin & E & Een & He & Hfor & Hb & Hl & Hend).
      destruct (indexed_found _ _ _ _ _ Hx Hin) as (i & Hi & I0 & I1 & I2).
      assert (Hsm : Forall (fun e => 0 <= e_ofs e < 2 ^ 31) ens).
      { eapply Forall_impl; [|exact Hofs]. cbv beta. intros a Ha. lia. }
      destruct (id_small _ _ _ _ Hx Hsm) as (trailer & ->).
      pose proof (index_map (fun e => e_crc e mod 2 ^ 32) _ _ _ Hi I0) as I3.
      assert (slice (body ++ psha) (12 + len pre) (12 + len pre + len (hdr ++ z)) = hdr ++ z) as Esl.
      { replace (body ++ psha) with ((pack_head (len objs) ++ pre) ++ (hdr ++ z) ++ (post ++ psha)).
        - apply slice_at; rewrite (len_app _ (pack_head (len objs))); change (len (pack_head (len objs))) with 12; lia.
        - unfold body. rewrite E, <- !app_assoc. reflexivity. }
      assert (Hu : u32 (crc32 (hdr ++ z) 0)) by (apply crc32_u32; [unfold u32; lia|exact Hb]).
      assert (Ok true = Ok (crc32 (slice (body ++ psha) (12 + len pre) (12 + len pre + len (hdr ++ z))) 0 =? e_crc en mod 2 ^ 32)) as ->.
      { rewrite Esl, Een. unfold e_crc. cbn [fst snd]. unfold u32 in Hu. rewrite Z.mod_small by exact Hu. now rewrite Z.eqb_refl. }
      assert (wo_binsha o = e_sha en) as -> by (rewrite Een; reflexivity).
      assert (e_ofs en = 12 + len pre) as Eofs by (rewrite Een; reflexivity). rewrite Eofs in I2.
      apply (crc_verdict pagesize Hps (map e_sha s) (map (fun e => e_crc e mod 2 ^ 32) s) (map e_ofs s) trailer ix (id_sort _ _ _ _ Hx)) with (i := i).
      + now rewrite !map_length.
      + rewrite Forall_map. apply Forall_forall. intros x _. apply Z.mod_pos_bound. reflexivity.
      + now rewrite !map_length.
      + rewrite Forall_map. apply (Permutation_Forall (id_perm _ _ _ _ Hx) Hsm).
      + rewrite len_map. unfold len in *. now rewrite <- (Permutation_length (id_perm _ _ _ _ Hx)).
      + apply (id_open _ _ _ _ Hx).
      + exact Hi.
      + exact I1.
      + exact I2.
      + exact I3.
      + rewrite Hlp. replace (12 + len (concat ps) + 20 - 20) with (12 + len (concat ps)) by lia.
        apply (object_end_incl (map e_ofs ens)); [|exact Hend]. intros x. pose proof (Permutation_map e_ofs (id_perm _ _ _ _ Hx)) as Pm.
        split; apply Permutation_in; [exact Pm|now symmetry].
      + pose proof (len_nonneg _ (hdr ++ z)). lia.
      + now rewrite Esl.
    - destruct (id_file _ _ _ _ Hx) as (crcs & Hf). exists (map e_sha s), crcs, (map e_ofs s).
      split; [rewrite <- Eshas; apply (Permutation_map e_sha (id_perm _ _ _ _ Hx))|]. split; [apply (id_sort _ _ _ _ Hx)|exact Hf].
  Qed.
  (** More fuel does not change the outcome. *)
  Lemma wstp_more f f' : (f <= f')%nat -> forall r z br crc out, wstp_loop K pagesize oread f r z br crc out <> Diverge ->
    wstp_loop K pagesize oread f' r z br crc out = wstp_loop K pagesize oread f r z br crc out.
  Proof.
    revert f'. induction f as [|f IH]; intros f' Hf r z br crc out H; [now elim H|]. destruct f' as [|f']; [lia|]. cbn [wstp_loop] in *.
    destruct (oread r (chunk_size pagesize)) as [[chunk r']| |]; cbn [bind] in *; try easy.
    destruct (zc_compress K z chunk) as [c z']. destruct (negb _); [easy|]. apply IH; [lia|exact H].
  Qed.
  Lemma write_one_more f f' level o ofs : (f <= f')%nat -> write_one K pagesize oread f level o ofs <> Diverge ->
    write_one K pagesize oread f' level o ofs = write_one K pagesize oread f level o ofs.
  Proof.
    intros Hf H. unfold write_one, write_stream_to_pack in *. destruct (type_to_type_id (wo_type o)); cbn [bind] in *; try easy.
    destruct (create_pack_object_header _ _); cbn [bind] in *; try easy. rewrite (wstp_more f f' Hf); [easy|]. intros E. rewrite E in H. now apply H.
  Qed.
  Lemma write_objs_more f f' level count objs : (f <= f')%nat -> forall actual ofs, write_objs K pagesize oread f level objs count actual ofs <> Diverge ->
    write_objs K pagesize oread f' level objs count actual ofs = write_objs K pagesize oread f level objs count actual ofs.
  Proof.
    intros Hf. induction objs as [|o objs IH]; intros actual ofs H; [easy|]. cbn [write_objs] in *.
    rewrite (write_one_more f f' _ _ _ Hf) by (intros E; rewrite E in H; now apply H).
    destruct (write_one _ _ _ f _ _ _) as [[d en]| |]; cbn [bind] in *; try easy. destruct (_ =? _); [easy|].
    rewrite IH; [easy|]. intros E. rewrite E in H. now apply H.
  Qed.
  Lemma write_pack_more f f' level objs oc : (f <= f')%nat -> write_pack K sha1 pagesize oread f level objs oc <> Diverge ->
    write_pack K sha1 pagesize oread f' level objs oc = write_pack K sha1 pagesize oread f level objs oc.
  Proof.
    intros Hf H. unfold write_pack in *. cbv zeta in *. destruct (pack_L _) as [cnt| |]; cbn [bind] in *; try easy.
    rewrite (write_objs_more f f' _ _ _ Hf); [easy|]. intros E. rewrite E in H. now apply H.
  Qed.
  Lemma write_pack_unique f level objs oc r v : write_pack K sha1 pagesize oread f level objs oc = r -> r <> Diverge ->
    evaluates (fun f => write_pack K sha1 pagesize oread f level objs oc) v -> v = r.
  Proof.
    intros E Hr (f0 & H0). subst r. rewrite <- (H0 (f + f0)%nat) by lia. apply write_pack_more; [lia|exact Hr].
  Qed.
End WriteRead.

Lemma write_read {K : zlib} (L : zlib_laws K) sha1 (Hsha : forall d, len (sha1 d) = 20) pagesize (Hps : 0 < pagesize) {R : Type}
  (oread : R -> Z -> res (bytes * R)) content (Hrd : stream_reader oread content) level objs oc : Forall (good_obj content) objs ->
  Forall sha_ok (map wo_binsha objs) -> NoDup (map wo_binsha objs) -> len objs <= 2 ^ 31 -> count_of objs oc = len objs ->
  exists v, evaluates (fun f => write_pack K sha1 pagesize oread f level objs oc) v /\
  match v with
  | Diverge => False
  | Raise e => e = StructError
  | Ok (pack, psha, idx, isha) =>
      (exists es, pack_file L sha1 es pack /\ Forall2 (fun o p => entry_for (K := K) content level o (snd p)) objs es) /\
      (len pack < 2 ^ 64 -> exists ix, index_open idx = Ok ix /\
        (forall o, In o objs -> reads_back L content level (mk_entity ix pack) o) /\
        missing_objects (K := K) (mk_entity ix pack) objs /\
        (len pack < 2 ^ 31 -> forall o, In o objs -> evaluates (fun f => is_valid_crc pagesize f (mk_entity ix pack) (wo_binsha o)) (Ok true)) /\
        exists shas crcs offs, Permutation (map wo_binsha objs) shas /\ strictly_sorted_shas shas /\ index_file 2 shas crcs offs idx)
  end.
Proof. apply (write_read_any L sha1 Hsha pagesize Hps oread content). now apply reader_chunks. Qed.
