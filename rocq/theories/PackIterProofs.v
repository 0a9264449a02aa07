(** Iterating over a pack through its index; the checksums of a written pack. *)
From Coq Require Import ZifyBool ZifyNat Sorting.Sorted Sorting.Permutation.
From Verif Require Import Py PyFacts FunModel FunSpec FunProofs ZlibModel ReaderModel StreamSpec
  IndexModel IndexSpec IndexProofs IndexSearch Crc32 PackModel PackSpec PackProofs PackChainProofs PackWriteProofs.
Ltac Zify.zify_post_hook ::= Z.div_mod_to_equations.

Lemma each_object_ok {A} (object : bytes -> Z -> res A) e shas offs :
  answers (en_index e) shas offs -> length offs = length shas ->
  (forall i s, 0 <= i -> index shas i = Ok s -> ix_sha (en_index e) i = s) ->
  forall n i, 0 <= i -> i + Z.of_nat n = len shas ->
  each_object object e n i = ask_each (fun s => let! j := entity_index e s in object s j) (skipn (Z.to_nat i) shas).
Proof.
  intros [Ha _] Hl Hsha. induction n as [|n IH]; intros i Hi Hn; cbn [each_object].
  - rewrite skipn_all2 by (unfold len in *; lia). reflexivity.
  - destruct (index_in _ shas i) as [s Hs]; [lia|]. destruct (index_in _ offs i) as [o Ho]; [unfold len in *; lia|].
    rewrite (Hsha i s Hi Hs). destruct (Ha s i o Hi Hs Ho) as [E _].
    rewrite IH by lia. pose proof Hs as Hs'. apply index_ok_split in Hs' as (a & b & Eab & Hla); [|easy].
    replace (skipn (Z.to_nat i) shas) with (s :: b).
    2:{ rewrite Eab. replace (Z.to_nat i) with (length a) by (unfold len in *; lia). now rewrite skipn_app, skipn_all, Nat.sub_diag. }
    replace (skipn (Z.to_nat (i + 1)) shas) with b.
    2:{ rewrite Eab. replace (Z.to_nat (i + 1)) with (S (length a)) by (unfold len in *; lia).
        rewrite skipn_app, skipn_all2 by lia. now replace (S (length a) - length a)%nat with 1%nat by lia. }
    cbn [ask_each]. assert (entity_index e s = Ok i) as -> by (unfold entity_index; now rewrite E). cbn [bind].
    destruct (object s i) as [x| |]; cbn [bind]; [|reflexivity|reflexivity].
    now destruct (ask_each _ b).
Qed.
Lemma iter_objects_ok {A} (object : bytes -> Z -> res A) v shas crcs offs idx ix pack :
  index_file v shas crcs offs idx -> strictly_sorted_shas shas -> index_open idx = Ok ix ->
  iter_objects object (mk_entity ix pack) = ask_each (fun s => let! j := entity_index (mk_entity ix pack) s in object s j) shas.
Proof.
  intros Hf Hs Ho. pose proof (index_answers _ _ _ _ _ _ Hf Hs Ho) as Ha.
  destruct (open_file _ _ _ _ _ Hf) as (ix' & H1 & (_ & Hsz & _) & (_ & Hop) & _). assert (ix' = ix) as -> by congruence.
  unfold iter_objects. cbn [en_index]. rewrite Hsz. cbn [bind].
  assert (length offs = length shas) as Hl by (inversion Hf; subst; [easy|]; match goal with H : Forall2 _ _ offs |- _ => apply Forall2_length in H end; congruence).
  rewrite (each_object_ok object (mk_entity ix pack) shas offs Ha Hl Hop) by (unfold len in *; lia). reflexivity.
Qed.

Lemma ask_each_ok {A} (ask : bytes -> res A) : forall shas l, Forall2 (fun s a => ask s = Ok a) shas l -> ask_each ask shas = Ok l.
Proof. induction 1 as [|s a shas l H _ IH]; [reflexivity|]. cbn [ask_each]. now rewrite H, IH. Qed.

Lemma perm_map_inv {A B} (f : A -> B) l l' : Permutation (map f l) l' -> exists k, Permutation l k /\ l' = map f k.
Proof. intros H. symmetry in H. apply Permutation_map_inv in H as (k & -> & Hk). exists k. now split. Qed.

Section Written.
  Context {K : zlib} (L : zlib_laws K) (sha1 : bytes -> bytes) (Hsha : forall d, len (sha1 d) = 20) (pagesize : Z) (Hps : 0 < pagesize).
  Context {R : Type} (oread : R -> Z -> res (bytes * R)) (content : R -> bytes) (Hrd : stream_reader oread content).

  Lemma iter_written level objs : Forall (good_obj content) objs -> Forall sha_ok (map wo_binsha objs) -> NoDup (map wo_binsha objs) ->
    len objs <= 2 ^ 31 ->
    exists v, evaluates (fun f => write_pack K sha1 pagesize oread f level objs None) v /\
    match v with
    | Diverge => False
    | Raise e => e = StructError
    | Ok (pack, psha, idx, isha) =>
        len pack < 2 ^ 64 -> exists ix s, index_open idx = Ok ix /\ Permutation objs s /\ strictly_sorted_shas (map wo_binsha s) /\
          (forall f, entity_info_iter K f (mk_entity ix pack) =
             Ok (map (fun o => mk_oinfo (wo_binsha o) (wo_type o) (len (content (wo_stream o)))) s)) /\
          exists sts, (forall f, entity_stream_iter K f (mk_entity ix pack) = Ok sts) /\
            Forall2 (fun o st => forall f, entity_stream K f (mk_entity ix pack) (wo_binsha o) = Ok st) s sts /\
            Forall (reads_back L content level (mk_entity ix pack)) s
    end.
  Proof.
    intros Hg Hok Hnd Hn. destruct (write_read L sha1 Hsha pagesize Hps oread content Hrd level objs None Hg Hok Hnd Hn eq_refl) as (v & Hv & Hm).
    exists v. split; [exact Hv|]. destruct v as [[[[pack psha] idx] isha]|e|]; [|exact Hm|exact Hm].
    destruct Hm as (_ & Hm). intros Hl. destruct (Hm Hl) as (ix & Hix & Hrb & _ & _ & shas & crcs & offs & Hperm & Hsort & Hfile).
    apply perm_map_inv in Hperm as (s & Hp & ->). exists ix, s. split; [exact Hix|]. split; [exact Hp|]. split; [exact Hsort|].
    assert (Forall (reads_back L content level (mk_entity ix pack)) s) as HF.
    { apply Forall_forall. intros o Ho. apply Hrb. apply (Permutation_in _ (Permutation_sym Hp) Ho). }
    split.
    - intros f. unfold entity_info_iter. rewrite (iter_objects_ok _ _ _ _ _ _ _ pack Hfile Hsort Hix). apply ask_each_ok.
      clear - HF. induction HF as [|o s Ho _ IH]; constructor; [|exact IH]. destruct Ho as [Hi _]. apply Hi.
    - assert (exists sts, Forall2 (fun o st => forall f, entity_stream K f (mk_entity ix pack) (wo_binsha o) = Ok st) s sts) as (sts & Hsts).
      { clear - HF. induction HF as [|o s Ho _ (sts & IH)]; [now exists []|]. destruct Ho as (_ & st & ch & _ & Hst & _). exists (st :: sts). now constructor. }
      exists sts. split; [|split; [exact Hsts|exact HF]].
      intros f. unfold entity_stream_iter. rewrite (iter_objects_ok _ _ _ _ _ _ _ pack Hfile Hsort Hix). apply ask_each_ok.
      clear - Hsts. induction Hsts as [|o st s sts Ho _ IH]; constructor; [|exact IH]. apply Ho.
  Qed.
End Written.

(** ** Checksums *)
Lemma index_write_form sha1 ens psha idx isha : index_write sha1 ens psha = Ok (idx, isha) ->
  exists pre, idx = (pre ++ psha) ++ isha /\ isha = sha1 (pre ++ psha) /\ len psha = 20.
Proof.
  intros H. unfold index_write in H. cbv zeta in H.
  apply bind_ok_inv in H as (ver & _ & H). apply bind_ok_inv in H as (tmp & _ & H). apply bind_ok_inv in H as (fan & _ & H).
  apply bind_ok_inv in H as (crcs & _ & H). apply bind_ok_inv in H as ([o32 big] & _ & H). apply bind_ok_inv in H as (o64 & _ & H).
  unfold py_assert in H. destruct (len psha =? 20) eqn:E; [|discriminate]. apply Z.eqb_eq in E.
  exists (index_v2_signature ++ ver ++ fan ++ concat (map e_sha (sort_entries ens)) ++ crcs ++ o32 ++ o64).
  rewrite <- !app_assoc in *. injection H as <- <-. now repeat split.
Qed.
Lemma index_open_map d ix : index_open d = Ok ix -> ix_map ix = d.
Proof.
  intros H. unfold index_open in H. cbv zeta in H. apply bind_ok_inv in H as (? & _ & H). apply bind_ok_inv in H as (? & _ & H).
  apply bind_ok_inv in H as (? & _ & H). now injection H as <-.
Qed.
Lemma checksums_of ix pre psha isha : ix_map ix = (pre ++ psha) ++ isha -> len psha = 20 -> len isha = 20 ->
  packfile_checksum ix = psha /\ indexfile_checksum ix = isha.
Proof.
  intros E Hp Hi. unfold packfile_checksum, indexfile_checksum. rewrite E. pose proof (len_nonneg _ pre). split.
  - rewrite <- app_assoc. unfold slice, norm_idx. rewrite !len_app, Hp, Hi. cbn [Z.ltb Z.compare].
    rewrite !Z.max_r by lia. replace (Z.to_nat (_ - _)) with (length psha) by (unfold len in *; lia).
    replace (Z.to_nat (-40 + _)) with (length pre) by (unfold len in *; lia).
    rewrite skipn_app, skipn_all, Nat.sub_diag. cbn [skipn app]. rewrite firstn_app, firstn_all, Nat.sub_diag. cbn [firstn]. apply app_nil_r.
  - unfold slice_from, norm_idx. rewrite !len_app, Hp, Hi. cbn [Z.ltb Z.compare].
    rewrite Z.max_r by lia. replace (Z.to_nat (-20 + _)) with (length (pre ++ psha)) by (rewrite app_length; unfold len in *; lia).
    now rewrite skipn_app, skipn_all, Nat.sub_diag.
Qed.
Lemma unpack_head n rest : 0 <= n < 2 ^ 32 -> pack_open (pack_head n ++ rest) = Ok (2, n).
Proof.
  intros Hn. set (d := pack_head n ++ rest).
  assert (unpack_be 4 d 0 = Ok 1346454347) as E1 by (apply (unpack_be_app 4 1346454347 [] (be_enc 4 2 ++ be_enc 4 n ++ rest) 0); cbn; lia).
  assert (unpack_be 4 d 4 = Ok 2) as E2 by (apply (unpack_be_app 4 2 [80; 65; 67; 75] (be_enc 4 n ++ rest) 4); cbn; lia).
  assert (unpack_be 4 d 8 = Ok n) as E3 by (apply (unpack_be_app 4 n ([80; 65; 67; 75] ++ be_enc 4 2) rest 8); [exact Hn|reflexivity]).
  unfold pack_open. rewrite E1, E2, E3. reflexivity.
Qed.
Lemma checksum_end pre psha : len psha = 20 -> pack_checksum (pre ++ psha) = Ok psha.
Proof.
  intros Hp. unfold pack_checksum, region. rewrite !len_app, Hp. pose proof (len_nonneg _ pre).
  replace ((0 <=? len pre + 20 - 20) && (len pre + 20 - 20 <? len pre + 20)) with true by lia. f_equal.
  unfold slice_from, norm_idx. rewrite len_app. replace (len pre + 20 - 20 <? 0) with false by lia.
  replace (Z.to_nat _) with (length pre) by (unfold len in *; lia). now rewrite skipn_app, skipn_all, Nat.sub_diag.
Qed.

Lemma parts_names {K : zlib} pagesize {R} (oread : R -> Z -> res (bytes * R)) level ofs objs ps ens :
  parts (K := K) pagesize oread level ofs objs ps ens ->
  map e_sha ens = map wo_binsha objs /\ Forall (fun en => ofs <= e_ofs en <= ofs + len (concat ps)) ens.
Proof.
  induction 1 as [ofs|ofs o objs p ps en ens Hp Hr [E HF]]; [now split|].
  destruct Hp as (t & hdr & chunks & _ & _ & _ & _ & -> & ->). cbn [map e_sha fst]. split; [now f_equal|].
  cbn [concat]. rewrite len_app in *. pose proof (len_nonneg _ (concat ps)). pose proof (len_nonneg _ hdr). pose proof (len_nonneg _ (zc_all K (zc_new K level) chunks)).
  constructor; [unfold e_ofs; cbn [snd]; rewrite ?len_app; lia|]. eapply Forall_impl; [|exact HF]. cbv beta. intros; rewrite ?len_app in *; lia.
Qed.

Lemma written_checksums (K : zlib) (sha1 : bytes -> bytes) pagesize {R} (oread : R -> Z -> res (bytes * R)) level objs oc fuel pack psha idx isha :
  (forall d, len (sha1 d) = 20) ->
  write_pack K sha1 pagesize oread fuel level objs oc = Ok (pack, psha, idx, isha) ->
  exists n body ibody, announced objs oc n /\ pack_open pack = Ok (2, n) /\
    pack = body ++ psha /\ psha = sha1 body /\ pack_checksum pack = Ok psha /\ idx = ibody ++ isha /\ isha = sha1 ibody /\
    (forall ix, index_open idx = Ok ix -> packfile_checksum ix = psha /\ indexfile_checksum ix = isha) /\
    (Forall sha_ok (map wo_binsha objs) -> n <= 2 ^ 31 -> len pack < 2 ^ 64 -> exists ix, index_open idx = Ok ix /\ ix_size ix = Ok n).
Proof.
  intros Hsha H. destruct (write_pack_inv _ _ _ _ _ _ _ _ _ _ _ H) as (ps & ens & Hn1 & Hn2 & Hps & Hlps & Ep & Epk & Hl20 & Hiw).
  set (n := count_of objs oc) in *.
  destruct (index_write_form _ _ _ _ _ Hiw) as (pre & Eidx & Eisha & _).
  exists n, (pack_head n ++ concat ps), (pre ++ psha).
  split. { unfold n, count_of, announced. destruct oc as [k|]; [|reflexivity]. destruct (Z.eqb_spec k 0); [left|right]; now split. }
  split. { rewrite Epk, <- app_assoc. now apply unpack_head. }
  split; [exact Epk|]. split; [exact Ep|]. split. { rewrite Epk. now apply checksum_end. }
  split; [exact Eidx|]. split; [exact Eisha|]. split.
  { intros ix Hix. apply index_open_map in Hix. rewrite Eidx in Hix. apply (checksums_of ix pre); [exact Hix|exact Hl20|]. rewrite Eisha. apply Hsha. }
  intros Hok Hn31 H64. destruct (parts_names _ _ _ _ _ _ _ Hps) as [Enm Hof]. destruct (parts_len sha1 _ _ _ _ _ _ _ Hps) as [_ Hlen].
  assert (Forall (fun e => sha_ok (e_sha e)) ens) as Hshas.
  { rewrite <- Forall_map, Enm. apply Forall_forall. intros s Hs. apply in_map_iff in Hs as (o & <- & Ho).
    rewrite Forall_forall in Hok. apply Hok. apply in_map. rewrite <- (firstn_skipn (Z.to_nat n) objs). apply in_app_iff. now left. }
  assert (Forall (fun e => sha_ok (e_sha e) /\ 0 <= e_ofs e < 2 ^ 64) ens) as Hens.
  { rewrite Forall_forall in *. intros e He. split; [now apply Hshas|]. specialize (Hof e He). rewrite Epk, !len_app, Hl20 in H64.
    change (len (pack_head n)) with 12 in H64. lia. }
  rewrite len_firstn in Hlen.
  destruct (index_roundtrip sha1 ens psha Hsha Hens Hl20) as (b & h & s & ix & Hw & _ & Hperm & _ & Hix & (_ & Hsz & _) & _).
  { change (2 ^ 32) with 4294967296 in *. lia. }
  { apply Z.le_trans with (len ens); [|lia]. unfold len. rewrite <- (map_length e_ofs ens). apply inj_le. generalize (map e_ofs ens). clear. induction l as [|x l IH]; cbn [filter length]; [lia|].
    destruct (is_large x); cbn [length]; lia. }
  assert (b ++ h = idx) as E by congruence. rewrite E in Hix. exists ix. split; [exact Hix|]. rewrite Hsz, len_map. f_equal. unfold len in *.
  rewrite <- (Permutation_length Hperm). lia.
Qed.
