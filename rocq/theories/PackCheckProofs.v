(** Verifying objects of a pack: crc and sha. *)
From Coq Require Import ZifyBool ZifyNat Sorting.Sorted Sorting.Permutation.
From Verif Require Import Py PyFacts FunModel FunSpec FunProofs ZlibModel ReaderModel StreamSpec ReaderProofs
  DeltaModel DeltaSpec DeltaReaderModel DeltaReaderProofs IndexModel IndexSpec IndexProofs IndexSearch Crc32 Crc32Proofs PackModel PackSpec SimProofs
  PackProofs PackChainProofs.
Ltac Zify.zify_post_hook ::= Z.div_mod_to_equations.

(** ** Sorting *)
Lemma insert_z_perm x l : Permutation (x :: l) (insert_z x l).
Proof.
  induction l as [|y l IH]; cbn [insert_z]; [easy|]. destruct (y <? x); [|easy].
  transitivity (y :: x :: l); [constructor|]. now constructor.
Qed.
Lemma sort_z_perm l : Permutation l (sort_z l).
Proof. induction l as [|x l IH]; cbn [sort_z]; [easy|]. transitivity (x :: sort_z l); [now constructor|apply insert_z_perm]. Qed.
Lemma insert_z_sorted x l : StronglySorted Z.le l -> StronglySorted Z.le (insert_z x l).
Proof.
  induction 1 as [|y l Hs IH Hall]; cbn [insert_z]; [repeat constructor|]. destruct (Z.ltb_spec y x).
  - constructor; [exact IH|]. apply (Permutation_Forall (insert_z_perm x l)). constructor; [lia|exact Hall].
  - constructor; [now constructor|]. constructor; [lia|]. eapply Forall_impl; [|exact Hall]. intros; cbn in *; lia.
Qed.
Lemma sort_z_sorted l : StronglySorted Z.le (sort_z l).
Proof. induction l as [|x l IH]; cbn [sort_z]; [constructor|now apply insert_z_sorted]. Qed.

(** The pairs (offset, next offset) of a sorted list *)
Lemma dict_get_sorted footer off : forall l found, StronglySorted Z.le l ->
  dict_get off (combine l (skipn 1 l ++ [footer])) found =
  (if existsb (Z.eqb off) l then Ok (hd footer (filter (Z.ltb off) l)) else found).
Proof.
  induction l as [|x l IH]; intros found Hs; [reflexivity|]. inversion Hs as [|? ? Hs' Hall]; subst.
  assert (E : combine (x :: l) (skipn 1 (x :: l) ++ [footer]) = (x, hd footer l) :: combine l (skipn 1 l ++ [footer])).
  { destruct l as [|y l]; reflexivity. }
  rewrite E. cbn [dict_get]. rewrite IH by assumption. cbn [existsb filter].
  destruct (existsb (Z.eqb off) l) eqn:Ex.
  - rewrite orb_true_r. apply existsb_exists in Ex as (y & Hy & Ey). apply Z.eqb_eq in Ey. subst y.
    rewrite Forall_forall in Hall. specialize (Hall off Hy). replace (off <? x) with false by lia. reflexivity.
  - rewrite orb_false_r. destruct (Z.eqb_spec x off) as [->|Hne].
    + rewrite Z.eqb_refl, Z.ltb_irrefl. f_equal. destruct l as [|y l]; [reflexivity|]. cbn [hd filter].
      cbn [existsb] in Ex. inversion Hall; subst. replace (off <? y) with true by lia. reflexivity.
    + replace (off =? x) with false by lia. reflexivity.
Qed.
Lemma hd_filter_end footer off l l' : StronglySorted Z.le l -> Permutation l' l -> object_end l' footer off (hd footer (filter (Z.ltb off) l)).
Proof.
  intros Hs Hp. assert (Hin : forall o, In o l' <-> In o l).
  { intros o. split; apply Permutation_in; [easy|now symmetry]. }
  destruct (filter (Z.ltb off) l) as [|y r] eqn:E; cbn [hd].
  - right. split; [|reflexivity]. intros o Ho. apply Hin in Ho.
    destruct (Z.ltb_spec off o) as [Hlt|]; [|lia]. exfalso.
    assert (In o (filter (Z.ltb off) l)) as Hf by (apply filter_In; split; [exact Ho|lia]). rewrite E in Hf. easy.
  - left. assert (In y (filter (Z.ltb off) l)) as Hy by (rewrite E; now left). apply filter_In in Hy as [Hy1 Hy2].
    split; [lia|]. split; [now apply Hin|]. intros o Ho. apply Hin in Ho.
    destruct (Z.le_gt_cases o off); [now left|right].
    assert (In o (filter (Z.ltb off) l)) as Hf by (apply filter_In; split; [exact Ho|lia]). rewrite E in Hf.
    destruct Hf as [->|Hf]; [lia|].
    assert (StronglySorted Z.le (filter (Z.ltb off) l)) as Hsf.
    { clear - Hs. induction Hs as [|x l Hs IH Hall]; cbn [filter]; [constructor|]. destruct (off <? x); [|exact IH].
      constructor; [exact IH|]. apply Forall_forall. intros o Ho. apply filter_In in Ho as [Ho _]. rewrite Forall_forall in Hall. now apply Hall. }
    rewrite E in Hsf. inversion Hsf as [|? ? _ Hall]; subst. rewrite Forall_forall in Hall. now apply Hall.
Qed.
Lemma object_end_unique offs footer off n1 n2 : object_end offs footer off n1 -> object_end offs footer off n2 -> n1 = n2.
Proof.
  intros [(A1 & A2 & A3)|(A1 & A2)] [(B1 & B2 & B3)|(B1 & B2)].
  - destruct (A3 n2 B2), (B3 n1 A2); lia.
  - specialize (B1 n1 A2). lia.
  - specialize (A1 n2 B2). lia.
  - congruence.
Qed.
Lemma next_offset_ok ix pack offs off next : ix_offsets ix = Ok offs -> In off offs ->
  object_end offs (len pack - 20) off next -> next_offset (mk_entity ix pack) off = Ok next.
Proof.
  intros Ho Hin Hend. unfold next_offset. cbn [en_index en_pack]. rewrite Ho. cbn [bind].
  set (s := sort_z offs). assert (Permutation offs s) as Hp by apply sort_z_perm.
  unfold py_assert, footer_size.
  assert (In off s) as Hin' by now apply (Permutation_in _ Hp).
  replace (len s =? 0) with false; [|destruct s as [|x s']; [easy|rewrite len_cons; pose proof (len_nonneg _ s'); lia]].
  cbn [negb]. rewrite slice_from_spec by lia. change (Z.to_nat 1) with 1%nat.
  rewrite dict_get_sorted by apply sort_z_sorted.
  replace (existsb (Z.eqb off) s) with true.
  2:{ symmetry. apply existsb_exists. exists off. split; [exact Hin'|apply Z.eqb_refl]. }
  f_equal. apply (object_end_unique offs (len pack - 20) off); [|exact Hend].
  apply hd_filter_end; [apply sort_z_sorted|exact Hp].
Qed.

(** ** The crc loop *)
Lemma crc_loop_ok pagesize pack : 0 < pagesize -> forall n fuel a b crc,
  Z.to_nat (b - a) = n -> 0 <= a <= b -> (n < fuel)%nat ->
  crc_loop pagesize fuel pack a b crc = Ok (crc32 (slice pack a b) crc).
Proof.
  intros Hp. induction n as [n IH] using lt_wf_ind. intros fuel a b crc Hn Ha Hf.
  destruct fuel as [|fuel]; [lia|]. cbn [crc_loop]. destruct (Z.ltb_spec a b) as [Hlt|Hge].
  - set (m := Z.min (a + chunk_size pagesize) b). assert (a < m <= b) as Hm by (unfold m, chunk_size; lia).
    replace (a + (m - a)) with m by lia. rewrite (IH (Z.to_nat (b - m))) by lia.
    rewrite <- crc32_app, <- slice_split by lia. reflexivity.
  - replace b with a by lia. rewrite slice_spec by lia. rewrite Z.sub_diag. cbn [Z.to_nat firstn]. now rewrite crc32_nil.
Qed.

(** ** is_valid_stream with a crc *)
Lemma in_index {A} (l : list A) x i : 0 <= i -> index l i = Ok x -> In x l.
Proof. intros Hi H. apply index_ok_split in H as (p & q & -> & _); [|lia]. apply in_app_iff. right. now left. Qed.

Section Crc.
  Context (pagesize : Z) (Hps : 0 < pagesize).
  Context (shas : list bytes) (crcs offs : list Z) (trailer : bytes) (ix : pidx).
  Hypothesis Hs : strictly_sorted_shas shas.
  Hypothesis Hc : length crcs = length shas.
  Hypothesis Hc32 : Forall (fun c => 0 <= c < 2 ^ 32) crcs.
  Hypothesis Ho : length offs = length shas.
  Hypothesis Ho31 : Forall (fun o => 0 <= o < 2 ^ 31) offs.
  Hypothesis Hn : len shas < 2 ^ 32.
  Hypothesis Hix : index_open (v2_file shas crcs offs [] trailer) = Ok ix.

  Lemma crc_verdict pack i sha off crc next : 0 <= i -> index shas i = Ok sha -> index offs i = Ok off -> index crcs i = Ok crc ->
    object_end offs (len pack - 20) off next -> off <= next -> is_bytes (slice pack off next) ->
    evaluates (fun f => is_valid_crc pagesize f (mk_entity ix pack) sha) (Ok (crc32 (slice pack off next) 0 =? crc)).
  Proof.
    intros Hi H1 H2 H3 Hend Hle Hb. destruct Hs as [Hall Hss].
    destruct (offsets_v2_small shas crcs offs trailer Hall Hc Hc32 Ho Ho31 Hn) as (ix' & E1 & (Ev & _ & Hr) & E2).
    assert (ix' = ix) as -> by congruence.
    assert (index_file 2 shas crcs offs (v2_file shas crcs offs [] trailer)) as Hfile.
    { constructor; try assumption.
      - clear - Ho31. induction Ho31 as [|x l Hx Hl IH]; [constructor|]. constructor; [left; now split|exact (IH Hl)].
      - constructor. }
    destruct (index_answers _ _ _ _ _ _ Hfile Hs Hix) as [Hyes _].
    destruct (Hyes sha i off Hi H1 H2) as [A1 A2]. destruct (Hr i sha crc off Hi H1 H3 H2) as (_ & A3 & _).
    exists (S (Z.to_nat (next - off))). intros f Hf. unfold is_valid_crc, entity_index. cbn [en_index en_pack]. rewrite Ev. cbn [Z.ltb Z.compare Pos.compare Pos.compare_cont].
    rewrite A1. cbn [bind]. rewrite A2. cbn [bind].
    rewrite (next_offset_ok ix pack offs off next E2 (in_index _ _ _ Hi H2) Hend). cbn [bind]. rewrite A3. cbn [bind].
    assert (0 <= off). { rewrite Forall_forall in Ho31. apply Ho31. apply (in_index _ _ _ Hi H2). }
    rewrite (crc_loop_ok pagesize pack Hps (Z.to_nat (next - off))) by lia. cbn [bind].
    assert (u32 (crc32 (slice pack off next) 0)) as Hu.
    { apply crc32_u32; [unfold u32; lia|exact Hb]. }
    unfold u32 in Hu. rewrite land_32, Z.mod_small by (change (2 ^ 32) with 4294967296 in *; lia). reflexivity.
  Qed.
  (** C32 *)
  Lemma crc_detects a b b' c sha off next : found_at shas offs sha off ->
    object_end offs (len (a ++ b :: c) - 20) off next -> off <= len a < next ->
    is_bytes (a ++ b :: c) -> is_byte b' -> b <> b' ->
    evaluates (fun f => is_valid_crc pagesize f (mk_entity ix (a ++ b :: c)) sha) (Ok true) ->
    evaluates (fun f => is_valid_crc pagesize f (mk_entity ix (a ++ b' :: c)) sha) (Ok false).
  Proof.
    intros (i & H1 & H2 & Hi) Hend Hr Hb Hb' Hne [f0 Ht].
    assert (exists crc, index crcs i = Ok crc) as (crc & H3).
    { apply index_in. apply index_ok_range in H1; [|lia]. unfold len in *. lia. }
    assert (is_bytes (a ++ b' :: c)) as Hb2.
    { rewrite is_bytes_app, is_bytes_cons in *. tauto. }
    assert (len (a ++ b' :: c) = len (a ++ b :: c)) as El by (rewrite !len_app, !len_cons; reflexivity).
    assert (0 <= off). { rewrite Forall_forall in Ho31. apply Ho31. apply (in_index _ _ _ Hi H2). }
    assert (Hsb : forall l : bytes, is_bytes l -> is_bytes (slice l off next)).
    { intros l Hl. rewrite slice_spec by lia. now apply is_bytes_firstn, is_bytes_skipn. }
    destruct (crc_verdict _ _ _ _ _ _ Hi H1 H2 H3 Hend ltac:(lia) (Hsb _ Hb)) as [f1 Hf1].
    assert (Ok (crc32 (slice (a ++ b :: c) off next) 0 =? crc) = Ok true) as E.
    { rewrite <- (Ht (Nat.max f0 f1)) by lia. symmetry. apply Hf1. lia. }
    assert (Hsl : forall x, slice (a ++ x :: c) off next = slice a off (len a) ++ x :: slice c 0 (next - len a - 1)).
    { intros x. pose proof (len_nonneg _ c). rewrite (slice_split _ (a ++ x :: c) off (len a) next) by lia. f_equal.
      - rewrite slice_app_l by lia. reflexivity.
      - rewrite slice_app_r by lia. rewrite (slice_split _ (x :: c) _ 1 _) by lia. rewrite Z.sub_diag.
        rewrite (slice_spec _ _ 0 1) by lia. change (Z.to_nat (1 - 0)) with 1%nat. cbn [Z.to_nat skipn firstn app]. f_equal.
        rewrite !slice_spec by lia. f_equal; lia. }
    assert ((crc32 (slice (a ++ b' :: c) off next) 0 =? crc) = false) as E2.
    { apply Z.eqb_neq. intros E2. injection E as E. apply Z.eqb_eq in E. rewrite <- E in E2. rewrite !Hsl in E2.
      rewrite is_bytes_app, is_bytes_cons in Hb. destruct Hb as (Ba & Bb & Bc).
      apply (crc32_one_byte (slice a off (len a)) b' b (slice c 0 (next - len a - 1)) 0); try assumption; [unfold u32; lia| | |congruence].
      - rewrite slice_spec by lia. now apply is_bytes_firstn, is_bytes_skipn.
      - rewrite slice_spec by lia. now apply is_bytes_firstn, is_bytes_skipn. }
    rewrite <- E2. apply (crc_verdict _ i); try assumption; [now rewrite El|lia|now apply Hsb].
  Qed.
End Crc.

(** ** is_valid_stream with a sha *)
Lemma sha_write_seq l : forall w, write_seq2 sha_write w l = Ok (w ++ concat l).
Proof.
  induction l as [|d l IH]; intros w; cbn [write_seq2 concat]; [now rewrite app_nil_r|]. unfold sha_write at 1. cbn [bind].
  now rewrite IH, app_assoc.
Qed.
Lemma loose_form_header t c : loose_form t c (loose_object_header t (len c) ++ c).
Proof.
  exists (fmt_i (len c)). split; [apply fmt_i_decimal, len_nonneg|]. unfold loose_object_header. now rewrite <- !app_assoc.
Qed.
Lemma dec_value_bounds ds : Forall (fun d => 48 <= d <= 57) ds -> forall acc,
  dec_value acc ds = acc * 10 ^ len ds + dec_value 0 ds /\ 0 <= dec_value 0 ds < 10 ^ len ds.
Proof.
  induction 1 as [|d ds Hd _ IH]; intros acc; cbn [dec_value]; [rewrite len_nil; cbn; lia|].
  destruct (IH (10 * acc + (d - 48))) as [E1 _]. destruct (IH (10 * 0 + (d - 48))) as [E2 E3]. pose proof (len_nonneg _ ds).
  rewrite E1, E2, len_cons, Z.pow_add_r, Z.pow_1_r by lia. nia.
Qed.
Lemma dec_value_inj : forall d1 d2, Forall (fun d => 48 <= d <= 57) d1 -> Forall (fun d => 48 <= d <= 57) d2 -> length d1 = length d2 ->
  dec_value 0 d1 = dec_value 0 d2 -> d1 = d2.
Proof.
  induction d1 as [|a d1 IH]; intros [|b d2] F1 F2 Hl E; cbn in Hl; try lia; [reflexivity|]. inversion F1; inversion F2; subst. cbn [dec_value] in E.
  destruct (dec_value_bounds d1 ltac:(assumption) (10 * 0 + (a - 48))) as [E1 B1]. destruct (dec_value_bounds d2 ltac:(assumption) (10 * 0 + (b - 48))) as [E2 B2].
  rewrite E1, E2 in E. assert (len d1 = len d2) as Hl2 by (unfold len; lia). rewrite Hl2 in *.
  assert (a = b) as -> by nia. f_equal. apply IH; [assumption|assumption|lia|lia].
Qed.
Lemma decimal_len ds n : decimal ds n -> n <> 0 -> 10 ^ (len ds - 1) <= n < 10 ^ len ds.
Proof.
  intros (Hne & HF & Hv & Hz) Hn. destruct ds as [|d ds]; [easy|]. inversion HF; subst. cbn [dec_value hd] in *.
  destruct (dec_value_bounds ds ltac:(assumption) (10 * 0 + (d - 48))) as [E B]. rewrite E, len_cons in *. pose proof (len_nonneg _ ds).
  replace (len ds + 1 - 1) with (len ds) by lia. rewrite Z.pow_add_r, Z.pow_1_r by lia.
  destruct (Z.eq_dec d 48) as [->|]; [|nia]. specialize (Hz eq_refl). injection Hz as ->. cbn in Hn. lia.
Qed.
Lemma decimal_zero ds : decimal ds 0 -> ds = [48].
Proof.
  intros (Hne & HF & Hv & Hz). destruct ds as [|d ds]; [easy|]. inversion HF; subst. cbn [dec_value hd] in *.
  destruct (dec_value_bounds ds ltac:(assumption) (10 * 0 + (d - 48))) as [E B]. rewrite E in Hv. apply Hz. pose proof (len_nonneg _ ds). nia.
Qed.
Lemma decimal_unique d1 d2 n : decimal d1 n -> decimal d2 n -> d1 = d2.
Proof.
  intros H1 H2. destruct (Z.eq_dec n 0) as [->|Hn]; [now rewrite (decimal_zero _ H1), (decimal_zero _ H2)|].
  pose proof (decimal_len _ _ H1 Hn) as L1. pose proof (decimal_len _ _ H2 Hn) as L2.
  destruct H1 as (N1 & F1 & V1 & _), H2 as (N2 & F2 & V2 & _).
  assert (len d1 = len d2) as El.
  { destruct (Z.lt_trichotomy (len d1) (len d2)) as [Hlt|[Heq|Hgt]]; [exfalso|exact Heq|exfalso].
    - assert (10 ^ len d1 <= 10 ^ (len d2 - 1)) by (apply Z.pow_le_mono_r; lia). lia.
    - assert (10 ^ len d2 <= 10 ^ (len d1 - 1)) by (apply Z.pow_le_mono_r; lia). lia. }
  apply dec_value_inj; [assumption|assumption|unfold len in El; lia|congruence].
Qed.
Lemma loose_form_unique t c o1 o2 : loose_form t c o1 -> loose_form t c o2 -> o1 = o2.
Proof.
  intros (d1 & D1 & ->) (d2 & D2 & ->). f_equal. f_equal. f_equal. now apply (decimal_unique _ _ (len c)).
Qed.

Section Sha.
  Context {K : zlib} (L : zlib_laws K) (sha1 : bytes -> bytes) (pagesize : Z) (Hps : 0 < pagesize).
  Notation os_seek0 := (@os_seek0 K).

  Lemma sha_never_false fuel e sha : is_valid_sha K sha1 pagesize fuel e sha <> Ok false.
  Proof.
    unfold is_valid_sha. destruct (entity_stream K fuel e sha) as [o| |]; cbn [bind]; [|discriminate|discriminate].
    destruct (write_object _ _ _ _ _ _ _ _) as [[[n o'] w]| |]; cbn [bind]; [|discriminate|discriminate].
    unfold py_assert. destruct (beq (sha1 w) sha); discriminate.
  Qed.
  Lemma copy_outs f : forall fuel o w size chunk dbw n o' w',
    stream_copy_loop (os_read (K := K) f) sha_write fuel o w size chunk dbw = Ok (n, o', w') ->
    exists ns outs, run_stream (os_read f) os_seek0 o (map Read ns) = Ok outs /\ w' = w ++ concat outs /\ n = dbw + len (concat outs).
  Proof.
    induction fuel as [|fuel IH]; intros o w size chunk dbw n o' w' H; [discriminate|]. cbn [stream_copy_loop] in H.
    apply bind_ok_inv in H as ([d o1] & H1 & H). unfold sha_write at 1 in H. cbn [bind] in H.
    destruct (_ || _).
    - assert (n = dbw + len d) as -> by congruence. assert (w' = w ++ d) as -> by congruence.
      exists [Z.min chunk (size - dbw)], [d]. cbn [map run_stream]. rewrite H1. cbn [bind concat]. rewrite app_nil_r. now repeat split.
    - destruct (IH _ _ _ _ _ _ _ _ H) as (ns & outs & E1 & -> & ->).
      exists (Z.min chunk (size - dbw) :: ns), (d :: outs). cbn [map run_stream]. rewrite H1. cbn [bind]. rewrite E1. cbn [bind concat].
      rewrite len_app, app_assoc. split; [reflexivity|]. split; [reflexivity|lia].
  Qed.
  (** C33 for every pack *)
  Lemma sha_sound fuel e sha : is_valid_sha K sha1 pagesize fuel e sha = Ok true ->
    exists o ns outs ds, entity_stream K fuel e sha = Ok o /\
      run_stream (os_read fuel) os_seek0 o (map Read ns) = Ok outs /\
      ds = fmt_i (os_size o) /\
      sha1 (type_text (os_type o) ++ [32] ++ ds ++ [0] ++ concat outs) = sha.
  Proof.
    unfold is_valid_sha. intros H. apply bind_ok_inv in H as (o & -> & H). apply bind_ok_inv in H as ([[n o'] w] & Hw & H).
    unfold py_assert in H. destruct (beq (sha1 w) sha) eqn:E; [|discriminate]. apply beq_eq in E.
    unfold write_object in Hw. unfold sha_write at 1 in Hw. cbn [bind app] in Hw.
    apply bind_ok_inv in Hw as ([[m o1] w1] & Hc & Hw). unfold stream_copy in Hc.
    destruct (copy_outs _ _ _ _ _ _ _ _ _ _ Hc) as (ns & outs & E1 & -> & ->).
    exists o, ns, outs, (fmt_i (os_size o)). repeat (split; [easy|]).
    assert (w = loose_object_header (type_text (os_type o)) (os_size o) ++ concat outs) as Ew by congruence.
    rewrite <- E, Ew. unfold loose_object_header. now rewrite <- !app_assoc.
  Qed.

  (** Exactly: for an object that can be resolved *)
  Definition at_pos (f : nat) (content : bytes) (o : ostream K) (c : bytes) : Prop :=
    exists pos, c = skipn pos content /\ forall ops, run_stream (os_read f) os_seek0 o ops = Ok (cursor content pos ops).
  Lemma at_pos_sim f content : forall o c n out c1, at_pos f content o c -> sread c n = Ok (out, c1) ->
    exists o1, os_read f o n = Ok (out, o1) /\ at_pos f content o1 c1.
  Proof.
    intros o c n out c1 (pos & -> & Hrun) Hs. unfold sread in Hs. destruct (_ || _) eqn:E; [|discriminate].
    pose proof (Hrun [Read n]) as H0. cbn [run_stream cursor] in H0. apply bind_ok_inv in H0 as ([d o1] & H1 & H2). cbn [bind] in H2.
    set (x := if n <? 1 then skipn pos content else firstn (Z.to_nat n) (skipn pos content)) in *.
    assert (d = x) as -> by congruence.
    assert (x = firstn (Z.to_nat n) (skipn pos content)) as Ex.
    { unfold x. destruct (Z.ltb_spec n 1); [|reflexivity]. assert (len (skipn pos content) = 0) as E0 by lia. apply len_0_nil in E0. rewrite E0. now rewrite firstn_nil. }
    exists o1. split; [congruence|]. exists (pos + length x)%nat. split.
    - assert (c1 = skipn (Z.to_nat n) (skipn pos content)) as -> by congruence. rewrite Ex, skipn_skipn, firstn_length.
      destruct (Nat.le_gt_cases (Z.to_nat n) (length (skipn pos content))).
      + f_equal. lia.
      + rewrite skipn_length in *. rewrite !skipn_all2 by lia. reflexivity.
    - intros ops. pose proof (Hrun (Read n :: ops)) as H3. cbn [run_stream cursor] in H3. fold x in H3. rewrite H1 in H3. cbn [bind] in H3.
      apply bind_ok_inv in H3 as (l & -> & H3). congruence.
  Qed.
  Lemma sha_verdict e sha o content : evaluates (fun f => entity_stream K f e sha) (Ok o) -> os_size o = len content ->
    (exists f0, forall f, (f0 <= f)%nat -> forall ops, run_stream (os_read f) os_seek0 o ops = Ok (cursor content 0 ops)) ->
    forall obj, loose_form (type_text (os_type o)) content obj ->
    evaluates (fun f => is_valid_sha K sha1 pagesize f e sha) (if beq (sha1 obj) sha then Ok true else Raise AssertionError).
  Proof.
    intros [f1 H1] Hsz [f2 H2] obj Hobj. exists (Nat.max (Nat.max f1 f2) (S (length content))). intros f Hf.
    unfold is_valid_sha. rewrite H1 by lia. cbn [bind]. unfold write_object. unfold sha_write at 1. cbn [bind app]. rewrite Hsz.
    set (t := type_text (os_type o)) in *. set (w0 := loose_object_header t (len content)).
    destruct (stream_copy_seq sread sha_write (fun c => c) sread_stream (len content) (chunk_size pagesize) ltac:(unfold chunk_size; lia)
               (Z.to_nat (len content - 0)) content 0 eq_refl) as (pieces & r' & P1 & P2 & P3).
    { pose proof (len_nonneg _ content). lia. }
    { destruct content; [now right|left]. rewrite len_cons. pose proof (len_nonneg _ content). lia. }
    rewrite firstn_all2 in P1 by (unfold len; lia).
    specialize (P3 (S (length content)) w0 ltac:(unfold len; lia)). rewrite sha_write_seq in P3. cbn [bind] in P3.
    assert (at_pos f content o content) as Hat by (exists O; split; [reflexivity|]; apply H2; lia).
    assert (S (length content) <= f)%nat as Hle by lia.
    destruct (sim_copy (os_read f) sread (at_pos f content) (at_pos_sim f content) sha_write (len content) (chunk_size pagesize)
               (S (length content)) f o content w0 0 _ _ _ Hle Hat P3) as (o1 & Hc & _).
    unfold stream_copy. rewrite Hc. cbn [bind]. unfold py_assert.
    rewrite P1. replace (w0 ++ content) with obj; [|apply (loose_form_unique t content); [exact Hobj|apply loose_form_header]].
    destruct (beq (sha1 obj) sha); reflexivity.
  Qed.
  Lemma sha_verdict_once e sha o content : evaluates (fun f => entity_stream K f e sha) (Ok o) -> os_size o = len content ->
    len content <= chunk_size pagesize ->
    (exists f0, forall f, (f0 <= f)%nat -> forall n, n < 1 \/ len content <= n -> run_stream (os_read f) os_seek0 o [Read n] = Ok [content]) ->
    forall obj, loose_form (type_text (os_type o)) content obj ->
    evaluates (fun f => is_valid_sha K sha1 pagesize f e sha) (if beq (sha1 obj) sha then Ok true else Raise AssertionError).
  Proof.
    intros [f1 H1] Hsz Hle [f2 H2] obj Hobj. exists (S (Nat.max f1 f2)). intros f Hf.
    unfold is_valid_sha. rewrite H1 by lia. cbn [bind]. unfold write_object. unfold sha_write at 1. cbn [bind app]. rewrite Hsz.
    set (t := type_text (os_type o)) in *. set (w0 := loose_object_header t (len content)).
    pose proof (H2 f ltac:(lia) (len content) ltac:(lia)) as Hr. cbn [run_stream] in Hr.
    apply bind_ok_inv in Hr as ([d o1] & Hr & Hd). cbn [bind] in Hd. assert (d = content) as -> by congruence.
    unfold stream_copy. destruct f as [|f]; [lia|]. cbn [stream_copy_loop].
    replace (Z.min (chunk_size pagesize) (len content - 0)) with (len content) by lia. rewrite Hr. cbn [bind].
    unfold sha_write at 1. cbn [bind]. rewrite Z.add_0_l, Z.eqb_refl, orb_true_r. cbn [bind]. unfold py_assert.
    replace (w0 ++ content) with obj; [|apply (loose_form_unique t content); [exact Hobj|apply loose_form_header]].
    destruct (beq (sha1 obj) sha); reflexivity.
  Qed.
End Sha.

(** Beyond 4 GiB: the offset is not among those of offsets(). *)
Lemma dict_get_none k : forall pairs found, ~ In k (map fst pairs) -> dict_get k pairs found = found.
Proof.
  induction pairs as [|[a b] l IH]; intros found H; [easy|]. cbn [dict_get]. rewrite IH; [|intros Hin; apply H; now right].
  destruct (Z.eqb_spec a k) as [E|E]; [|easy]. exfalso. apply H. now left.
Qed.
Lemma crc_beyond shas crcs offs d ix sha off : index_file 2 shas crcs offs d -> strictly_sorted_shas shas -> index_open d = Ok ix -> found_at shas offs sha off -> 2 ^ 32 <= off ->
  forall pagesize fuel pack, is_valid_crc pagesize fuel (mk_entity ix pack) sha = Raise KeyError.
Proof.
  intros Hf Hs Hix (i & H1 & H2 & Hi) Hoff pagesize fuel pack.
  destruct (offsets_v2_large shas crcs offs d off Hf (in_index _ _ _ Hi H2) Hoff) as (ix' & E & (Ev & _) & l & El & Hlen & Hno).
  assert (ix' = ix) as -> by congruence.
  destruct (index_answers _ _ _ _ _ _ Hf Hs Hix) as [Hyes _]. destruct (Hyes sha i off Hi H1 H2) as [A1 A2].
  unfold is_valid_crc, entity_index, next_offset. cbn [en_index en_pack]. rewrite Ev. change (2 <? 2) with false. cbv iota.
  rewrite A1. cbn [bind]. rewrite A2. cbn [bind]. rewrite El. cbn [bind].
  assert (Hp : Permutation l (sort_z l)) by apply sort_z_perm. unfold py_assert.
  replace (len (sort_z l) =? 0) with false.
  2: { symmetry. apply Z.eqb_neq. intros E0. unfold len in E0. rewrite <- (Permutation_length Hp), Hlen in E0. pose proof (in_index _ _ _ Hi H2) as Hin. destruct offs; [easy|cbn [length] in E0; lia]. }
  cbn [negb]. rewrite dict_get_none; [easy|]. intros Hin. apply Hno. apply (Permutation_in _ (Permutation_sym Hp)).
  apply in_map_iff in Hin as ([a b] & Ea & Hin). cbn [fst] in Ea. subst a. now apply in_combine_l in Hin.
Qed.
