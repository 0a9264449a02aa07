(** Reads across the end of the header buffer of an object in stored blocks. *)
From Coq Require Import ZifyBool ZifyNat.
From Verif Require Import Py PyFacts FunModel FunSpec FunProofs ZlibModel ZlibProofs ReaderModel StreamSpec ReaderProofs CrossProofs DeflateModel DeflateProofs DeflateDense CompressModel CutProofs StoredBlocks.
From Verif Require LooseTop.
Ltac Zify.zify_post_hook ::= Z.div_mod_to_equations.

Definition dcomp (level : Z) (d : bytes) : bytes := if level =? 0 then s_compress d else fixed_compress d.
Notation hdr t c := (loose_object_header t (len c)).

(** The first 8199 bytes of the stream, and what follows them *)
Lemma stored_first first l rest : l <> [] -> 8192 < len first <= 65535 -> exists a b x more d1 d2 e2,
  stored_stream (first :: l) ++ rest = a ++ b ++ x :: more /\ len a = 8192 /\ len b = 7 /\ first = d1 ++ d2 ++ x :: e2 /\ len d1 = 8185 /\ len d2 = 7 /\
  fed inflate_start a (stt (PCopy (len first - 8185)) false d1) d1 /\ fed (stt (PCopy (len first - 8185)) false d1) b (stt (PCopy (len first - 8192)) false (d1 ++ d2)) d2 /\
  x :: more = (x :: e2) ++ stored_blocks l ++ adler_bytes (adler (concat (first :: l))) ++ rest.
Proof.
  intros Hl Hf.
  assert (E : first = firstn (Z.to_nat 8185) first ++ firstn 7 (skipn (Z.to_nat 8185) first) ++ skipn 7 (skipn (Z.to_nat 8185) first)) by now rewrite !firstn_skipn.
  assert (L1 : len (firstn (Z.to_nat 8185) first) = 8185) by (unfold len in *; rewrite firstn_length; lia).
  assert (L2 : len (firstn 7 (skipn (Z.to_nat 8185) first)) = 7) by (unfold len in *; rewrite firstn_length, skipn_length; lia).
  revert E L1 L2. generalize (firstn (Z.to_nat 8185) first) as d1. generalize (firstn 7 (skipn (Z.to_nat 8185) first)) as d2. generalize (skipn 7 (skipn (Z.to_nat 8185) first)) as e2. intros e2 d2 d1 E L1 L2.
  assert (L : len first = 8192 + len e2) by (rewrite E, !len_app; lia). destruct e2 as [|x e2]; [rewrite len_nil in L; lia|].
  exists ([120; 1] ++ block_head false (len first) ++ d1), d2, x.
  exists (e2 ++ stored_blocks l ++ adler_bytes (adler (concat (first :: l))) ++ rest), d1, d2, e2.
  split. { unfold stored_stream. destruct l as [|b2 l]; [easy|]. change (stored_blocks (first :: b2 :: l)) with (s_block false first ++ stored_blocks (b2 :: l)).
    rewrite block_form. rewrite E at 2. now rewrite <- !app_assoc. }
  split. { rewrite !len_app, L1. reflexivity. }
  split; [exact L2|]. split; [exact E|]. split; [exact L1|]. split; [exact L2|]. split.
  { apply fed_head. change d1 with ([] ++ d1) at 3. eapply fed_app; [apply (fed_block_head dcomp); lia|]. rewrite <- L1 at 1. apply (fed_part dcomp d1 (len first) false []). lia. }
  split; [|reflexivity]. replace (len first - 8192) with (len first - 8185 - len d2) by lia. apply (fed_part dcomp). lia.
Qed.

(** What parsing the header leaves *)
Lemma stored_parse t c first l rest : ~ In BYTE_SPACE t -> ~ In NULL_BYTE t -> len (hdr t c) <= 8192 -> l <> [] -> 8192 < len first <= 65535 -> hdr t c ++ c = concat (first :: l) ->
  exists pre x more w d e2 r, stored_stream (first :: l) ++ rest = pre ++ x :: more /\ len pre = 8199 /\ first = d ++ x :: e2 /\ d = hdr t c ++ w /\ len d = 8192 /\
    x :: more = (x :: e2) ++ stored_blocks l ++ adler_bytes (adler (concat (first :: l))) ++ rest /\
    parse_header_info 6 (reader_init deflate (stored_stream (first :: l) ++ rest) (Some 0)) = Ok (t, len c, r) /\
    r_m r = stored_stream (first :: l) ++ rest /\ r_zip r = mk_a (stt (PCopy (len first - 8192)) false d) [] [x] [] /\ r_cwe r = 8200 /\ r_buf r = Some w /\ r_br r = 0.
Proof.
  intros Hsp Hnu Hh Hl Hf Hraw. destruct (stored_first first l rest Hl Hf) as (a & b & x & more & d1 & d2 & e2 & E & La & Lb & Ef & Ld1 & Ld2 & Fa & Fb & Em).
  destruct (parse_ok t c Hsp Hnu (d1 ++ d2) (x :: e2 ++ concat l)) as (Pp & Pf & w & Ew & Ec).
  { rewrite Hraw. cbn [concat]. rewrite Ef at 1. now rewrite <- !app_assoc. } { rewrite app_length. unfold len in *. lia. }
  set (h := hdr t c) in *.
  assert (Lw : len h + len w = 8192) by (rewrite <- len_app, <- Ew, len_app; lia).
  exists (a ++ b), x, more, w, (d1 ++ d2), e2. eexists. split; [now rewrite <- app_assoc|]. split; [rewrite len_app; lia|]. split; [now rewrite <- app_assoc|].
  split; [exact Ew|]. split; [rewrite len_app; lia|]. split; [exact Em|]. split.
  { set (m := stored_stream (first :: l) ++ rest) in *.
    unfold parse_header_info. cbn [r_m r_zip r_buf r_buflen r_br r_cws r_cwe r_cbr r_phi reader_init].
    rewrite (read_s_step dcomp _ _ _ _ 8192); [|reflexivity|reflexivity|lia].
    erewrite (read_rest_step dcomp).
    2:{ apply (some_fed dcomp _ inflate_start [] 0 8192 a (stt (PCopy (len first - 8185)) false d1) d1 8192); [reflexivity|reflexivity| |exact Fa|lia|reflexivity].
      cbn [r_m]. rewrite E. change (a ++ b ++ x :: more) with ([] ++ a ++ b ++ x :: more). apply slice_mid; [reflexivity|]. rewrite len_nil. lia. }
    cbn [app r_br]. rewrite len_nil. replace (negb (len d1 =? 0) && (len d1 - 0 <? 8192) && (0 + len d1 <? 8192)) with true by (rewrite Ld1; reflexivity).
    rewrite (read_s_step dcomp _ _ _ _ 7); [|reflexivity|cbn [r_br]; rewrite Ld1; reflexivity|lia].
    erewrite (read_rest_step dcomp).
    2:{ apply (some_over dcomp _ (stt (PCopy (len first - 8185)) false d1) [] 8192 8200 b [x] (stt (PCopy (len first - 8192)) false (d1 ++ d2)) d2 7); [reflexivity| | |exact Fb|exact Ld2|reflexivity].
      - cbn [r_cws r_cwe]. rewrite La. reflexivity.
      - cbn [r_m]. rewrite E. change (x :: more) with ([x] ++ more). rewrite (app_assoc b). apply slice_mid; [lia|]. rewrite len_app, Lb. change (len [x]) with 1. lia. }
    cbn [app r_br]. rewrite len_nil. replace (negb (len d2 =? 0) && (len d2 - 0 <? 7) && (0 + len d1 + len d2 <? 8192)) with false by (rewrite Ld2; reflexivity).
    cbn [bind]. rewrite Pp. cbn [bind r_m r_zip r_cws r_cwe r_cbr]. rewrite Pf. replace (len h - 1 + 1) with (len h) by lia.
    assert (Es : slice_from (d1 ++ d2) (len h) = w) by (rewrite Ew; now apply slice_from_app). rewrite Es. reflexivity. }
  cbn [r_m r_zip r_cwe r_buf r_br reader_init]. do 2 (split; [reflexivity|]). split; [rewrite len_app, Lb; reflexivity|]. now split.
Qed.

Lemma stored_stream_ok blocks : Forall block_ok blocks -> is_bytes (concat blocks) -> zl_stream deflate_laws (stored_stream blocks) (concat blocks).
Proof.
  intros H Hb. split; [|split; [exact Hb|now apply stored_stream_run]]. unfold stored_stream. apply Forall_app. split; [repeat constructor; unfold is_byte; lia|].
  apply Forall_app. split; [|apply adler_bytes_bytes]. clear - H Hb. induction H as [|b l Hk Hl IH]; [apply s_block_bytes; [constructor|cbn; lia]|].
  cbn [concat] in Hb. apply Forall_app in Hb as [H1 H2]. destruct l as [|b2 l]; [apply s_block_bytes; [exact H1|apply Hk]|].
  change (stored_blocks (b :: b2 :: l)) with (s_block false b ++ stored_blocks (b2 :: l)). apply Forall_app. split; [apply s_block_bytes; [exact H1|apply Hk]|]. now apply IH.
Qed.
Lemma stored_blocks_at mid cur back : exists fin y, stored_blocks (mid ++ cur :: back) = stored_part mid ++ s_block fin cur ++ y.
Proof.
  induction mid as [|b l (fin & y & IH)].
  - cbn [app stored_part flat_map]. destruct back as [|b2 l]; [exists true, []; now rewrite app_nil_r|]. exists false, (stored_blocks (b2 :: l)). reflexivity.
  - exists fin, y. cbn [app stored_part flat_map]. fold (stored_part l). rewrite <- app_assoc, <- IH. destruct (l ++ cur :: back) as [|b2 l2] eqn:E; [destruct l; discriminate E|]. reflexivity.
Qed.
(** The states inside a block *)
Lemma fed_head_part fin f0 out n k : 0 < n <= 65535 -> 0 <= k < 5 -> exists u v st, block_head fin n = u ++ v /\ len u = k /\
  fed (stt (collect GBlock 3) f0 out) u st [] /\ inflate_done st = false.
Proof.
  intros Hn Hk. destruct (split_at (block_head fin n) k) as (u & v & E & Lu); [change (len (block_head fin n)) with 5; lia|].
  pose proof (fed_block_head dcomp fin f0 out n Hn) as F. assert (L : len (u ++ v) = 5) by (rewrite <- E; reflexivity). rewrite len_app in L. rewrite E in F.
  destruct (fed_split _ _ _ _ _ F) as (st & o1 & o2 & F1 & F2 & Eo). symmetry in Eo. apply app_eq_nil in Eo as [-> ->].
  exists u, v, st. split; [exact E|]. split; [exact Lu|]. split; [exact F1|]. destruct v as [|y v]; [rewrite len_nil in L; lia|]. now inversion F2.
Qed.
Lemma block_part fin out b i : block_ok b -> 0 <= i < 5 + len b -> exists u v st o, s_block fin b = u ++ v /\ len u = i /\
  fed (stt (collect GBlock 3) false out) u st o /\ inflate_done st = false /\ len o = Z.max 0 (i - 5).
Proof.
  intros Hb Hi. rewrite block_form. destruct (Z.lt_ge_cases i 5) as [H|H].
  - destruct (fed_head_part fin false out (len b) i Hb ltac:(lia)) as (u & v & st & E & Lu & F & Hd). exists u, (v ++ b), st, []. rewrite E, <- app_assoc.
    split; [reflexivity|]. split; [exact Lu|]. split; [exact F|]. split; [exact Hd|]. rewrite len_nil. lia.
  - destruct (split_at b (i - 5)) as (u1 & u2 & Eu & Lu); [lia|].
    assert (F : fed (stt (collect GBlock 3) false out) (block_head fin (len b) ++ u1) (stt (PCopy (len b - len u1)) fin (out ++ u1)) ([] ++ u1))
      by (eapply fed_app; [apply (fed_block_head dcomp); exact Hb|apply (fed_part dcomp); lia]).
    exists (block_head fin (len b) ++ u1), u2. eexists. eexists. split; [|split; [|split; [exact F|split; [reflexivity|]]]].
    + generalize (block_head fin (len b)). intros H0. rewrite Eu. now rewrite <- app_assoc.
    + rewrite len_app. change (len (block_head fin (len b))) with 5. lia.
    + cbn [app]. lia.
Qed.
(** The compressed bytes looked at end inside the block cur: m bytes are missing, 5 for each block before it. *)
Lemma stored_cross t c first mid cur back rest n :
  ~ In BYTE_SPACE t -> ~ In NULL_BYTE t -> is_bytes t -> is_bytes c -> len (hdr t c) <= 8192 -> Forall block_ok (first :: mid ++ cur :: back) -> 8200 <= len first ->
  hdr t c ++ c = concat (first :: mid ++ cur :: back) ->
  let B := 8192 - len (hdr t c) in let q := asked n (len c) in let j := len mid + 1 in let D := len (concat (first :: mid)) in
  let m := Z.min (5 * j) (len (hdr t c) + q - D) in
  D + 5 * (j - 1) <= len (hdr t c) + q < D + 5 * j + len cur ->
  evaluates (fun f => read_object (K := deflate) (stored_stream (first :: mid ++ cur :: back) ++ rest) f [Read n])
    (Ok (t, len c, [if m =? 0 then firstn (Z.to_nat q) c else if m <=? B then c else firstn (Z.to_nat (q - B)) c])).
Proof.
  intros Hsp Hnu Ht Hc Hh Hok Hf Hraw B q j D m Hq.
  assert (Hbytes : is_bytes (hdr t c ++ c)) by (apply Forall_app; split; [apply LooseTop.header_bytes; [exact Ht|apply len_nonneg]|exact Hc]).
  rewrite Hraw in Hbytes. pose proof (stored_stream_ok _ Hok Hbytes) as Hz. pose proof (stored_dense _ Hok) as Hd. rewrite <- Hraw in Hz, Hd.
  assert (Hf6 : 8192 < len first <= 65535) by (inversion Hok as [|? ? [? ?] ?]; lia).
  destruct (stored_parse t c first (mid ++ cur :: back) rest Hsp Hnu Hh ltac:(now destruct mid) Hf6 Hraw) as (pre & x & more & w & d & e2 & r & E & Lp & Ef & Ew & Ld & Em & R1 & Rm & Rz & Rw & Rb & Rr).
  set (z := stored_stream (first :: mid ++ cur :: back)) in *.
  set (f0 := (2 * length (hdr t c ++ c) + 8)%nat).
  destruct (parse_dense deflate_laws t c z rest Hz Hsp Hnu _ f0 (or_introl Hd) Hh (N_init deflate_laws t c z rest Hz (Some 0)) ltac:(lia)) as (r' & R1' & HP).
  assert (Er : Ok (t, len c, r) = Ok (t, len c, r')) by (pose proof (parse_mono 6 f0 _ _ ltac:(unfold f0; lia) R1) as R1''; exact (eq_trans (eq_sym R1'') R1')).
  injection Er as <-.
  assert (Hlw : len w = B) by (rewrite Ew, len_app in Ld; unfold B; lia).
  assert (HD : len first <= D) by (unfold D; cbn [concat]; rewrite len_app; pose proof (len_nonneg _ (concat mid)); lia).
  pose proof (len_nonneg _ mid) as Hm0.
  assert (Hq2 : q = if n <? 1 then len c - r_br r else Z.min n (len c - r_br r)) by (rewrite Rr, Z.sub_0_r; reflexivity).
  destruct (P_cross deflate_laws t c z rest Hz Hd _ r 0 n f0 w q HP ltac:(unfold f0; rewrite app_length; lia) Rb Hq2 ltac:(lia)) as (o1 & r2 & I1 & out & r3 & J1 & J2 & J3 & J4).
  assert (Ho1 : len o1 = q - B - m).
  { destruct (stored_blocks_at mid cur back) as (fin & y & Es). 
    destruct (block_part fin ((d ++ x :: e2) ++ concat mid) cur (len (hdr t c) + q - D - 5 * (j - 1))) as (u1 & u2 & st & o & Eu & Lu & Fu & Hdu & Lou); [|lia|].
    { inversion Hok as [|? ? ? Hok2]. apply Forall_app in Hok2 as [_ Hok2]. now inversion Hok2. }
    set (inp := (x :: e2) ++ stored_part mid ++ u1).
    assert (Hff : fed (stt (PCopy (len first - 8192)) false d) inp st ((x :: e2) ++ concat mid ++ o)).
    { replace (len first - 8192) with (len (x :: e2)) by (rewrite Ef, len_app; lia). eapply fed_app; [apply fed_copy; discriminate|]. eapply fed_app; [|exact Fu].
      apply CutProofs.stored_fed. inversion Hok as [|? ? ? Hok2]. apply Forall_app in Hok2 as [Hok2 _]. eapply Forall_impl; [|exact Hok2]. intros k [_ Hk]. exact Hk. }
    assert (Lo : len ((x :: e2) ++ concat mid ++ o) = q - B - Z.min (5 * j) (len (hdr t c) + q - D)).
    { rewrite !len_app, Lou. unfold D, B in *. cbn [concat] in *. rewrite !len_app in *. rewrite Ef, len_app in *. lia. }
    assert (Li : len inp = q - B).
    { unfold inp. rewrite !len_app, (stored_part_len dcomp), Lu. unfold D, B, j in *. cbn [concat] in *. rewrite !len_app in *. rewrite Ef, len_app in *. lia. }
    erewrite (some_fed dcomp _ (stt (PCopy (len first - 8192)) false d) [x] 8199 (8199 + (q - B)) inp) in I1; [| | | |exact Hff|rewrite Lo; lia|exact Hdu].
    - apply (f_equal (fun v => match v with Ok (a, _) => len a | _ => 0 end)) in I1. cbv beta iota in I1. rewrite <- I1. exact Lo.
    - cbn [r_zip with_buf]. exact Rz.
    - cbn [r_cws r_cwe with_buf]. unfold window. rewrite Rw, Hlw. change (len [x]) with 1. cbn [Z.eqb negb]. replace (8200 - 1) with 8199 by reflexivity.
      replace (8199 + (q - B) - 8199 <? 8) with false by lia. reflexivity.
    - cbn [r_m with_buf]. rewrite Rm, E.
      assert (exists v, x :: more = inp ++ v) as (v & ->).
      { rewrite Em, Es, Eu. unfold inp. eexists. rewrite <- !app_assoc. reflexivity. }
      apply slice_mid; [lia|]. lia. }
  assert (Hm : 0 <= m) by (unfold m; lia). clearbody m.
  rewrite Ho1, Hlw, Rr in J4. exists f0. intros f Hfu. unfold read_object, reader_new. rewrite (parse_mono f0 f _ _ Hfu R1'). cbn [bind run_stream]. rewrite (read_mono f0 f _ _ _ Hfu J1). cbn [bind].
  rewrite Nat.add_0_l in *. cbn [skipn] in J3. do 3 f_equal. rewrite J3. destruct (m =? 0) eqn:E0; [replace (q - B - m =? q - B) with true in J4 by lia; f_equal; unfold len in J4; lia|].
  replace (q - B - m =? q - B) with false in J4 by lia. destruct (m <=? B) eqn:E5.
  - replace (2 * B + (q - B - m) <? q) with false in J4 by lia. apply firstn_all2. unfold len in J4. lia.
  - replace (2 * B + (q - B - m) <? q) with true in J4 by lia. f_equal. unfold len in J4. lia.
Qed.
(** Where the compressed bytes looked at end *)
Lemma cut_at (l : list bytes) : forall D j X, 1 <= j -> l <> [] -> D + 5 * (j - 1) <= X <= D + len (concat l) ->
  exists mid cur back, l = mid ++ cur :: back /\ D + len (concat mid) + 5 * (j + len mid - 1) <= X < D + len (concat mid) + 5 * (j + len mid) + len cur.
Proof.
  induction l as [|b l IH]; intros D j X Hj Hne HX; [easy|]. cbn [concat] in HX. rewrite len_app in HX.
  destruct (Z.lt_ge_cases X (D + 5 * j + len b)) as [H|H]; [exists [], b, l; cbn [app concat]; rewrite !len_nil; split; [reflexivity|lia]|].
  destruct l as [|b2 l]; [cbn [concat] in HX; rewrite len_nil in HX; lia|].
  destruct (IH (D + len b) (j + 1) X ltac:(lia) ltac:(discriminate) ltac:(lia)) as (mid & cur & back & E & HX2).
  exists (b :: mid), cur, back. rewrite E. split; [reflexivity|]. cbn [concat]. rewrite len_app, len_cons. lia.
Qed.

Section Object.
  Context (t c first : bytes) (l : list bytes) (rest : bytes).
  Context (Hsp : ~ In BYTE_SPACE t) (Hnu : ~ In NULL_BYTE t) (Ht : is_bytes t) (Hc : is_bytes c) (Hh : len (hdr t c) <= 8192).
  Context (Hok : Forall block_ok (first :: l)) (Hf : 8200 <= len first) (Hl : l <> []) (Hraw : hdr t c ++ c = concat (first :: l)).
  Lemma object_stream : zl_stream deflate_laws (stored_stream (first :: l)) (hdr t c ++ c).
  Proof. rewrite Hraw. apply stored_stream_ok; [exact Hok|]. rewrite <- Hraw. apply Forall_app. split; [apply LooseTop.header_bytes; [exact Ht|apply len_nonneg]|exact Hc]. Qed.
  Lemma object_len : len (hdr t c) + len c = len first + len (concat l).
  Proof. apply (f_equal len) in Hraw. cbn [concat] in Hraw. rewrite !len_app in Hraw. exact Hraw. Qed.
  (** What a read across the end of the first block returns *)
  Lemma object_cut n : len first <= len (hdr t c) + asked n (len c) -> exists mid cur back, l = mid ++ cur :: back /\
    let q := asked n (len c) in let D := len first + len (concat mid) in let m := Z.min (5 * (len mid + 1)) (len (hdr t c) + q - D) in
    D + 5 * len mid <= len (hdr t c) + q < D + 5 * (len mid + 1) + len cur /\
    evaluates (fun f => read_object (K := deflate) (stored_stream (first :: l) ++ rest) f [Read n])
      (Ok (t, len c, [if m =? 0 then firstn (Z.to_nat q) c else if m <=? 8192 - len (hdr t c) then c else firstn (Z.to_nat (q - (8192 - len (hdr t c)))) c])).
  Proof.
    intros Hq. pose proof object_len as HL. set (q := asked n (len c)) in *.
    assert (Hq2 : q <= len c) by (unfold q, asked; destruct (n <? 1); lia).
    destruct (cut_at l (len first) 1 (len (hdr t c) + q) ltac:(lia) Hl ltac:(lia)) as (mid & cur & back & E & HX).
    exists mid, cur, back. split; [exact E|]. cbv zeta. split; [lia|]. rewrite E in Hok, Hraw.
    pose proof (stored_cross t c first mid cur back rest n Hsp Hnu Ht Hc Hh Hok Hf Hraw) as H. cbv zeta in H. cbn [concat] in H. rewrite len_app in H. fold q in H. rewrite E. apply H. lia.
  Qed.
  (** Few blocks: everything is returned, however little is asked for. *)
  Lemma object_few n : 5 * len l <= 8192 - len (hdr t c) -> len first < len (hdr t c) + asked n (len c) ->
    evaluates (fun f => read_object (K := deflate) (stored_stream (first :: l) ++ rest) f [Read n]) (Ok (t, len c, [c])).
  Proof.
    intros H5 Hn. destruct (object_cut n ltac:(lia)) as (mid & cur & back & E & HX & H). cbv zeta in *. set (q := asked n (len c)) in *.
    assert (len l = len mid + len back + 1) as El by (rewrite E, len_app, len_cons; lia). pose proof (len_nonneg _ mid). pose proof (len_nonneg _ back).
    set (m := Z.min _ _) in H. replace (m =? 0) with false in H; [replace (m <=? 8192 - len (hdr t c)) with true in H by lia; exact H|].
    clear H. symmetry. apply Z.eqb_neq. unfold m. destruct mid as [|b mid]; [cbn [concat] in *; change (len []) with 0; change (@len bytes []) with 0; lia|].
    rewrite (len_cons _ b mid) in *. pose proof (len_nonneg _ mid). lia.
  Qed.
  (** Many blocks: read() loses the size of the buffer. *)
  Lemma object_many n : Forall (fun b => 5 * len (first :: l) <= len b) (removelast (first :: l)) -> 8192 - len (hdr t c) < 5 * (len (first :: l) - 3) -> n < 1 \/ len c <= n ->
    evaluates (fun f => read_object (K := deflate) (stored_stream (first :: l) ++ rest) f [Read n])
      (Ok (t, len c, [firstn (Z.to_nat (len c - (8192 - len (hdr t c)))) c])).
  Proof.
    intros Hb Hm Hn. assert (Eq : asked n (len c) = len c) by (unfold asked; destruct (Z.ltb_spec n 1); lia). pose proof object_len as HL. pose proof (len_nonneg _ (concat l)).
    destruct (object_cut n ltac:(lia)) as (mid & cur & back & E & HX & H0). cbv zeta in *. rewrite Eq in *.
    assert (El : len l = len mid + len back + 1) by (rewrite E, len_app, len_cons; lia). rewrite len_cons in *.
    assert (Hback : len back <= 1).
    { destruct back as [|b1 [|b2 back]]; [rewrite len_nil; lia|rewrite len_cons, len_nil; lia|]. exfalso.
      assert (In b1 (removelast (first :: l))) as Hin.
      { rewrite E. change (first :: mid ++ cur :: b1 :: b2 :: back) with ((first :: mid) ++ cur :: b1 :: b2 :: back). rewrite removelast_app by discriminate. apply in_or_app. right.
        change (removelast (cur :: b1 :: b2 :: back)) with (cur :: b1 :: removelast (b2 :: back)). right. now left. }
      rewrite Forall_forall in Hb. specialize (Hb b1 Hin). rewrite E, concat_app, len_app in HL. cbn [concat] in HL. rewrite !len_app in HL.
      rewrite !len_cons in El. pose proof (len_nonneg _ back). pose proof (len_nonneg _ b2). pose proof (len_nonneg _ (concat back)). pose proof (len_nonneg _ mid). lia. }
    set (m := Z.min _ _) in H0. replace (m =? 0) with false in H0 by lia. replace (m <=? 8192 - len (hdr t c)) with false in H0 by lia. exact H0.
  Qed.
End Object.
