(** Proofs about the pack index model. *)
From Coq Require Import ZifyBool ZifyNat Sorting.Sorted Sorting.Permutation.
From Verif Require Import Py PyFacts FunModel FunSpec FunProofs IndexModel IndexSpec.
Ltac Zify.zify_post_hook ::= Z.div_mod_to_equations.

(** ** Tables *)
Lemma table_len n l : len (table n l) = Z.of_nat n * len l.
Proof.
  unfold table. induction l as [|x l IH]; cbn [map concat]; [rewrite !len_nil; lia|].
  rewrite len_app, be_enc_len, IH, len_cons. lia.
Qed.
Lemma table_app n a b : table n (a ++ b) = table n a ++ table n b.
Proof. unfold table. now rewrite map_app, concat_app. Qed.
Lemma table_cons n x b : table n (x :: b) = be_enc n x ++ table n b.
Proof. reflexivity. Qed.

Lemma nth_error_index A (l : list A) k : index l (Z.of_nat k) = match nth_error l k with Some x => Ok x | None => Raise IndexError end.
Proof.
  unfold index, len. replace (Z.of_nat k <? 0) with false by lia. rewrite Nat2Z.id.
  destruct (nth_error l k) as [x|] eqn:E.
  - assert (nth_error l k <> None) as H by congruence. apply nth_error_Some in H.
    now replace ((0 <=? Z.of_nat k) && (Z.of_nat k <? Z.of_nat (length l))) with true by lia.
  - now destruct (_ && _).
Qed.

Lemma unpack_table n l a c i v off :
  0 <= i -> index l i = Ok v -> 0 <= v < 256 ^ Z.of_nat n -> off = len a + Z.of_nat n * i ->
  unpack_be n (a ++ table n l ++ c) off = Ok v.
Proof.
  intros Hi Hl Hv ->. apply index_ok_split in Hl as (l1 & l2 & -> & Hl1); [|easy].
  rewrite table_app, table_cons.
  replace (a ++ (table n l1 ++ be_enc n v ++ table n l2) ++ c)
    with ((a ++ table n l1) ++ be_enc n v ++ (table n l2 ++ c)) by now rewrite <- !app_assoc.
  apply unpack_be_app; [easy|]. rewrite len_app, table_len. lia.
Qed.

Lemma read_fanout_ok n : forall l a c off,
  length l = n -> Forall (fun v => 0 <= v < 2 ^ 32) l -> off = len a ->
  read_fanout n (a ++ table 4 l ++ c) off = Ok l.
Proof.
  induction n as [|n IH]; intros l a c off Hn Hl ->.
  - now destruct l.
  - destruct l as [|x l]; [discriminate|]. inversion Hl; subst.
    cbn [read_fanout]. rewrite table_cons, <- app_assoc.
    rewrite unpack_be_app by (easy || (cbn; lia)). cbn [bind].
    replace (a ++ be_enc 4 x ++ table 4 l ++ c) with ((a ++ be_enc 4 x) ++ table 4 l ++ c)
      by now rewrite <- !app_assoc.
    rewrite IH; [easy|cbn in Hn; lia|easy|]. rewrite len_app, be_enc_len. lia.
Qed.

Lemma be32_array_table l : Forall (fun v => 0 <= v < 2 ^ 32) l -> be32_array (table 4 l) = Ok l.
Proof.
  induction 1 as [|x l Hx Hl IH]; [easy|].
  rewrite table_cons. pose proof (be_dec_enc 4 x ltac:(cbn; lia)) as Hd.
  remember (be_enc 4 x) as e eqn:He. pose proof (be_enc_length 4 x) as Hlen. rewrite <- He in Hlen.
  destruct e as [|a [|b [|c [|d [|? ?]]]]]; try discriminate.
  cbn [app be32_array]. rewrite IH. cbn [bind]. now rewrite Hd.
Qed.

Lemma len_concat_shas shas : Forall sha_ok shas -> len (concat shas) = 20 * len shas.
Proof.
  induction 1 as [|s l [Hs _] Hl IH]; cbn [concat]; [rewrite !len_nil; lia|].
  rewrite len_app, len_cons, IH, Hs. lia.
Qed.
Lemma slice_shas shas a c i s off :
  Forall sha_ok shas -> 0 <= i -> index shas i = Ok s -> off = len a + i * 20 ->
  slice (a ++ concat shas ++ c) off (off + 20) = s.
Proof.
  intros Hs Hi Hx ->. apply index_ok_split in Hx as (l1 & l2 & -> & Hl1); [|easy].
  apply Forall_app in Hs as [H1 H2]. inversion H2 as [|? ? [H3 _] H4]; subst.
  rewrite concat_app. cbn [concat].
  replace (a ++ (concat l1 ++ s ++ concat l2) ++ c) with ((a ++ concat l1) ++ s ++ (concat l2 ++ c))
    by now rewrite <- !app_assoc.
  apply slice_mid; rewrite len_app, len_concat_shas by easy; lia.
Qed.

(** ** Fanout *)
Lemma len_filter_le A (f : A -> bool) l : 0 <= len (filter f l) <= len l.
Proof.
  induction l as [|x l IH]; cbn [filter]; [cbn; lia|].
  destruct (f x); rewrite ?len_cons; lia.
Qed.
Lemma fanout_length shas : length (fanout_of shas) = 256%nat.
Proof. unfold fanout_of. now rewrite map_length, seq_length. Qed.
Lemma fanout_range shas n : len shas < n -> Forall (fun v => 0 <= v < n) (fanout_of shas).
Proof.
  intros H. unfold fanout_of. apply Forall_forall. intros v Hv.
  apply in_map_iff in Hv as (b & <- & _).
  pose proof (len_filter_le _ (fun s => hd 0 s <=? Z.of_nat b) shas). unfold bytes in *; lia.
Qed.
Lemma fanout_index shas b : 0 <= b < 256 ->
  index (fanout_of shas) b = Ok (len (filter (fun s => hd 0 s <=? b) shas)).
Proof.
  intros Hb. replace b with (Z.of_nat (Z.to_nat b)) at 1 by lia. rewrite nth_error_index.
  unfold fanout_of. rewrite nth_error_map.
  assert (nth_error (seq 0 256) (Z.to_nat b) = Some (Z.to_nat b)) as ->.
  { rewrite (nth_error_nth' _ 0%nat) by (rewrite seq_length; lia). rewrite seq_nth by lia. easy. }
  cbn [option_map]. do 3 f_equal. now replace (Z.of_nat (Z.to_nat b)) with b by lia.
Qed.
Lemma sha_ok_hd s : sha_ok s -> 0 <= hd 0 s < 256.
Proof.
  intros [Hl Hb]. destruct s as [|x s]; [cbn; lia|]. inversion Hb; subst. now cbn.
Qed.
Lemma filter_all A (f : A -> bool) l : Forall (fun x => f x = true) l -> filter f l = l.
Proof. induction 1 as [|x l Hx Hl IH]; cbn; [easy|]. now rewrite Hx, IH. Qed.
Lemma filter_none A (f : A -> bool) l : Forall (fun x => f x = false) l -> filter f l = [].
Proof. induction 1 as [|x l Hx Hl IH]; cbn; [easy|]. now rewrite Hx, IH. Qed.
Lemma fanout_255 shas : Forall sha_ok shas -> index (fanout_of shas) 255 = Ok (len shas).
Proof.
  intros H. rewrite fanout_index by lia. rewrite filter_all; [easy|].
  eapply Forall_impl; [|exact H]. intros s Hs. apply sha_ok_hd in Hs. lia.
Qed.

(** ** Opening a well-formed file *)

Definition opened (ix : pidx) (shas : list bytes) : Prop :=
  ix_fanout ix = fanout_of shas /\ forall i s, 0 <= i -> index shas i = Ok s -> ix_sha ix i = s.

Lemma table_4_prefix v l : slice_to (table 4 (v :: l)) 4 = be_enc 4 v.
Proof. rewrite table_cons. apply slice_to_app. now rewrite be_enc_len. Qed.

Lemma fanout_unfold shas : exists r, fanout_of shas = len (filter (fun s => hd 0 s <=? 0) shas) :: r.
Proof. unfold fanout_of. exists (map (fun b => len (filter (fun s => hd 0 s <=? Z.of_nat b) shas)) (seq 1 255)). reflexivity. Qed.

Lemma v1_records_len shas offs : Forall sha_ok shas -> length offs = length shas ->
  len (concat (map (fun p : bytes * Z => be_enc 4 (snd p) ++ fst p) (combine shas offs))) = 24 * len shas.
Proof.
  intros H. revert offs. induction H as [|s l [Hs _] Hl IH]; intros [|o offs] Ho; try discriminate.
  - cbn; lia.
  - cbn [combine map concat fst snd]. rewrite !len_app, be_enc_len, Hs, IH, len_cons by (cbn in Ho; lia). lia.
Qed.
Lemma combine_split A B : forall (l : list A) (l' : list B) i x y, 0 <= i -> length l' = length l ->
  index l i = Ok x -> index l' i = Ok y ->
  exists a a' b b', l = a ++ x :: b /\ l' = a' ++ y :: b' /\ len a = i /\ length a' = length a.
Proof.
  intros l l' i x y Hi Hl Hx Hy.
  apply index_ok_split in Hx as (a & b & -> & Ha); [|easy].
  apply index_ok_split in Hy as (a' & b' & -> & Ha'); [|easy].
  exists a, a', b, b'. repeat split; try easy. unfold len in *. lia.
Qed.
Lemma combine_app A B (a b : list A) (a' b' : list B) : length a' = length a ->
  combine (a ++ b) (a' ++ b') = combine a a' ++ combine b b'.
Proof. revert a'; induction a as [|x a IH]; intros [|y a'] H; try discriminate; cbn; [easy|]. now rewrite IH by (cbn in H; lia). Qed.

Lemma v1_record shas offs pre post i s o :
  Forall sha_ok shas -> length offs = length shas -> 0 <= i -> index shas i = Ok s -> index offs i = Ok o ->
  exists p q, pre ++ concat (map (fun p : bytes * Z => be_enc 4 (snd p) ++ fst p) (combine shas offs)) ++ post
              = p ++ be_enc 4 o ++ s ++ q /\ len p = len pre + i * 24.
Proof.
  intros Hs Hl Hi Hx Hy. destruct (combine_split _ _ _ _ _ _ _ Hi Hl Hx Hy) as (a & a' & b & b' & -> & -> & Ha & Hl').
  rewrite combine_app by easy. cbn [combine]. rewrite map_app, concat_app. cbn [map concat fst snd].
  eexists (pre ++ concat (map (fun p => be_enc 4 (snd p) ++ fst p) (combine a a'))), _. split.
  - rewrite <- !app_assoc. reflexivity.
  - apply Forall_app in Hs as [Hs _]. rewrite len_app, v1_records_len by easy. lia.
Qed.

Lemma sig_be : index_v2_signature = be_enc 4 4285812579.
Proof. reflexivity. Qed.
Lemma be_enc_inj n a b : 0 <= a < 256 ^ Z.of_nat n -> 0 <= b < 256 ^ Z.of_nat n -> be_enc n a = be_enc n b -> a = b.
Proof. intros Ha Hb H. rewrite <- (be_dec_enc n a), <- (be_dec_enc n b), H by easy. easy. Qed.

Lemma ldiff_msb k : 0 <= k < 2 ^ 31 -> Z.land (2 ^ 31 + k) (Z.lnot (2 ^ 31)) = k.
Proof.
  intros Hk. change (Z.lnot (2 ^ 31)) with (Z.lnot (2 ^ 31)).
  rewrite <- Z.ldiff_land.
  replace (2 ^ 31 + k) with (Z.lor k (Z.shiftl 1 31)).
  2:{ rewrite lor_disjoint_add by lia. rewrite Z.shiftl_mul_pow2 by lia. lia. }
  apply Z.bits_inj'. intros n Hn. rewrite Z.ldiff_spec, Z.lor_spec.
  change (Z.shiftl 1 31) with (2 ^ 31).
  destruct (Z.eq_dec n 31) as [->|Hne].
  - rewrite Z.pow2_bits_true by lia. rewrite orb_true_r. cbn [negb andb].
    symmetry. apply Z.testbit_false; [lia|]. rewrite Z.div_small; [easy|lia].
  - rewrite Z.pow2_bits_false by lia. now rewrite orb_false_r, andb_true_r.
Qed.
Lemma land_msb_big k : 0 <= k < 2 ^ 31 -> (Z.land (2 ^ 31 + k) (2 ^ 31) =? 0) = false.
Proof.
  intros. rewrite land_pow2_testbit by lia.
  assert (Z.testbit (2 ^ 31 + k) 31 = true) as ->; [|easy].
  apply Z.testbit_true; [lia|].
  replace ((2 ^ 31 + k) / 2 ^ 31) with 1; [easy|]. change (2^31) with 2147483648 in *. lia.
Qed.
Lemma land_msb_small k : 0 <= k < 2 ^ 31 -> (Z.land k (2 ^ 31) =? 0) = true.
Proof.
  intros. rewrite land_pow2_testbit by lia.
  assert (Z.testbit k 31 = false) as ->; [|easy].
  apply Z.testbit_false; [lia|]. now rewrite Z.div_small by lia.
Qed.

Lemma raw_offset_range big raw o : raw_offset big raw o -> 0 <= raw < 2 ^ 32.
Proof. change (2 ^ 31) with 2147483648. change (2 ^ 32) with 4294967296.
  intros [[H _]|(k & -> & H & _)]; change (2 ^ 31) with 2147483648 in *; lia. Qed.
Lemma Forall2_index A B (P : A -> B -> Prop) l l' i y : 0 <= i -> Forall2 P l l' -> index l' i = Ok y ->
  exists x, index l i = Ok x /\ P x y.
Proof.
  intros Hi H Hy. apply index_ok_split in Hy as (a & b & -> & Ha); [|easy].
  apply Forall2_app_inv_r in H as (a1 & b1 & H1 & H2 & ->). inversion H2; subst.
  exists x. split; [|easy]. apply index_app. apply Forall2_length in H1. unfold len. lia.
Qed.

Lemma Forall_index A (P : A -> Prop) l i x : 0 <= i -> Forall P l -> index l i = Ok x -> P x.
Proof.
  intros Hi H Hx. apply index_ok_split in Hx as (a & b & -> & _); [|easy].
  apply Forall_app in H as [_ H]. now inversion H.
Qed.

Lemma open_v1 shas offs trailer :
  Forall sha_ok shas -> length offs = length shas -> Forall (fun o => 0 <= o < 2 ^ 32) offs ->
  len shas < 4285812579 ->
  exists ix, index_open (v1_file shas offs trailer) = Ok ix /\
    reads_as ix 1 shas (map (fun _ => 0) shas) offs /\ opened ix shas /\
    ix_map ix = v1_file shas offs trailer.
Proof.
  intros Hs Hl Ho Hn. unfold index_open.
  assert (beq (slice_to (v1_file shas offs trailer) 4) index_v2_signature = false) as ->.
  { apply beq_neq. unfold v1_file. destruct (fanout_unfold shas) as [r ->].
    rewrite table_cons, <- app_assoc. rewrite slice_to_app by now rewrite be_enc_len.
    rewrite sig_be. intros H. pose proof (len_filter_le _ (fun s => hd 0 s <=? 0) shas).
    unfold bytes in *. apply be_enc_inj in H; change (256 ^ Z.of_nat 4) with 4294967296; lia. }
  cbn [Z.eqb Pos.eqb bind].
  assert (read_fanout 256 (v1_file shas offs trailer) 0 = Ok (fanout_of shas)) as ->.
  { unfold v1_file. apply (read_fanout_ok 256 _ []); [apply fanout_length| |easy].
    apply fanout_range. lia. }
  cbn [bind]. rewrite fanout_255 by easy. cbn [bind].
  eexists. split; [reflexivity|].
  assert (forall i s o, 0 <= i -> index shas i = Ok s -> index offs i = Ok o -> exists p q,
            v1_file shas offs trailer = p ++ be_enc 4 o ++ s ++ q /\ len p = 1024 + i * 24) as Hrec.
  { intros i s o Hi Hx Hy. unfold v1_file.
    destruct (v1_record shas offs (table 4 (fanout_of shas)) trailer i s o) as (p & q & E & Hp); try assumption.
    exists p, q. split; [exact E|]. rewrite Hp, table_len. unfold len. rewrite fanout_length. lia. }
  split; [|split; [split; [easy|]|easy]].
  - split; [easy|]. split; [unfold ix_size; cbn [ix_fanout]; now apply fanout_255|].
    intros i s c o Hi Hx Hc Hy. destruct (Hrec i s o Hi Hx Hy) as (p & q & E & Hp).
    assert (0 <= o < 2 ^ 32) as Hor by (eapply (Forall_index _ (fun o => 0 <= o < 2 ^ 32)); eauto).
    assert (len s = 20) as Hs20 by (eapply (Forall_index _ sha_ok) in Hs; eauto; apply Hs).
    assert (c = 0) as ->.
    { apply index_ok_split in Hc as (a & b & E2 & _); [|easy].
      assert (In c (map (fun _ : bytes => 0) shas)) as Hin by (rewrite E2; apply in_elt).
      apply in_map_iff in Hin as (? & <- & _). easy. }
    unfold ix_sha, ix_crc, ix_offset, ix_entry. cbn [ix_version ix_map Z.eqb Pos.eqb].
    rewrite E. repeat split.
    + rewrite app_assoc. apply slice_mid; rewrite len_app, be_enc_len; lia.
    + apply unpack_be_app; [exact Hor|lia].
    + pose proof (len_nonneg _ q). rewrite !len_app, be_enc_len.
      replace (_ <=? _) with true by lia.
      rewrite unpack_be_app by (exact Hor || lia). cbn [bind]. do 3 f_equal.
      rewrite app_assoc. apply slice_mid; rewrite len_app, be_enc_len; lia.
  - intros i s Hi Hx.
    destruct (index_in _ offs i) as [o Hy].
    { apply index_ok_range in Hx; [|easy]. unfold len in *. lia. }
    destruct (Hrec i s o Hi Hx Hy) as (p & q & E & Hp).
    assert (len s = 20) as Hs20 by (eapply (Forall_index _ sha_ok) in Hs; eauto; apply Hs).
    unfold ix_sha. cbn [ix_version ix_map Z.eqb Pos.eqb]. rewrite E, app_assoc.
    apply slice_mid; rewrite len_app, be_enc_len; lia.
Qed.

Lemma open_v2 shas crcs offs raw big trailer :
  Forall sha_ok shas -> length crcs = length shas -> Forall (fun c => 0 <= c < 2 ^ 32) crcs ->
  Forall2 (raw_offset big) raw offs -> length offs = length shas ->
  Forall (fun o => 0 <= o < 2 ^ 64) big -> len shas < 2 ^ 32 ->
  exists ix, index_open (v2_file shas crcs raw big trailer) = Ok ix /\
    reads_as ix 2 shas crcs offs /\ opened ix shas /\ ix_offsets ix = Ok raw /\
    ix_map ix = v2_file shas crcs raw big trailer.
Proof.
  intros Hs Hlc Hc Hro Hlo Hb Hn. unfold index_open.
  set (d := v2_file shas crcs raw big trailer).
  assert (slice_to d 4 = index_v2_signature) as ->.
  { unfold d, v2_file. now apply (slice_to_app _ [255; 116; 79; 99]). }
  rewrite beq_refl. cbn [Z.eqb Pos.eqb].
  assert (unpack_be 4 d 4 = Ok 2) as ->.
  { unfold d, v2_file. apply unpack_be_app; [cbn; lia|easy]. }
  cbn [bind Z.eqb Pos.eqb py_assert].
  assert (read_fanout 256 d 8 = Ok (fanout_of shas)) as ->.
  { unfold d, v2_file. rewrite (app_assoc _ (be_enc 4 2)).
    apply (read_fanout_ok 256 _ _); [apply fanout_length| |easy].
    now apply fanout_range. }
  cbn [bind]. rewrite fanout_255 by easy. cbn [bind].
  eexists. split; [reflexivity|].
  set (h := [255; 116; 79; 99] ++ be_enc 4 2 ++ table 4 (fanout_of shas)).
  assert (len h = 1032) as Hh.
  { unfold h. rewrite !len_app, be_enc_len, table_len. unfold len at 2. rewrite fanout_length. reflexivity. }
  assert (d = h ++ concat shas ++ table 4 crcs ++ table 4 raw ++ table 8 big ++ trailer) as Hd.
  { unfold d, v2_file, h. now rewrite <- !app_assoc. }
  assert (d = (h ++ concat shas) ++ table 4 crcs ++ table 4 raw ++ table 8 big ++ trailer) as Hdc
    by now rewrite Hd, <- !app_assoc.
  assert (d = (h ++ concat shas ++ table 4 crcs) ++ table 4 raw ++ table 8 big ++ trailer) as Hdo
    by now rewrite Hd, <- !app_assoc.
  assert (d = (h ++ concat shas ++ table 4 crcs ++ table 4 raw) ++ table 8 big ++ trailer) as Hdb
    by now rewrite Hd, <- !app_assoc.
  clearbody h d.
  pose proof (len_concat_shas _ Hs) as Hcs. pose proof (Forall2_length _ _ _ _ _ Hro) as Hlr.
  assert (len crcs = len shas) as Hlc' by (unfold len; lia).
  assert (len raw = len shas) as Hlr' by (unfold len; lia).
  assert (forall i s, 0 <= i -> index shas i = Ok s ->
            slice d (sha_list_offset + i * 20) (sha_list_offset + i * 20 + 20) = s) as Hsha.
  { intros i s Hi Hx. rewrite Hd. apply (slice_shas shas h _ i); try assumption. now rewrite Hh. }
  split; [|split; [split; [easy|]|split; [|easy]]].
  - split; [easy|]. split; [unfold ix_size; cbn [ix_fanout]; now apply fanout_255|].
    intros i s c o Hi Hx Hxc Hxo.
    unfold ix_entry, ix_crc, ix_offset, ix_sha.
    cbn [ix_map ix_version ix_crc_offset ix_pack_offset ix_pack64_offset Z.eqb Pos.eqb].
    rewrite (Hsha i s) by easy.
    assert (unpack_be 4 d (sha_list_offset + len shas * 20 + i * 4) = Ok c) as ->.
    { rewrite Hdc. apply (unpack_table 4 crcs _ _ i); try assumption.
      - exact (Forall_index _ _ _ _ _ Hi Hc Hxc).
      - rewrite len_app, Hcs, Hh. unfold sha_list_offset. lia. }
    destruct (Forall2_index _ _ _ _ _ _ _ Hi Hro Hxo) as (r & Hxr & Hr).
    pose proof (raw_offset_range _ _ _ Hr) as Hrr.
    assert (unpack_be 4 d (sha_list_offset + len shas * 20 + len shas * 4 + i * 4) = Ok r) as ->.
    { rewrite Hdo. apply (unpack_table 4 raw _ _ i); try assumption.
      rewrite !len_app, table_len, Hcs, Hh. unfold sha_list_offset. lia. }
    cbn [bind]. change 2147483648 with (2 ^ 31).
    assert (forall A (k : Z -> res A),
      (let! x := (if negb (Z.land r (2 ^ 31) =? 0)
       then unpack_be 8 d (sha_list_offset + len shas * 20 + len shas * 4 + len shas * 4 + Z.land r (Z.lnot (2 ^ 31)) * 8)
       else Ok r) in k x) = k o) as Hoff.
    { intros A k. destruct Hr as [[Hr ->]|(m & -> & Hm & Hbig)].
      - now rewrite land_msb_small.
      - rewrite land_msb_big by lia. cbn [negb]. rewrite ldiff_msb by lia.
        rewrite Hdb. rewrite (unpack_table 8 big _ _ (Z.of_nat m) o); try lia; [easy| | |].
        + now rewrite nth_error_index, Hbig.
        + apply nth_error_In in Hbig. rewrite Forall_forall in Hb. now apply Hb in Hbig.
        + rewrite !len_app, !table_len, Hcs, Hh. unfold sha_list_offset. lia. }
    repeat split.
    + specialize (Hoff Z Ok). now destruct (if negb _ then _ else _); cbn in Hoff.
    + rewrite Hoff. easy.
  - intros i s Hi Hx. unfold ix_sha. cbn [ix_map ix_version Z.eqb Pos.eqb]. now apply Hsha.
  - unfold ix_offsets. cbn [ix_version Z.eqb Pos.eqb ix_map ix_pack_offset ix_pack64_offset].
    rewrite Hdo. rewrite (slice_mid _ (h ++ concat shas ++ table 4 crcs) (table 4 raw)).
    + apply be32_array_table. clear - Hro. induction Hro; constructor; [eapply raw_offset_range; eauto|easy].
    + rewrite !len_app, table_len, Hcs, Hh. unfold sha_list_offset. lia.
    + rewrite !len_app, !table_len, Hcs, Hh. unfold sha_list_offset. lia.
Qed.

Lemma open_file v shas crcs offs d : index_file v shas crcs offs d ->
  exists ix, index_open d = Ok ix /\ reads_as ix v shas crcs offs /\ opened ix shas /\ ix_map ix = d.
Proof.
  intros [? ? ? ? ? ? ?|? ? ? ? ? ? ? ? ? ? ? ? ?].
  - now apply open_v1.
  - destruct (open_v2 shas0 crcs0 offs0 raw big trailer) as (ix & H6 & H7 & H8 & _ & H9); try easy.
    now exists ix.
Qed.

(** ** Writing *)
Lemma insert_perm e l : Permutation (e :: l) (insert_sorted e l).
Proof.
  induction l as [|x l IH]; cbn [insert_sorted]; [easy|].
  destruct (blt (e_sha x) (e_sha e)); [|easy].
  rewrite perm_swap. now constructor.
Qed.
Lemma sort_perm l : Permutation l (sort_entries l).
Proof.
  induction l as [|x l IH]; cbn [sort_entries]; [easy|].
  rewrite <- insert_perm. now constructor.
Qed.
Lemma sha_le_refl a : sha_le a a.
Proof. apply blt_irrefl. Qed.
Lemma sha_lt_le a b : sha_lt a b -> sha_le a b.
Proof. apply blt_antisym. Qed.
Lemma blt_cases a b : blt a b = true \/ a = b \/ blt b a = true.
Proof.
  destruct (blt a b) eqn:E; [now left|right]. destruct (beq a b) eqn:F.
  - left. now apply beq_eq.
  - right. now apply blt_total.
Qed.
Lemma sha_le_trans a b c : sha_le a b -> sha_le b c -> sha_le a c.
Proof.
  unfold sha_le. intros H1 H2. destruct (blt_cases a b) as [H|[->|H]]; [|easy|congruence].
  destruct (blt_cases b c) as [H'|[->|H']]; [|now apply blt_antisym|congruence].
  apply blt_antisym. eapply blt_trans; eauto.
Qed.
Lemma sha_le_antisym a b : sha_le a b -> sha_le b a -> a = b.
Proof. unfold sha_le. intros. destruct (blt_cases a b) as [H1|[H1|H1]]; congruence. Qed.
Lemma insert_sorted_ok e l : StronglySorted sha_le (map e_sha l) -> StronglySorted sha_le (map e_sha (insert_sorted e l)).
Proof.
  induction l as [|x l IH]; intros H; cbn [insert_sorted map].
  - repeat constructor.
  - inversion H as [|? ? H1 H2]; subst.
    destruct (blt (e_sha x) (e_sha e)) eqn:E; cbn [map].
    + constructor; [now apply IH|]. rewrite Forall_map. rewrite Forall_map in H2.
      eapply Permutation_Forall; [apply insert_perm|]. constructor; [|easy]. now apply sha_lt_le.
    + constructor; [easy|]. constructor; [easy|].
      eapply Forall_impl; [|exact H2]. intros a Ha. eapply sha_le_trans; [exact E|exact Ha].
Qed.
Lemma sort_sorted l : StronglySorted sha_le (map e_sha (sort_entries l)).
Proof. induction l; cbn [sort_entries]; [constructor|]. now apply insert_sorted_ok. Qed.

Definition count_hd (b : nat) (shas : list bytes) : Z := len (filter (fun s => hd 0 s =? Z.of_nat b) shas).
Lemma list_incr_nth : forall k l j, (k < length l)%nat ->
  nth j (list_incr l k) 0 = nth j l 0 + (if (j =? k)%nat then 1 else 0).
Proof.
  induction k as [|k IH]; intros [|x l] [|j] Hk; cbn in Hk |- *; try lia.
  rewrite IH by lia. lia.
Qed.
Lemma list_incr_length : forall k l, length (list_incr l k) = length l.
Proof. induction k as [|k IH]; intros [|x l]; cbn; try easy. now rewrite IH. Qed.
Lemma fanout_counts_ok : forall l tmp, Forall (fun e => sha_ok (e_sha e)) l -> length tmp = 256%nat ->
  exists tmp', fanout_counts l tmp = Ok tmp' /\ length tmp' = 256%nat /\
    forall k, (k < 256)%nat -> nth k tmp' 0 = nth k tmp 0 + count_hd k (map e_sha l).
Proof.
  induction l as [|e l IH]; intros tmp Hs Hl; cbn [fanout_counts].
  - exists tmp. repeat split; try easy. intros k Hk. unfold count_hd. cbn. lia.
  - inversion Hs as [|? ? He Hs']; subst. pose proof (sha_ok_hd _ He) as Hhd.
    destruct He as [He1 He2]. destruct (e_sha e) as [|x s] eqn:E; [discriminate|].
    change (index (x :: s) 0) with (index ([] ++ x :: s) 0). rewrite index_app by easy. cbn [bind].
    cbn in Hhd. unfold len. rewrite Hl. replace (_ && _) with true by lia.
    destruct (IH (list_incr tmp (Z.to_nat x)) Hs') as (tmp' & H1 & H2 & H3).
    { now rewrite list_incr_length. }
    exists tmp'. repeat split; try easy. intros k Hk. rewrite H3 by easy.
    rewrite list_incr_nth by (rewrite Hl; lia).
    unfold count_hd. cbn [map filter]. rewrite E. cbn [hd].
    destruct (Nat.eqb_spec k (Z.to_nat x)); destruct (Z.eqb_spec x (Z.of_nat k)); try lia.
    rewrite len_cons. unfold bytes in *. lia.
Qed.

Fixpoint psums (c : Z) (l : list Z) : list Z :=
  match l with [] => [] | v :: l' => c + v :: psums (c + v) l' end.
Lemma fanout_bytes_ok : forall l c, Forall (fun v => 0 <= v < 2 ^ 32) (psums c l) ->
  fanout_bytes c l = Ok (table 4 (psums c l)).
Proof.
  induction l as [|v l IH]; intros c H; cbn [fanout_bytes psums]; [easy|].
  cbn [psums] in H. inversion H; subst. unfold pack_L. rewrite pack_be_range by easy. cbn [bind].
  rewrite IH by easy. easy.
Qed.
Lemma psums_counts shas : Forall (fun s => 0 <= hd 0 s) shas -> forall n m,
  psums (len (filter (fun s => hd 0 s <? Z.of_nat m) shas)) (map (fun b => count_hd b shas) (seq m n)) =
  map (fun b => len (filter (fun s => hd 0 s <=? Z.of_nat b) shas)) (seq m n).
Proof.
  intros Hs. assert (forall m, len (filter (fun s => hd 0 s <? Z.of_nat m) shas) + count_hd m shas =
    len (filter (fun s => hd 0 s <=? Z.of_nat m) shas)) as Hstep.
  { intros m. unfold count_hd. clear Hs. induction shas as [|s l IH]; [easy|]. cbn [filter].
    destruct (Z.ltb_spec (hd 0 s) (Z.of_nat m)), (Z.eqb_spec (hd 0 s) (Z.of_nat m)), (Z.leb_spec (hd 0 s) (Z.of_nat m));
      rewrite ?len_cons; unfold bytes in *; try lia. }
  induction n as [|n IH]; intros m; cbn [seq map psums]; [easy|].
  rewrite Hstep. f_equal. rewrite <- (IH (S m)). f_equal. f_equal. apply filter_ext.
  intros s. lia.
Qed.
Lemma fanout_write_ok l : Forall (fun e => sha_ok (e_sha e)) l -> len l < 2 ^ 32 ->
  exists tmp, fanout_counts l (repeat 0 256) = Ok tmp /\
    fanout_bytes 0 tmp = Ok (table 4 (fanout_of (map e_sha l))).
Proof.
  intros Hs Hl. destruct (fanout_counts_ok l (repeat 0 256) Hs (repeat_length _ _)) as (tmp & H1 & H2 & H3).
  exists tmp. split; [easy|].
  assert (tmp = map (fun b => count_hd b (map e_sha l)) (seq 0 256)) as ->.
  { apply (nth_ext _ _ 0 0); [now rewrite map_length, seq_length, H2|].
    intros k Hk. rewrite H2 in Hk. rewrite H3 by easy. rewrite nth_repeat.
    rewrite (nth_indep _ 0 (count_hd 0%nat (map e_sha l))) by now rewrite map_length, seq_length.
    rewrite (map_nth (fun b => count_hd b (map e_sha l))). rewrite seq_nth by easy. cbn [Nat.add]. lia. }
  assert (Forall (fun s => 0 <= hd 0 s) (map e_sha l)) as Hhd.
  { rewrite Forall_map. eapply Forall_impl; [|exact Hs]. intros e He. apply sha_ok_hd in He. cbn. lia. }
  pose proof (psums_counts _ Hhd 256 0) as Hp.
  assert (filter (fun s => hd 0 s <? Z.of_nat 0) (map e_sha l) = []) as E.
  { apply filter_none. eapply Forall_impl; [|exact Hhd]. intros s Hx. cbv beta in *. change (Z.of_nat 0) with 0. lia. }
  rewrite E in Hp. change (len (@nil bytes)) with 0 in Hp. change (@len (list Z) []) with 0 in Hp.
  fold (fanout_of (map e_sha l)) in Hp.
  rewrite <- Hp. apply fanout_bytes_ok. rewrite Hp. apply fanout_range. now rewrite len_map.
Qed.

Lemma land_32 v : Z.land v 4294967295 = v mod 2 ^ 32.
Proof. change 4294967295 with (Z.ones 32). now rewrite Z.land_ones. Qed.
Lemma write_each_table n (f : ientry -> Z) l : Forall (fun e => 0 <= f e < 256 ^ Z.of_nat n) l ->
  write_each (fun e => pack_be n (f e)) l = Ok (table n (map f l)).
Proof.
  induction 1 as [|e l He Hl IH]; cbn [write_each map]; [easy|].
  rewrite pack_be_range by easy. cbn [bind]. rewrite IH. easy.
Qed.
Lemma write_each_Q l : Forall (fun o => 0 <= o < 2 ^ 64) l -> write_each pack_Q l = Ok (table 8 l).
Proof.
  induction 1 as [|e l He Hl IH]; cbn [write_each map]; [easy|].
  unfold pack_Q at 1. rewrite pack_be_range by easy. cbn [bind]. rewrite IH. easy.
Qed.

Lemma raw_offset_app big big' raw o : raw_offset big raw o -> raw_offset (big ++ big') raw o.
Proof.
  intros [H|(k & -> & H & H')]; [now left|right]. exists k. repeat split; try easy.
  rewrite nth_error_app1; [easy|]. apply nth_error_Some. congruence.
Qed.
Lemma offset_table_ok : forall l big, Forall (fun e => 0 <= e_ofs e < 2 ^ 64) l ->
  len big + len (filter is_large (map e_ofs l)) <= 2 ^ 31 ->
  exists raw, offset_table l big = Ok (table 4 raw, big ++ filter is_large (map e_ofs l)) /\
    Forall2 (raw_offset (big ++ filter is_large (map e_ofs l))) raw (map e_ofs l).
Proof.
  induction l as [|e l IH]; intros big Hl Hn; cbn [offset_table map filter].
  - exists []. rewrite app_nil_r. now split.
  - inversion Hl as [|? ? He Hl']; subst. cbn [map filter] in Hn.
    change (2147483647 <? e_ofs e) with (is_large (e_ofs e)).
    destruct (is_large (e_ofs e)) eqn:E; unfold is_large in E.
    + rewrite len_cons in Hn. rewrite land_32.
      pose proof (len_nonneg _ big). pose proof (len_nonneg _ (filter is_large (map e_ofs l))).
      rewrite len_app, len_cons, len_nil. rewrite Z.mod_small.
      2:{ change (2 ^ 32) with 4294967296. change (2 ^ 31) with 2147483648 in *. lia. }
      unfold pack_L. rewrite pack_be_range.
      2:{ change (256 ^ Z.of_nat 4) with 4294967296. change (2 ^ 31) with 2147483648 in *. lia. }
      cbn [bind]. destruct (IH (big ++ [e_ofs e]) Hl') as (raw & H1 & H2).
      { rewrite len_app, len_cons, len_nil. lia. }
      rewrite H1. cbn [bind]. rewrite <- app_assoc in *. cbn [app] in *.
      eexists (_ :: raw). split; [rewrite table_cons; reflexivity|]. constructor; [|easy].
      right. exists (length big). unfold len. change (2 ^ 31) with 2147483648 in *. unfold len in *. repeat split; try lia.
      rewrite nth_error_app2, Nat.sub_diag by lia. easy.
    + rewrite land_32. change (2 ^ 31) with 2147483648 in *.
      rewrite Z.mod_small by (change (2 ^ 32) with 4294967296; lia).
      unfold pack_L. rewrite pack_be_range by (change (256 ^ Z.of_nat 4) with 4294967296; lia).
      cbn [bind]. destruct (IH big Hl' Hn) as (raw & H1 & H2). rewrite H1. cbn [bind].
      eexists (_ :: raw). split; [rewrite table_cons; reflexivity|]. constructor; [|easy].
      left. change (2 ^ 31) with 2147483648 in *. lia.
Qed.

Lemma index_write_ok sha1 objs pack_sha :
  (forall d, len (sha1 d) = 20) ->
  Forall (fun e => sha_ok (e_sha e) /\ 0 <= e_ofs e < 2 ^ 64) objs -> len pack_sha = 20 ->
  len objs < 2 ^ 32 -> len (filter is_large (map e_ofs objs)) <= 2 ^ 31 ->
  exists s raw,
    Permutation objs s /\ StronglySorted sha_le (map e_sha s) /\
    let big := filter is_large (map e_ofs s) in
    Forall2 (raw_offset big) raw (map e_ofs s) /\
    let body := v2_file (map e_sha s) (map (fun e => e_crc e mod 2 ^ 32) s) raw big pack_sha in
    index_write sha1 objs pack_sha = Ok (body ++ sha1 body, sha1 body).
Proof.
  intros Hsha Hobjs Hp Hn Hbig. set (s := sort_entries objs).
  assert (Permutation objs s) as Hperm by apply sort_perm.
  assert (Forall (fun e => sha_ok (e_sha e) /\ 0 <= e_ofs e < 2 ^ 64) s) as Hs
    by now apply (Permutation_Forall Hperm).
  assert (len s < 2 ^ 32) as Hns by (unfold len in *; now rewrite <- (Permutation_length Hperm)).
  assert (Forall (fun e => sha_ok (e_sha e)) s) as Hss by (eapply Forall_impl; [|exact Hs]; now intros e []).
  assert (Forall (fun e => 0 <= e_ofs e < 2 ^ 64) s) as Hso by (eapply Forall_impl; [|exact Hs]; now intros e []).
  destruct (offset_table_ok s []) as (raw & Ho & Hr); [easy| |].
  { rewrite len_nil. replace (len (filter is_large (map e_ofs s))) with (len (filter is_large (map e_ofs objs))); [lia|].
    unfold len. f_equal. apply Permutation_length. clear - Hperm.
    assert (Permutation (map e_ofs objs) (map e_ofs s)) as H by now apply Permutation_map.
    induction H as [|x l l' H IH|x y l|l l' l'' H1 IH1 H2 IH2]; cbn [filter]; [easy| | |].
    - destruct (is_large x); [now constructor|easy].
    - destruct (is_large x), (is_large y); try easy. apply perm_swap.
    - now transitivity (filter is_large l'). }
  exists s, raw. split; [easy|]. split; [apply sort_sorted|]. cbn [app] in Ho, Hr. split; [easy|].
  unfold index_write. fold s. unfold index_version_default. unfold pack_L at 1. rewrite pack_be_range by (cbn; lia).
  cbn [bind]. destruct (fanout_write_ok s Hss Hns) as (tmp & -> & ?). cbn [bind].
  match goal with H : fanout_bytes 0 tmp = _ |- _ => rewrite H end. cbn [bind].
  assert (write_each (fun e => pack_L (Z.land (e_crc e) 4294967295)) s =
          Ok (table 4 (map (fun e => e_crc e mod 2 ^ 32) s))) as ->.
  { rewrite <- (write_each_table 4).
    - clear. induction s; cbn [write_each]; [easy|]. rewrite land_32. now rewrite IHs.
    - apply Forall_forall. intros e _. change (256 ^ Z.of_nat 4) with (2 ^ 32). apply Z.mod_pos_bound. lia. }
  cbn [bind]. rewrite Ho. cbn [bind].
  rewrite write_each_Q.
  2:{ apply Forall_forall. intros o Hin. apply filter_In in Hin as [Hin _]. apply in_map_iff in Hin as (e & <- & Hin).
      rewrite Forall_forall in Hso. now apply Hso. }
  cbn [bind]. rewrite Hp. cbn [Z.eqb Pos.eqb py_assert].
  change (index_v2_signature ++ be_enc 4 2 ++ ?x) with ([255; 116; 79; 99] ++ be_enc 4 2 ++ x).
  unfold v2_file. reflexivity.
Qed.

(** C14 *)
Lemma index_roundtrip sha1 objs pack_sha :
  (forall d, len (sha1 d) = 20) ->
  Forall (fun e => sha_ok (e_sha e) /\ 0 <= e_ofs e < 2 ^ 64) objs -> len pack_sha = 20 ->
  len objs < 2 ^ 32 -> len (filter is_large (map e_ofs objs)) <= 2 ^ 31 ->
  exists body h s ix,
    index_write sha1 objs pack_sha = Ok (body ++ h, h) /\ h = sha1 body /\
    Permutation objs s /\ StronglySorted sha_le (map e_sha s) /\
    index_open (body ++ h) = Ok ix /\
    reads_as ix 2 (map e_sha s) (map (fun e => e_crc e mod 2 ^ 32) s) (map e_ofs s) /\
    packfile_checksum ix = pack_sha /\ indexfile_checksum ix = h.
Proof.
  intros Hsha Hobjs Hp Hn Hbig.
  destruct (index_write_ok sha1 objs pack_sha Hsha Hobjs Hp Hn Hbig) as (s & raw & Hperm & Hsort & Hr & Hw).
  cbv zeta in Hr, Hw. set (big := filter is_large (map e_ofs s)) in *.
  set (crcs := map (fun e => e_crc e mod 2 ^ 32) s) in *.
  assert (Forall (fun e => sha_ok (e_sha e) /\ 0 <= e_ofs e < 2 ^ 64) s) as Hs
    by now apply (Permutation_Forall Hperm).
  set (body := v2_file (map e_sha s) crcs raw big pack_sha) in *.
  set (h := sha1 body) in *. exists body, h, s.
  assert (body ++ h = v2_file (map e_sha s) crcs raw big (pack_sha ++ h)) as E.
  { unfold body, v2_file. now rewrite <- !app_assoc. }
  destruct (open_v2 (map e_sha s) crcs (map e_ofs s) raw big (pack_sha ++ h)) as (ix & H1 & H2 & _ & _ & H3).
  - rewrite Forall_map. eapply Forall_impl; [|exact Hs]. now intros e [].
  - unfold crcs. now rewrite !map_length.
  - unfold crcs. rewrite Forall_map. apply Forall_forall. intros e _. apply Z.mod_pos_bound. lia.
  - easy.
  - now rewrite !map_length.
  - apply Forall_forall. intros o Hin. apply filter_In in Hin as [Hin _]. apply in_map_iff in Hin as (e & <- & Hin).
    rewrite Forall_forall in Hs. now apply Hs.
  - rewrite len_map. unfold len in *. now rewrite <- (Permutation_length Hperm).
  - exists ix. rewrite E in Hw |- *. split; [exact Hw|]. split; [easy|]. split; [easy|]. split; [easy|].
    split; [exact H1|]. split; [exact H2|].
    unfold packfile_checksum, indexfile_checksum. rewrite H3.
    assert (exists pre, v2_file (map e_sha s) crcs raw big (pack_sha ++ h) = pre ++ pack_sha ++ h) as (pre & ->).
    { exists ([255; 116; 79; 99] ++ be_enc 4 2 ++ table 4 (fanout_of (map e_sha s)) ++ concat (map e_sha s) ++
              table 4 crcs ++ table 4 raw ++ table 8 big).
      unfold v2_file. now rewrite <- !app_assoc. }
    assert (len h = 20) as Hh by apply Hsha. pose proof (len_nonneg _ pre). split.
    + unfold slice, norm_idx. rewrite !len_app, Hp, Hh. cbn [Z.ltb Z.compare].
      rewrite !Z.max_r by lia. replace (Z.to_nat (_ - _)) with (length pack_sha) by (unfold len in *; lia).
      replace (Z.to_nat (-40 + _)) with (length pre) by (unfold len in *; lia).
      rewrite skipn_app, skipn_all, Nat.sub_diag. cbn [skipn app]. rewrite firstn_app, firstn_all, Nat.sub_diag.
      cbn [firstn]. apply app_nil_r.
    + unfold slice_from, norm_idx. rewrite !len_app, Hp, Hh. cbn [Z.ltb Z.compare].
      rewrite !Z.max_r by lia. rewrite app_assoc.
      replace (Z.to_nat _) with (length (pre ++ pack_sha)) by (rewrite app_length; unfold len in *; lia).
      rewrite skipn_app, skipn_all, Nat.sub_diag. easy.
Qed.

(** ** Files that end within the table of offsets *)
Lemma be32_array_any : forall n s, (length s <= n)%nat -> if len s mod 4 =? 0 then exists l, be32_array s = Ok l /\ 4 * len l = len s else be32_array s = Raise ValueError.
Proof.
  induction n as [|n IH]; intros s Hn.
  - destruct s; [now exists []|simpl in Hn; lia].
  - destruct s as [|a [|b [|c [|d s]]]]; [now exists []|easy..|]. cbn [be32_array]. specialize (IH s). cbn [length] in Hn. rewrite !len_cons.
    replace ((len s + 1 + 1 + 1 + 1) mod 4) with (len s mod 4) by lia. destruct (len s mod 4 =? 0); [|now rewrite IH by lia].
    destruct IH as (l & -> & H); [lia|]. eexists. split; [reflexivity|]. rewrite len_cons. lia.
Qed.
Lemma offsets_cut d ix n : index_open d = Ok ix -> ix_version ix = 2 -> ix_size ix = Ok n -> 0 <= n ->
  let start := 8 + 4 * 256 + 20 * n + 4 * n in start <= len d < start + 4 * n ->
  (if (len d - start) mod 4 =? 0 then exists l, ix_offsets ix = Ok l /\ 4 * len l = len d - start /\ len l < n else ix_offsets ix = Raise ValueError) /\
  forall i, start + 4 * i + 4 > len d -> 0 <= i -> ix_offset ix i = Raise StructError.
Proof.
  intros Ho Hv Hn H0 start Hd. unfold index_open in Ho. set (v := if beq (slice_to d 4) index_v2_signature then 2 else 1) in *.
  apply bind_ok_inv in Ho as (u & _ & Ho). apply bind_ok_inv in Ho as (fan & _ & Ho). apply bind_ok_inv in Ho as (m & Hm & Ho). assert (Hix : ix = mk_pidx d v fan (sha_list_offset + m * 20) (sha_list_offset + m * 20 + m * 4) (sha_list_offset + m * 20 + m * 4 + m * 4)) by (injection Ho; intros <-; reflexivity). clear Ho. subst ix.
  cbn [ix_version] in Hv. unfold ix_size in Hn. cbn [ix_fanout] in Hn. assert (m = n) by congruence. subst m.
  unfold ix_offsets, ix_offset. cbn [ix_version ix_map ix_pack_offset ix_pack64_offset]. rewrite Hv. cbn [Z.eqb Pos.eqb]. unfold sha_list_offset.
  replace (8 + 1024 + n * 20 + n * 4) with start by lia. split.
  - set (s := slice d start (start + n * 4)). assert (len s = len d - start) as Hl.
    { unfold s. rewrite slice_spec by lia. rewrite len_firstn, len_skipn. lia. }
    pose proof (be32_array_any (length s) s (le_n _)) as H. rewrite Hl in H. destruct ((len d - start) mod 4 =? 0); [|exact H]. destruct H as (l & H1 & H2). exists l. split; [easy|]. lia.
  - intros i Hi Hi0. unfold unpack_be. replace ((0 <=? start + i * 4) && (start + i * 4 + Z.of_nat 4 <=? len d)) with false by lia. reflexivity.
Qed.
