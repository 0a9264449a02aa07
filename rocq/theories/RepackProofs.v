(** Packing objects whose streams come from a database. *)
From Coq Require Import ZifyBool ZifyNat.
From Verif Require Import Py PyFacts FunModel FunSpec FunProofs ZlibModel ReaderModel StreamSpec ReaderProofs IndexModel IndexSpec Crc32 PackModel PackSpec PackCheckProofs PackWriteProofs
  OsModel OsProofs LooseModel LooseSpec LooseTop LooseQuery RepackSpec.
Ltac Zify.zify_post_hook ::= Z.div_mod_to_equations.

(** Reads of [n] bytes that give what a cursor gives are those of a file. *)
Lemma cursor_chunks R (rd : R -> Z -> res (bytes * R)) rw n c : 0 < n -> forall k r p, (p <= length c)%nat -> Z.of_nat (length c - p) < Z.of_nat k * n ->
  run_stream rd rw r (chunk_reads n k) = Ok (cursor c p (chunk_reads n k)) ->
  exists l, chunks_read rd n r l /\ chunks_read file_read n (skipn p c) l /\ concat l = skipn p c.
Proof.
  intros Hn. induction k as [|k IH]; intros r p Hp Hk H; [lia|].
  unfold chunk_reads in H. cbn [repeat run_stream cursor] in H. replace (n <? 1) with false in H by lia. cbv zeta in H.
  set (d := firstn (Z.to_nat n) (skipn p c)) in *.
  apply bind_ok_inv in H as ([d' r'] & H1 & H). apply bind_ok_inv in H as (l' & H2 & H). injection H as -> ->.
  assert (Hd : length d = Nat.min (Z.to_nat n) (length c - p)) by (unfold d; now rewrite firstn_length, skipn_length).
  assert (Hf : file_read (skipn p c) n = Ok (d, skipn (Z.to_nat n) (skipn p c))) by (unfold file_read; now replace (n <? 0) with false by lia).
  destruct (Z.eq_dec (len d) n) as [E|E].
  - assert (El : length d = Z.to_nat n) by (unfold len in E; lia).
    destruct (IH r' (p + length d)%nat) as (l & L1 & L2 & L3); [lia|lia|exact H2|].
    rewrite skipn_skipn in Hf. replace (Z.to_nat n + p)%nat with (p + length d)%nat in Hf by lia.
    exists (d :: l). split; [now apply (cr_more _ _ _ _ r')|]. split; [now apply (cr_more _ _ _ _ (skipn (p + length d) c))|].
    cbn [concat]. rewrite L3, El. unfold d. replace (p + Z.to_nat n)%nat with (Z.to_nat n + p)%nat by lia. rewrite <- skipn_skipn. apply firstn_skipn.
  - exists [d]. split; [now apply (cr_last _ _ _ _ r')|]. split; [eapply cr_last; [exact Hf|exact E]|].
    cbn [concat]. rewrite app_nil_r. unfold d. apply firstn_all2. rewrite skipn_length. unfold len in E. lia.
Qed.

Section Same.
  Context (K : zlib) (sha1 : bytes -> bytes) (pagesize : Z) {R1 R2 : Type}.
  Context (rd1 : R1 -> Z -> res (bytes * R1)) (rd2 : R2 -> Z -> res (bytes * R2)).
  Notation cs := (chunk_size pagesize).
  Lemma same_loop l : forall r1 r2, chunks_read rd1 cs r1 l -> chunks_read rd2 cs r2 l -> forall fuel z br crc out,
    finish (wstp_loop K pagesize rd1 fuel r1 z br crc out) = finish (wstp_loop K pagesize rd2 fuel r2 z br crc out).
  Proof.
    induction l as [|c l IH]; intros r1 r2 H1 H2 fuel z br crc out; [inversion H1|].
    destruct fuel as [|fuel]; [reflexivity|]. cbn [wstp_loop].
    inversion H1 as [? ? r1' E1 N1|? ? r1' ? E1 N1 M1]; subst; rewrite E1; cbn [bind];
      (inversion H2 as [? ? r2' E2 N2|? ? r2' ? E2 N2 M2]; subst; try (now exfalso)); rewrite E2; cbn [bind]; destruct (zc_compress K z c) as [o z'].
    - replace (len c =? cs) with false by lia. reflexivity.
    - replace (len c =? cs) with true by lia. cbn [negb]. now apply IH.
  Qed.
  Definition alike (o1 : @wobj R1) (o2 : @wobj R2) : Prop :=
    wo_type o1 = wo_type o2 /\ wo_size o1 = wo_size o2 /\ wo_binsha o1 = wo_binsha o2 /\
    exists l, chunks_read rd1 cs (wo_stream o1) l /\ chunks_read rd2 cs (wo_stream o2) l.
  Lemma same_one o1 o2 fuel level ofs : alike o1 o2 -> write_one K pagesize rd1 fuel level o1 ofs = write_one K pagesize rd2 fuel level o2 ofs.
  Proof.
    intros (E1 & E2 & E3 & l & H1 & H2). unfold write_one. rewrite E1, E2, E3.
    destruct (type_to_type_id (wo_type o2)); cbn [bind]; try easy. destruct (create_pack_object_header _ _); cbn [bind]; try easy.
    pose proof (same_loop l _ _ H1 H2 fuel (zc_new K level) 0 (Crc32.crc32 a0 0) []) as E. unfold finish in E. unfold write_stream_to_pack. now rewrite E.
  Qed.
  Lemma same_objs fuel level n : forall os1 os2, Forall2 alike os1 os2 -> forall actual ofs,
    write_objs K pagesize rd1 fuel level os1 n actual ofs = write_objs K pagesize rd2 fuel level os2 n actual ofs.
  Proof.
    induction 1 as [|o1 o2 l1 l2 H _ IH]; intros actual ofs; [reflexivity|]. cbn [write_objs]. rewrite (same_one _ _ _ _ _ H).
    destruct (write_one _ _ _ _ _ _ _) as [[d en]| |]; cbn [bind]; try easy. now rewrite IH.
  Qed.
  Lemma same_pack fuel level oc os1 os2 : Forall2 alike os1 os2 ->
    write_pack K sha1 pagesize rd1 fuel level os1 oc = write_pack K sha1 pagesize rd2 fuel level os2 oc.
  Proof.
    intros H. unfold write_pack. assert (E : len os1 = len os2) by (unfold len; now rewrite (Forall2_length _ _ _ _ _ H)). rewrite E. cbv zeta.
    destruct (pack_L _); cbn [bind]; try easy. now rewrite (same_objs _ _ _ _ _ H).
  Qed.
End Same.

Lemma given_alike R pagesize (rd : nat -> R -> Z -> res (bytes * R)) rw os ds : 0 < pagesize -> Forall2 (alike_given pagesize rd rw) os ds ->
  exists f0, forall f, (f0 <= f)%nat -> Forall2 (alike pagesize (rd f) file_read) os ds.
Proof.
  intros Hps. induction 1 as [|o d os ds (E1 & E2 & E3 & k & Hk & g & Hg) _ (f0 & IH)]; [exists 0%nat; constructor|].
  exists (max f0 g). intros f Hf. constructor; [|apply IH; lia]. split; [exact E1|]. split; [exact E2|]. split; [exact E3|].
  destruct (cursor_chunks R (rd f) rw (chunk_size pagesize) (wo_stream d) ltac:(unfold chunk_size; lia) k (wo_stream o) 0%nat) as (l & L1 & L2 & _).
  - lia.
  - unfold enough, len in Hk. lia.
  - apply Hg. lia.
  - exists l. split; [exact L1|exact L2].
Qed.

(** ** Loose objects *)
Section Loose.
  Context {K : zlib} (sha1 : bytes -> bytes) (pagesize : Z) (Hps : 0 < pagesize) (O : os) (Hcr : can_read O).
  Notation cs := (chunk_size pagesize).
  (** Name, type, size, and what reading gives. *)
  Definition reads_as (db : ldb) (s : world) (x : bytes * bytes * Z * bytes) : Prop :=
    let '(sha, t, n, c) := x in
    exists z k, contents s (object_file (l_root db) sha) = Some z /\ z <> [] /\ enough cs k c /\
      evaluates (fun f => read_object (K := K) z f (chunk_reads cs k)) (Ok (t, n, cursor c 0 (chunk_reads cs k))).
  Lemma ro_streams f db shas : reads_only (streams K f db shas).
  Proof. induction shas as [|x l IH]; [easy|]. cbn [streams]. apply ro_bind; [apply ro_stream|]. intros o. apply ro_bind; [exact IH|easy]. Qed.
  Lemma streams_yield db s xs : Forall (reads_as db s) xs -> exists f0, forall f, (f0 <= f)%nat ->
    exists os, yields O (streams K f db (map sha_of xs)) s (Ok os) /\ Forall2 (alike pagesize (read f) file_read) (map (to_write K) os) (map in_memory xs).
  Proof.
    induction 1 as [|x xs Hx _ (f0 & IH)]; [exists 0%nat; intros f _; exists []; split; [apply yields_ret|constructor]|].
    destruct x as [[[sha t] n] c]. destruct Hx as (z & k & Hz & Hne & Hk & g & Hg). exists (max f0 g). intros f Hf.
    destruct (IH f ltac:(lia)) as (os & Hos & Ha). specialize (Hg f ltac:(lia)). unfold read_object in Hg.
    apply bind_ok_inv in Hg as ([[t' n'] r] & En & Hg). apply bind_ok_inv in Hg as (outs & Ho & Hg). injection Hg as -> -> ->.
    exists (mk_ostream sha t n r :: os). cbn [map sha_of fst streams]. split.
    - eapply yields_bind; [apply ro_bind; [apply ro_stream|intros o; apply ro_bind; [apply ro_streams|easy]]| |].
      + unfold LooseModel.stream. eapply yields_bind; [apply ro_stream|now apply map_yields with (z := z)|]. rewrite En. cbn [bind]. apply yields_ret.
      + eapply yields_bind; [apply ro_bind; [apply ro_streams|easy]|exact Hos|apply yields_ret].
    - constructor; [|exact Ha]. split; [reflexivity|]. split; [reflexivity|]. split; [reflexivity|]. cbn [to_write wo_stream ot_stream in_memory].
      destruct (cursor_chunks (reader K) (read f) (fun r => seek r 0 0) cs c ltac:(unfold chunk_size; lia) k r 0%nat) as (l & L1 & L2 & _);
        [lia|unfold enough, len in Hk; lia|exact Ho|]. exists l. split; [exact L1|exact L2].
  Qed.
  Lemma pack_loose_same db s xs level : Forall (reads_as db s) xs -> exists f0, forall f, (f0 <= f)%nat ->
    yields O (pack_loose K sha1 pagesize f db level (map sha_of xs)) s (write_pack K sha1 pagesize file_read f level (map in_memory xs) None).
  Proof.
    intros H. destruct (streams_yield db s xs H) as (f0 & H1). exists f0. intros f Hf. destruct (H1 f Hf) as (os & Hy & Ha).
    unfold pack_loose. eapply yields_bind; [apply ro_bind; [apply ro_streams|easy]|exact Hy|]. rewrite (same_pack K sha1 pagesize _ _ f level None _ _ Ha). apply yields_ret.
  Qed.
  Lemma kept_reads (L : zlib_laws K) db s x : kept K pagesize L db s x -> reads_as db s x.
  Proof.
    destruct x as [[[sha t] n] c]. intros (z & form & k & Hz & -> & Hf & Hs & N1 & N2 & Hl & Hd & Hk & Hr).
    assert (form = loose_object_header t (len c) ++ c) as -> by (apply (loose_form_unique t c); [exact Hf|apply loose_form_header]).
    rewrite len_app in Hl, Hr. replace (len (loose_object_header t (len c)) + len c - len c) with (len (loose_object_header t (len c))) in * by lia.
    exists z, k. split; [exact Hz|]. split; [now destruct (zl_start K L _ _ Hs)|]. split; [exact Hk|].
    pose proof (object_exact L t c z [] (chunk_reads cs k) Hs N1 N2 Hl Hd Hr) as H. now rewrite app_nil_r in H.
  Qed.
  (** An object whose stream lacks bytes. *)
  Lemma short_reads db s sha t n c z : contents s (object_file (l_root db) sha) = Some z -> z <> [] -> len c < cs ->
    evaluates (fun f => read_object (K := K) z f [Read cs]) (Ok (t, n, [c])) -> reads_as db s (sha, t, n, c).
  Proof.
    intros Hz Hne Hl He. exists z, 1%nat. split; [exact Hz|]. split; [exact Hne|]. split; [unfold enough; lia|].
    unfold chunk_reads. cbn [repeat cursor skipn]. pose proof (len_nonneg _ c). replace (cs <? 1) with false by lia. cbv zeta.
    rewrite firstn_all2 by (unfold len in *; lia). exact He.
  Qed.
End Loose.
Lemma file_chunks n c : 0 < n -> exists l, chunks_read file_read n c l /\ concat l = c.
Proof.
  intros Hn. destruct (cursor_chunks bytes file_read (fun _ => Ok c) n c Hn (S (length c)) c 0%nat) as (l & _ & H1 & H2); [lia|nia| |now exists l].
  change c with (skipn 0 c) at 2. generalize (S (length c)) as k, 0%nat as p. induction k as [|k IH]; intros p; [reflexivity|].
  unfold chunk_reads in *. cbn [repeat run_stream cursor]. unfold file_read. replace (n <? 0) with false by lia. replace (n <? 1) with false by lia. cbn [bind]. cbv zeta.
  set (d := firstn (Z.to_nat n) (skipn p c)). rewrite skipn_skipn.
  assert (E : skipn (Z.to_nat n + p) c = skipn (p + length d) c).
  { unfold d. rewrite firstn_length, skipn_length. destruct (Nat.le_gt_cases (Z.to_nat n) (length c - p)); [f_equal; lia|]. rewrite !skipn_all2 by lia. reflexivity. }
  fold file_read. rewrite E, IH. reflexivity.
Qed.

(** ** Objects of a pack *)
Section Packed.
  Context {K : zlib} (sha1 : bytes -> bytes) (pagesize : Z) (Hps : 0 < pagesize).
  Lemma pack_streams_ok e ds : Forall (served K pagesize e) ds -> exists os,
    evaluates (fun f => pack_streams K f e (map wo_binsha ds)) (Ok os) /\ Forall2 (alike_given pagesize os_read os_seek0) os ds.
  Proof.
    induction 1 as [|d ds (st & [g Hg] & E1 & E2 & E3) _ (os & [f0 IH] & Ha)]; [exists []; split; [now exists 0%nat|constructor]|].
    exists (mk_wobj (os_type st) (os_size st) (wo_binsha d) st :: os). split.
    - exists (max f0 g). intros f Hf. cbn [map pack_streams]. rewrite Hg by lia. cbn [bind]. rewrite IH by lia. reflexivity.
    - constructor; [|exact Ha]. split; [exact E1|]. split; [exact E2|]. split; [reflexivity|exact E3].
  Qed.
  Lemma repack_same e ds level : Forall (served K pagesize e) ds -> exists f0, forall f, (f0 <= f)%nat ->
    repack K sha1 pagesize f e level (map wo_binsha ds) = write_pack K sha1 pagesize file_read f level ds None.
  Proof.
    intros H. destruct (pack_streams_ok e ds H) as (os & [f0 H0] & Ha). destruct (given_alike _ pagesize os_read os_seek0 os ds Hps Ha) as (f1 & H1).
    exists (max f0 f1). intros f Hf. unfold repack. rewrite H0 by lia. cbn [bind]. apply same_pack. apply H1. lia.
  Qed.
  (** What write_pack wrote is served. *)
  Lemma written_served (L : zlib_laws K) level e (d : @wobj bytes) : wo_size d = len (wo_stream d) -> reads_back L (fun c => c) level e d ->
    (forall chunks, concat chunks = wo_stream d -> dense L (zc_all K (zc_new K level) chunks) (wo_stream d) \/
       (whole L (zc_all K (zc_new K level) chunks) (wo_stream d) /\ len (wo_stream d) < chunk_size pagesize)) ->
    served K pagesize e d.
  Proof.
    intros Hs (_ & st & chunks & Hc & He & Ht & Hn & _ & Hw & Hd & _) H. exists st. split; [exists 0%nat; intros f _; apply He|].
    split; [exact Ht|]. split; [lia|]. destruct (H chunks Hc) as [D|[D Hl]].
    - exists (S (length (wo_stream d))). split; [|now apply Hd].
      unfold enough, chunk_size, len. rewrite Nat2Z.inj_succ. generalize (length (wo_stream d)). intros m. assert (1 <= 1000 * pagesize) by lia. nia.
    - exists 1%nat. split; [unfold enough; lia|]. unfold chunk_reads. cbn [repeat cursor skipn]. pose proof (len_nonneg _ (wo_stream d)).
      replace (chunk_size pagesize <? 1) with false by lia. cbv zeta. rewrite firstn_all2 by (unfold len in *; lia). apply Hw; [exact D|lia].
  Qed.
End Packed.
