(** Proofs about seek(0) in the streams of small loose objects (RewindSpec.v). *)
From Coq Require Import ZifyBool ZifyNat.
From Verif Require Import Py PyFacts FunModel FunSpec FunProofs ZlibModel ReaderModel StreamSpec ReaderProofs RewindSpec.
Ltac Zify.zify_post_hook ::= Z.div_mod_to_equations.

Lemma split_count b l : length (split b l) = S (count_occ Z.eq_dec l b).
Proof.
  induction l as [|x l IH]; [easy|]. cbn [split count_occ]. destruct (Z.eqb_spec x b) as [->|Hne].
  - destruct (Z.eq_dec b b); [|easy]. cbn [length]. now rewrite IH.
  - destruct (Z.eq_dec x b); [easy|]. destruct (split b l) as [|p ps]; [discriminate|]. exact IH.
Qed.
Lemma bad_header_text x y : ~ In 0 x -> count_occ Z.eq_dec x 32 <> 1%nat -> parse_loose_header (x ++ 0 :: y) = Raise ValueError.
Proof.
  intros H0 Hc. unfold parse_loose_header. rewrite find_app by exact H0.
  rewrite slice_to_app by easy.
  pose proof (split_count BYTE_SPACE x) as Hl. unfold BYTE_SPACE in *.
  destruct (split 32 x) as [|a [|b [|d l]]]; try reflexivity. cbn [length] in Hl. lia.
Qed.

Lemma clean_app c : forall a b pos left, clean_seeks c pos left (a ++ b) ->
  clean_seeks c pos left a /\ exists pos', clean_seeks c pos' (kept c pos left a) b.
Proof.
  induction a as [|[n|] a IH]; intros b pos left; cbn [app clean_seeks kept]; cbv zeta; [eauto|intros H; now apply IH|].
  intros (H1 & H2 & H3). destruct (IH _ _ _ H3) as [H4 H5]. easy.
Qed.
Lemma kept_app c : forall a b pos left, exists pos', kept c pos left (a ++ b) = kept c pos' (kept c pos left a) b.
Proof.
  induction a as [|[n|] a IH]; intros b pos left; cbn [app kept]; cbv zeta; [eauto|apply IH..].
Qed.

Section Small.
  Context {K : zlib} (L : zlib_laws K) (t c z rest : bytes).
  Notation hdr := (loose_object_header t (len c)).
  Context (Hz : zl_stream L z (hdr ++ c)) (Ht1 : ~ In BYTE_SPACE t) (Ht2 : ~ In NULL_BYTE t).
  Context (Hs1 : len z + len c <= 8192) (Hs2 : len hdr + 2 * len c <= 8192).
  Notation reader := (reader K).
  Notation GG := (G L z (hdr ++ c) rest false).
  Notation PP := (P L t c z rest (length c)).

  (** The header is to be parsed again, [b] is in the buffer. *)
  Definition NB (b : bytes) (r : reader) : Prop :=
    U L z (hdr ++ c) rest r [] z (hdr ++ c) /\ r_cws r = 0 /\ r_cwe r = 0 /\ zs_tail K (r_zip r) = [] /\
    r_br r = 0 /\ (r_buf r = Some b \/ (r_buf r = None /\ b = [])) /\ r_buflen r = len b /\ r_s r = None /\ r_phi r = false.
  Lemma len_c : 0 <= len c.
  Proof. apply len_nonneg. Qed.

  Lemma spoils_parse b : spoils b -> parse_loose_header (b ++ hdr ++ c) = Raise ValueError.
  Proof.
    destruct (fmt_i_nosep c) as [Hd1 Hd2]. intros [[H0 H32]|(x & y & -> & H0 & Hc)].
    - unfold loose_object_header. replace (b ++ (t ++ [BYTE_SPACE] ++ fmt_i (len c) ++ [NULL_BYTE]) ++ c)
        with ((b ++ t ++ [32] ++ fmt_i (len c)) ++ 0 :: c) by (rewrite <- !app_assoc; reflexivity).
      apply bad_header_text.
      + rewrite !in_app_iff. intros [?|[?|[[Hi|[]]|?]]]; [easy|easy|discriminate|easy].
      + rewrite !count_occ_app. cbn [count_occ]. destruct (Z.eq_dec 32 32); [|easy].
        apply (count_occ_In Z.eq_dec) in H32. lia.
    - rewrite <- app_assoc. cbn [app]. now apply bad_header_text.
  Qed.

  Lemma NB_read b r fuel : NB b r -> len b <= len c -> (2 * length (hdr ++ c) + 8 <= fuel)%nat ->
    exists r', read_s fuel 8192 (mk_reader (r_m r) (r_zip r) (r_buf r) (r_buflen r) (Some 8192) (r_br r) (r_cws r) (r_cwe r) (r_cbr r) (r_phi r)) 8192
      = Ok (b ++ hdr ++ c, r') /\ GG r' [].
  Proof.
    intros (HU & Hcws & Hcwe & Htail & Hbr & Hb & Hbl & _) Hlb Hf. destruct fuel as [|fuel]; [lia|]. rewrite read_s_S. cbv zeta.
    cbn [r_m r_zip r_buf r_buflen r_s r_br r_cws r_cwe r_cbr r_phi]. rewrite Hbr.
    change (8192 - 0) with 8192. change (8192 <? 1) with false. cbv iota. change (Z.min 8192 8192) with 8192.
    change (8192 =? 0) with false. cbv iota.
    assert (0 < len hdr) as Hh by (unfold loose_object_header; rewrite !len_app, !len_cons, len_nil; pose proof (len_nonneg _ t); pose proof (len_nonneg _ (fmt_i (len c))); lia).
    pose proof (len_nonneg _ b) as Hb0. pose proof len_c as Hc0.
    set (ra := mk_reader _ _ _ _ _ _ _ _ _ _).
    assert (exists r1, U L z (hdr ++ c) rest r1 [] z (hdr ++ c) /\ r_cws r1 = 0 /\ r_cwe r1 = 0 /\ zs_tail K (r_zip r1) = [] /\
      r_br r1 = len b /\ r_buf r1 = None /\
      match r_buf r with
      | Some b => if 8192 <=? r_buflen r then let (dat, b0) := bio_read b 8192 in
           Ok (dat, with_buf ra (Some b0) (r_buflen r - 8192) (0 + 8192))
          else read_rest fuel 8192 (with_buf ra None 0 (0 + r_buflen r)) b (8192 - r_buflen r)
      | None => read_rest fuel 8192 ra [] 8192 end = read_rest fuel 8192 r1 b (8192 - len b))
      as (r1 & HU1 & Hcws1 & Hcwe1 & Htail1 & Hbr1 & Hb1 & ->).
    { destruct Hb as [Hb|[Hb Eb]]; rewrite Hb.
      - rewrite Hbl. replace (8192 <=? len b) with false by lia. exists (with_buf ra None 0 (0 + len b)). split; [exact HU|]. now repeat split.
      - subst b. rewrite len_nil, Z.sub_0_r. exists ra. split; [exact HU|]. now repeat split. }
    destruct fuel as [|fuel]; [lia|]. rewrite read_rest_S.
    destruct (inflate_step L z (hdr ++ c) rest Hz _ _ _ _ (8192 - len b) HU1 ltac:(lia))
      as (o1 & r2 & used & over & zr' & dr' & H1 & H2 & H3 & H4 & H5 & H6 & H7 & _ & _ & H8).
    assert (window (r_cws r1) (r_cwe r1) (zs_tail K (r_zip r1)) (8192 - len b) = (0, 8192 - len b)) as Hw.
    { rewrite Hcws1, Hcwe1, Htail1. unfold window.
      change (negb (len (@nil Z) =? 0)) with false. cbv iota beta. rewrite Z.add_0_l, Z.sub_0_r.
      replace (8192 - len b <? 8) with false; [easy|]. lia. }
    rewrite Hw in H8. cbn [fst snd] in H8. specialize (H8 ltac:(lia)).
    rewrite firstn_all2 in H8 by (rewrite app_length; unfold len in *; lia). subst o1.
    assert (dr' = []) as ->.
    { apply len_0_nil. apply (f_equal len) in H4. rewrite !len_app in H4. pose proof (len_nonneg _ dr'). unfold bytes in *. lia. }
    assert (HG2 : GG r2 []).
    { destruct zr' as [|a zr'].
      - right. destruct (H7 eq_refl) as (_ & HF & _). easy.
      - left. destruct (H6 ltac:(easy)) as (HU' & _). eauto. }
    rewrite H1. cbn [bind].
    assert (Hbr2 : r_br r2 = len b + len (hdr ++ c)).
    { destruct H2 as (_ & _ & _ & _ & _ & ->). lia. }
    destruct (_ && _) eqn:E.
    - set (arg := 8192 - len b - len (b ++ hdr ++ c)).
      destruct (read_s_None L z (hdr ++ c) rest Hz false 8192 fuel r2 [] arg (if arg <? 1 then 8192 - r_br r2 else Z.min arg (8192 - r_br r2)))
        as (o2 & r3 & dr3 & J1 & _ & J3 & J4 & _); try easy.
      { cbn [length]. lia. }
      { destruct H2 as (_ & -> & _). exact Hb1. }
      { destruct (Z.ltb_spec arg 1); rewrite len_app in *; lia. }
      rewrite J1. cbn [bind]. symmetry in J4. apply app_eq_nil in J4 as [-> ->]. rewrite app_nil_r. now exists r3.
    - now exists r2.
  Qed.

  Lemma PP_rewind r pos : PP r pos -> NB (skipn pos c) (rewind r).
  Proof.
    intros (Hp & Hs & Hbr & Hphi & Hc).
    destruct (zl_start K L _ _ Hz) as (H1 & H2 & H3 & H4).
    assert (r_m r = z ++ rest) as Hm.
    { destruct Hc as [(_ & _ & _ & [(? & ? & HU)|(HF & _)])|(? & ? & _ & _ & _ & _ & [(? & ? & HU)|(HF & _)])];
        first [apply HU|apply HF]. }
    unfold rewind, NB. rewrite Hphi. split; [|cbn [r_cws r_cwe r_zip r_br r_buf r_buflen r_s r_phi]; split; [easy|split; [easy|split; [easy|split; [easy|]]]]].
    - unfold U. cbn. rewrite H3, H4. cbn. repeat split; try easy. apply reach_new.
    - destruct Hc as [(Hb & Hl & HB & _)|(b & dr & Hb & Hl & HB & E & _)].
      + rewrite skipn_all2 by lia. rewrite Hb, Hl. split; [now right|easy].
      + assert (dr = []) as ->.
        { apply (f_equal (@length Z)) in E. rewrite skipn_length, app_length in E. destruct dr; [easy|cbn [length] in E; lia]. }
        rewrite app_nil_r in E. rewrite E, Hb, Hl. split; [now left|easy].
  Qed.
  Lemma NB_rewind b r : NB b r -> NB b (rewind r).
  Proof.
    intros (HU & Hcws & Hcwe & Htail & Hbr & Hb & Hbl & Hs & Hphi).
    destruct (zl_start K L _ _ Hz) as (H1 & H2 & H3 & H4).
    assert (r_m r = z ++ rest) as Hm by apply HU.
    unfold rewind, NB. rewrite Hphi, Hs. split; [|cbn [r_cws r_cwe r_zip r_br r_buf r_buflen r_s r_phi]; split; [easy|split; [easy|split; [easy|split; [easy|]]]]].
    - unfold U. cbn. rewrite H3, H4. cbn. repeat split; try easy. apply reach_new.
    - easy.
  Qed.
  Lemma NB_parse b r fuel t' n y : NB b r -> len b <= len c -> (2 * length (hdr ++ c) + 8 <= fuel)%nat ->
    0 <= n -> ~ In BYTE_SPACE t' -> ~ In NULL_BYTE t' -> b ++ hdr ++ c = loose_object_header t' n ++ y ->
    exists r2, parse_header_info fuel r = Ok (t', n, r2) /\ r_s r2 = Some n /\ r_br r2 = 0 /\ r_phi r2 = true /\
      r_buf r2 = Some y /\ r_buflen r2 = len y /\ GG r2 [].
  Proof.
    intros HN Hl Hf Hn H1 H2 E. destruct (NB_read b r fuel HN Hl Hf) as (r' & R1 & R2).
    unfold parse_header_info. rewrite R1. cbn [bind]. rewrite E, loose_object_header_ok by easy. cbn [bind].
    assert (find NULL_BYTE (loose_object_header t' n ++ y) = len (loose_object_header t' n) - 1) as ->.
    { pose proof (fmt_i_decimal n Hn) as Hd. unfold loose_object_header. rewrite !app_assoc. rewrite <- (app_assoc _ [NULL_BYTE]). cbn [app].
      rewrite find_app; [rewrite !len_app, !len_cons, len_nil; lia|].
      rewrite !in_app_iff. intros [[?|Hi]|Hi]; [easy| |].
      - destruct Hi as [Hi|[]]. discriminate.
      - unfold fmt_i in Hi. replace (n <? 0) with false in Hi by lia.
        pose proof (dec_nonneg_digits n Hn) as Hdd. rewrite Forall_forall in Hdd. apply Hdd in Hi. unfold NULL_BYTE in Hi. lia. }
    eexists. split; [reflexivity|]. cbn [r_s r_br r_phi r_buf r_buflen].
    replace (len (loose_object_header t' n) - 1 + 1) with (len (loose_object_header t' n)) by lia.
    rewrite slice_from_app by easy. rewrite len_app. do 4 (split; [easy|]). split; [lia|]. now apply (G_same L t c z rest r').
  Qed.
  Lemma NB_clean b r fuel : NB b r -> len b <= len c -> (2 * length (hdr ++ c) + 8 <= fuel)%nat ->
    ~ In 32 b -> ~ In 0 b -> exists r2, parse_header_info fuel r = Ok (b ++ t, len c, r2) /\ PP r2 0.
  Proof.
    intros HN Hl Hf H1 H2. pose proof len_c.
    destruct (NB_parse b r fuel (b ++ t) (len c) c HN Hl Hf) as (r2 & R1 & R2 & R3 & R4 & R5 & R6 & R7).
    - easy.
    - rewrite in_app_iff. intros [?|?]; [now apply H1|easy].
    - rewrite in_app_iff. intros [?|?]; [now apply H2|easy].
    - unfold loose_object_header. now rewrite <- !app_assoc.
    - exists r2. split; [easy|]. split; [lia|]. split; [easy|]. split; [easy|]. split; [easy|]. right.
      exists c, []. rewrite app_nil_r. easy.
  Qed.

  Definition state (r : reader) (pos : nat) (left : bytes) : Prop :=
    (PP r pos /\ left = skipn pos c) \/
    (NB left r /\ pos = O /\ ~ In 32 left /\ ~ In 0 left /\ len left <= len c).
  Lemma small_run fuel : (2 * length (hdr ++ c) + 8 <= fuel)%nat ->
    forall ops r pos left, state r pos left -> clean_seeks c pos left ops ->
    exists r' pos', state r' pos' (kept c pos left ops) /\
      run_state (read fuel) rew0 r ops = Ok (cursor c pos ops, r') /\
      forall ops2, run_stream (read fuel) rew0 r (ops ++ ops2) =
        bind (run_stream (read fuel) rew0 r' ops2) (fun l => Ok (cursor c pos ops ++ l)).
  Proof.
    intros Hf. assert (Hfc : (2 * length c + 8 <= fuel)%nat) by (rewrite app_length in Hf; lia).
    induction ops as [|[n|] ops IH]; intros r pos left Hst Hcl.
    - exists r, pos. split; [exact Hst|]. split; [easy|]. intros ops2. cbn [app cursor]. destruct (run_stream _ _ r ops2); reflexivity.
    - cbn [clean_seeks kept cursor] in *. cbv zeta in *.
      assert (exists r1, PP r1 pos /\ read fuel r n = read fuel r1 n) as (r1 & HP & Er).
      { destruct Hst as [[HP _]|(HN & -> & H1 & H2 & H3)]; [now exists r|].
        destruct (NB_clean left r fuel HN H3 Hf H1 H2) as (r2 & R1 & R2). exists r2. split; [easy|].
        unfold read, get_s. destruct HN as (_ & _ & _ & _ & _ & _ & _ & Hs & _). rewrite Hs, R1. cbn [bind].
        destruct R2 as (_ & Hs3 & _). now rewrite Hs3. }
      destruct (P_read L t c z rest Hz _ r1 pos n fuel HP Hfc) as (out & r' & R1 & R2 & R3 & R4).
      cbv zeta in R4. set (d := if n <? 1 then _ else _) in *.
      assert (out = d) as ->.
      { apply R4. left. unfold d. destruct (n <? 1); rewrite ?firstn_length, skipn_length; lia. }
      clear R4.
      destruct (IH r' (pos + length d)%nat (skipn (pos + length d) c)) as (r3 & pos3 & S1 & S0 & S2); [now left|exact Hcl|].
      exists r3, pos3. split; [exact S1|].
      split; [cbn [run_state]; rewrite Er, R1; cbn [bind]; rewrite S0; reflexivity|]. intros ops2. cbn [app run_stream]. rewrite Er, R1. cbn [bind]. rewrite S2.
      destruct (run_stream _ _ r3 ops2); reflexivity.
    - cbn [clean_seeks kept cursor] in *. destruct Hcl as (H1 & H2 & Hcl).
      destruct (IH (rewind r) O left) as (r3 & pos3 & S1 & S0 & S2); [|exact Hcl|].
      { right. destruct Hst as [[HP ->]|(HN & -> & _ & _ & H3)].
        - split; [now apply PP_rewind|]. split; [easy|]. split; [easy|]. split; [easy|]. rewrite len_skipn. pose proof len_c. lia.
        - split; [now apply NB_rewind|]. easy. }
      exists r3, pos3. split; [exact S1|].
      split; [cbn [run_state]; change (rew0 r) with (Ok (rewind r)); cbn [bind]; rewrite S0; reflexivity|]. intros ops2. cbn [app run_stream]. change (rew0 r) with (Ok (rewind r)). cbn [bind]. rewrite S2.
      destruct (run_stream _ _ r3 ops2); reflexivity.
  Qed.
  Lemma small_new fuel : (2 * length (hdr ++ c) + 8 <= fuel)%nat ->
    exists r, reader_new K fuel (z ++ rest) = Ok (t, len c, r) /\ state r 0 c.
  Proof.
    intros Hf. pose proof len_c. pose proof (len_nonneg _ hdr). unfold reader_new.
    assert (Ht : tame L t c z) by (right; lia). assert (Hh : len hdr <= 8192) by lia.
    destruct (parse_dense L t c z rest Hz Ht1 Ht2 _ fuel Ht Hh (N_init L t c z rest Hz (Some 0)) Hf) as (r & R1 & R2).
    exists r. split; [exact R1|]. left. split; [|easy].
    replace (length c) with (bufpos t c); [exact R2|]. unfold bufpos.
    rewrite firstn_all2 by (rewrite app_length; unfold len in *; lia). rewrite app_length. lia.
  Qed.
  Lemma state_rewind r pos left : state r pos left -> NB left (rewind r) /\ len left <= len c.
  Proof.
    pose proof len_c.
    intros [[HP ->]|(HN & -> & _ & _ & H3)]; [split; [now apply PP_rewind|rewrite len_skipn; lia]|].
    split; [now apply NB_rewind|easy].
  Qed.

  Lemma NB_init : NB [] (reader_init K (z ++ rest) None).
  Proof.
    destruct (N_init L t c z rest Hz None) as (H1 & H2 & H3 & H4 & H5 & H6 & _).
    split; [exact H1|]. split; [easy|]. split; [easy|]. split; [easy|]. split; [easy|]. split; [now right|]. easy.
  Qed.
  Lemma state_init : state (reader_init K (z ++ rest) None) 0 [].
  Proof. right. split; [exact NB_init|]. rewrite len_nil. pose proof len_c. easy. Qed.
  (** One use after another, each beginning with seek(0). *)
  Lemma next_use fuel r pos left ops : (2 * length (hdr ++ c) + 8 <= fuel)%nat -> state r pos left ->
    ~ In 32 left -> ~ In 0 left -> clean_seeks c 0 left ops ->
    exists r' pos', run_state (read fuel) rew0 (rewind r) ops = Ok (cursor c 0 ops, r') /\ state r' pos' (kept c 0 left ops).
  Proof.
    intros Hf Hst H1 H2 Hcl. destruct (state_rewind _ _ _ Hst) as [HN Hl].
    destruct (small_run fuel Hf ops (rewind r) 0 left) as (r' & pos' & S1 & S0 & _); [right; easy|exact Hcl|]. eauto.
  Qed.
  Lemma spoilt_use fuel r pos left n post : (2 * length (hdr ++ c) + 8 <= fuel)%nat -> state r pos left -> spoils left ->
    run_state (read fuel) rew0 (rewind r) (Read n :: post) = Raise ValueError.
  Proof.
    intros Hf Hst Hsp. destruct (state_rewind _ _ _ Hst) as [HN Hl]. destruct (NB_read _ _ fuel HN Hl Hf) as (r3 & Q1 & _).
    cbn [run_state]. unfold read at 1, get_s, parse_header_info. destruct HN as (_ & _ & _ & _ & _ & _ & _ & Hs & _). rewrite Hs.
    rewrite Q1. cbn [bind]. rewrite spoils_parse by exact Hsp. reflexivity.
  Qed.

  Lemma seeks_exact ops : clean_seeks c 0 c ops ->
    evaluates (fun f => read_object (K := K) (z ++ rest) f ops) (Ok (t, len c, cursor c 0 ops)).
  Proof.
    intros Hcl. exists (2 * length (hdr ++ c) + 8)%nat. intros f Hf. unfold read_object.
    destruct (small_new f Hf) as (r & R1 & R2). rewrite R1. cbn [bind].
    destruct (small_run f Hf ops r 0 c R2 Hcl) as (r' & pos' & _ & _ & S2). specialize (S2 []). rewrite app_nil_r in S2.
    change (fun r0 : reader => seek r0 0 0) with (@rew0 K). rewrite S2. cbn [run_stream bind]. now rewrite app_nil_r.
  Qed.
  Lemma seeks_spoilt pre n post : clean_seeks c 0 c pre -> spoils (kept c 0 c pre) ->
    evaluates (fun f => read_object (K := K) (z ++ rest) f (pre ++ Rewind :: Read n :: post)) (Raise ValueError).
  Proof.
    intros Hcl Hsp. exists (2 * length (hdr ++ c) + 8)%nat. intros f Hf. unfold read_object.
    destruct (small_new f Hf) as (r & R1 & R2). rewrite R1. cbn [bind].
    destruct (small_run f Hf pre r 0 c R2 Hcl) as (r' & pos' & S1 & _ & S2).
    change (fun r0 : reader => seek r0 0 0) with (@rew0 K). rewrite S2. cbn [run_stream].
    change (rew0 r') with (Ok (rewind r')). cbn [bind].
    destruct (state_rewind _ _ _ S1) as [HN Hl]. destruct (NB_read _ _ f HN Hl Hf) as (r3 & Q1 & _).
    unfold read at 1, get_s, parse_header_info. destruct HN as (_ & _ & _ & _ & _ & _ & _ & Hs & _). rewrite Hs.
    rewrite Q1. cbn [bind]. rewrite spoils_parse by exact Hsp. reflexivity.
  Qed.
  Lemma seeks_forged pre x n y m : clean_seeks c 0 c pre -> kept c 0 c pre = loose_object_header x n ++ y ->
    ~ In 32 x -> ~ In 0 x -> 0 <= n <= len (y ++ hdr ++ c) -> 
    evaluates (fun f => read_object (K := K) (z ++ rest) f (pre ++ [Rewind; Read m]))
      (Ok (t, len c, cursor c 0 pre ++ [[]; firstn (Z.to_nat (if m <? 1 then n else Z.min m n)) (y ++ hdr ++ c)])).
  Proof.
    intros Hcl Hk H1 H2 Hn. exists (2 * length (hdr ++ c) + 8)%nat. intros f Hf. unfold read_object.
    destruct (small_new f Hf) as (r & R1 & R2). rewrite R1. cbn [bind].
    destruct (small_run f Hf pre r 0 c R2 Hcl) as (r' & pos' & S1 & _ & S2).
    change (fun r0 : reader => seek r0 0 0) with (@rew0 K). rewrite S2. cbn [run_stream].
    change (rew0 r') with (Ok (rewind r')). cbn [bind].
    destruct (state_rewind _ _ _ S1) as [HN Hl]. rewrite Hk in *.
    destruct (NB_parse _ _ f x n (y ++ hdr ++ c) HN Hl Hf) as (r3 & Q1 & Q2 & Q3 & Q4 & Q5 & Q6 & _); [lia|easy|easy|now rewrite <- app_assoc|].
    unfold read at 1, get_s. destruct HN as (_ & _ & _ & _ & _ & _ & _ & Hs & _). rewrite Hs, Q1. cbn [bind].
    destruct f as [|f]; [lia|]. rewrite read_s_S. cbv zeta. rewrite Q3, Q5, Q6, Z.sub_0_r.
    set (q := if m <? 1 then n else Z.min m n). assert (0 <= q <= n) as Hq by (unfold q; destruct (Z.ltb_spec m 1); lia).
    destruct (Z.eqb_spec q 0) as [->|Hne]; [reflexivity|].
    replace (q <=? len (y ++ hdr ++ c)) with true by lia.
    unfold bio_read. replace (q <? 0) with false by lia. reflexivity.
  Qed.
End Small.
