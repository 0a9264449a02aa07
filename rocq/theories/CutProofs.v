(** What zlib makes of bytes that do not repeat followed by a short text: stored blocks and a
    last block with its own codes, whose beginning gives no output for 13 bytes. *)
From Coq Require Import ZifyBool ZifyNat.
From Verif Require Import Py PyFacts FunModel FunSpec ZlibModel ZlibProofs ReaderModel StreamSpec ReaderProofs DeflateModel DeflateProofs DeflateDense CompressModel.
Ltac Zify.zify_post_hook ::= Z.div_mod_to_equations.

(** b'aaacccbccacbbcbacabc', and zlib's block for it *)
Definition text : bytes := [97; 97; 97; 99; 99; 99; 98; 99; 99; 97; 99; 98; 98; 99; 98; 97; 99; 97; 98; 99].
Definition text_block : bytes := [5; 193; 1; 1; 0; 0; 0; 130; 160; 173; 198; 255; 15; 65; 133; 145; 205; 210; 28].
Definition stored_part (chunks : list bytes) : bytes := flat_map (s_block false) chunks.
Definition with_text (chunks : list bytes) : bytes := concat chunks ++ text.
Definition text_stream (chunks : list bytes) : bytes :=
  [120; 1] ++ stored_part chunks ++ text_block ++ adler_bytes (adler (with_text chunks)).

(** ** Decoding *)
Lemma bits_ab bits : forall ph fin h ab ph' fin' h' ab' o, bits_step (mk_core ph fin h ab) bits = Ok (mk_core ph' fin' h' ab', o) ->
  forall ab2, bits_step (mk_core ph fin h ab2) bits = Ok (mk_core ph' fin' h' (fold_left adler_step o ab2), o).
Proof.
  induction bits as [|b bits IH]; intros ph fin h ab ph' fin' h' ab' o H ab2; cbn [bits_step c_ph c_fin c_hist] in *.
  - now injection H as <- <- <- _ <-.
  - destruct (bitwise ph); [|now injection H as <- <- <- _ <-].
    apply bind_ok_inv in H as ([[f1 p1] o1] & H1 & H). apply bind_ok_inv in H as ([[p2 f2 h2 ab3] o2] & H2 & H). injection H as -> -> -> _ <-.
    rewrite H1. cbn [bind]. unfold with_out in *. cbn [c_hist c_ab] in *. rewrite (IH _ _ _ _ _ _ _ _ _ H2). cbn [bind]. now rewrite fold_left_app.
Qed.
Fixpoint bit_feeds (st : core) (z : bytes) : res (core * bytes) :=
  match z with
  | [] => Ok (st, [])
  | c :: z =>
      if bitwise (c_ph st) then let! (st, o) := bits_step st (bits_of 8 c) in let! (st, o') := bit_feeds st z in Ok (st, o ++ o')
      else Raise ZlibError
  end.
Lemma bit_feeds_fed z : forall st st' o, bit_feeds st z = Ok (st', o) -> fed st z st' o.
Proof.
  induction z as [|c z IH]; intros st st' o H; cbn [bit_feeds] in H; [injection H as <- <-; constructor|].
  destruct (bitwise (c_ph st)) eqn:E; [|discriminate]. apply bind_ok_inv in H as ([st1 o1] & H1 & H). apply bind_ok_inv in H as ([st2 o2] & H2 & H). injection H as <- <-.
  destruct (feed_bitwise st c E) as [Hd Hf]. eapply fed_cons; [exact Hd|rewrite Hf; exact H1|apply IH; exact H2].
Qed.
Lemma bit_feeds_ab z : forall ph fin h ab ph' fin' h' ab' o, bit_feeds (mk_core ph fin h ab) z = Ok (mk_core ph' fin' h' ab', o) ->
  forall ab2, bit_feeds (mk_core ph fin h ab2) z = Ok (mk_core ph' fin' h' (fold_left adler_step o ab2), o).
Proof.
  induction z as [|c z IH]; intros ph fin h ab ph' fin' h' ab' o H ab2; cbn [bit_feeds c_ph] in *; [now injection H as <- <- <- _ <-|].
  destruct (bitwise ph); [|discriminate]. apply bind_ok_inv in H as ([[p1 f1 h1 ab1] o1] & H1 & H). apply bind_ok_inv in H as ([[p2 f2 h2 ab3] o2] & H2 & H). injection H as -> -> -> _ <-.
  rewrite (bits_ab _ _ _ _ _ _ _ _ _ _ H1). cbn [bind]. rewrite (IH _ _ _ _ _ _ _ _ _ H2). cbn [bind]. now rewrite fold_left_app.
Qed.
Lemma text_fed out : fed (stt (collect GBlock 3) false out) text_block (stt (PTrail []) true (out ++ text)) text.
Proof.
  apply bit_feeds_fed. unfold stt. rewrite rev_app_distr. unfold adler. rewrite fold_left_app.
  apply (bit_feeds_ab _ _ _ _ (1, 0) _ _ _ (fold_left adler_step text (1, 0))). generalize (rev out). intros h. vm_compute. reflexivity.
Qed.
Definition quiet : bytes := firstn 13 text_block.
Lemma quiet_fed out : exists st, fed (stt (collect GBlock 3) false out) quiet st [].
Proof.
  assert (exists st, bit_feeds (mk_core (collect GBlock 3) false (rev out) (1, 0)) quiet = Ok (st, [])) as ([ph fin h ab] & H).
  { generalize (rev out). intros h. destruct (bit_feeds (mk_core (collect GBlock 3) false h (1, 0)) quiet) as [[st o]|e|] eqn:E.
    - exists st. assert (match bit_feeds (mk_core (collect GBlock 3) false h (1, 0)) quiet with Ok (_, o) => o | _ => [] end = []) as H by (vm_compute; reflexivity). rewrite E in H. now subst o.
    - assert (match bit_feeds (mk_core (collect GBlock 3) false h (1, 0)) quiet with Ok _ => true | _ => false end = true) as H by (vm_compute; reflexivity). rewrite E in H. discriminate H.
    - assert (match bit_feeds (mk_core (collect GBlock 3) false h (1, 0)) quiet with Ok _ => true | _ => false end = true) as H by (vm_compute; reflexivity). rewrite E in H. discriminate H. }
  eexists. apply bit_feeds_fed. unfold stt. apply (bit_feeds_ab _ _ _ _ _ _ _ _ _ _ H).
Qed.
Lemma stored_fed chunks : Forall (fun c => len c <= 65535) chunks -> forall out,
  fed (stt (collect GBlock 3) false out) (stored_part chunks) (stt (collect GBlock 3) false (out ++ concat chunks)) (concat chunks).
Proof.
  induction 1 as [|c l Hc _ IH]; intros out; cbn [stored_part flat_map concat]; [rewrite app_nil_r; constructor|].
  rewrite app_assoc. eapply fed_app; [now apply (fed_block false)|]. apply IH.
Qed.
(** The laws of zlib for such a compressor *)
Lemma compressor_all comp chunks : forall level d, zc_all (with_compressor comp) (level, d) chunks = comp level (d ++ concat chunks).
Proof. induction chunks as [|c l IH]; intros level d; cbn [zc_all zc_compress zc_flush with_compressor fst snd concat app]; [now rewrite app_nil_r|]. rewrite IH. now rewrite <- app_assoc. Qed.
(** with the compressor's output as the only streams *)
Definition compressor_laws comp (H : forall level d, is_bytes d -> zl_stream deflate_laws (comp level d) d) : zlib_laws (with_compressor comp).
Proof.
  assert (Hs : forall z d, is_bytes d /\ (exists level, z = comp level d) -> zl_stream deflate_laws z d) by (intros z d (Hd & level & ->); now apply H).
  refine (mk_zlib_laws (with_compressor comp) (fun z d => is_bytes d /\ exists level, z = comp level d) (zl_at deflate_laws)
    (fun z d Hz => zl_start _ deflate_laws z d (Hs z d Hz)) (zl_step _ deflate_laws) (zl_done _ deflate_laws) (fun z d Hz => zl_bytes _ deflate_laws z d (Hs z d Hz)) _).
  intros level chunks Hc. cbn [zc_new with_compressor]. rewrite compressor_all. apply Forall_concat in Hc. split; [exact Hc|]. now exists level.
Defined.
Lemma text_stream_run chunks : Forall (fun c => len c <= 65535) chunks -> i_run inflate_start (text_stream chunks) = Some (with_text chunks).
Proof.
  intros H. apply (fed_run _ _ _ _ _ (stt PDone true (with_text chunks))); [|reflexivity]. unfold text_stream. apply fed_head.
  unfold with_text at 3. rewrite <- (app_nil_r text) at 1.
  eapply fed_app; [apply (stored_fed _ H [])|]. cbn [app]. eapply fed_app; [apply text_fed|]. apply fed_trailer.
Qed.

(** ** Reading *)
Section Reading.
Context (comp : Z -> bytes -> bytes).
Notation K := (with_compressor comp).
Lemma go_fed st z st' o : fed st z st' o -> forall pend room, len pend + len o <= room ->
  a_go core inflate_feed inflate_done inflate_direct st pend z room = Ok (st', [], pend ++ o, []).
Proof.
  induction 1 as [st|st c z st1 o1 st2 o2 Hd Hf H IH]; intros pend room Hr; cbn [a_go].
  - rewrite len_nil in Hr. replace (room <? len pend) with false by lia. now rewrite app_nil_r.
  - rewrite len_app in Hr. pose proof (len_nonneg _ o1). pose proof (len_nonneg _ o2). replace (room <? len pend) with false by lia. rewrite Hd. cbn [orb].
    replace (inflate_direct st && (room <=? len pend)) with false.
    + rewrite Hf. cbn [bind]. rewrite IH by lia. reflexivity.
    + destruct (inflate_direct st) eqn:E; [|reflexivity]. pose proof (inflate_direct_out _ _ _ _ Hf E) as Hne. destruct o1 as [|x o1]; [easy|]. rewrite len_cons in *. pose proof (len_nonneg _ o1). cbn [andb]. lia.
Qed.
Lemma some_fed (r : reader K) st tl ws we inp st' o size : r_zip r = mk_a st [] tl [] -> window (r_cws r) (r_cwe r) tl size = (ws, we) ->
  slice (r_m r) ws we = inp -> fed st inp st' o -> len o <= size -> inflate_done st' = false ->
  inflate_some r size = Ok (o, mk_reader (K := K) (r_m r) (mk_a st' [] [] []) (r_buf r) (r_buflen r) (r_s r) (r_br r + len o) ws (ws + len inp) (r_cbr r + len inp) (r_phi r)).
Proof.
  intros Hz Hw Hs Hf Hl Hd. unfold inflate_some. rewrite Hz. cbn [zs_tail with_compressor a_tail]. rewrite Hw, Hs. pose proof (len_nonneg _ o). replace (size <? 0) with false by lia.
  cbn [zs_decompress with_compressor]. unfold a_decompress. cbn [a_core a_pend a_tail a_unused]. rewrite (go_fed _ _ _ _ Hf) by (rewrite len_nil; lia). cbn [bind app]. rewrite Hd.
  cbn [bind zs_unused with_compressor a_unused a_tail]. rewrite !len_nil. repeat f_equal. lia.
Qed.

Lemma stored_part_len chunks : len (stored_part chunks) = len (concat chunks) + 5 * len chunks.
Proof.
  induction chunks as [|c l IH]; [reflexivity|]. cbn [stored_part flat_map concat]. fold (stored_part l). rewrite !len_app, IH, len_cons. unfold s_block. cbn zeta. rewrite len_app.
  change (len [_; _; _; _; _]) with 5. lia.
Qed.
(** The stream up to i bytes of the text's block, the 8 bytes from there, and their states. *)
Lemma text_cut i chunks rest : (i <= 5)%nat -> Forall (fun c => len c <= 65535) chunks ->
  exists p q more st1 st2, text_stream chunks ++ rest = p ++ q ++ more /\ len p = 2 + len (concat chunks) + 5 * len chunks + Z.of_nat i /\ len q = 8 /\
    fed inflate_start p st1 (concat chunks) /\ fed st1 q st2 [] /\ inflate_done st1 = false /\ inflate_done st2 = false.
Proof.
  intros Hi Hc. destruct (quiet_fed (concat chunks)) as (st & Hq).
  assert (Eq : quiet = firstn i quiet ++ firstn 8 (skipn i quiet) ++ skipn 8 (skipn i quiet)) by now rewrite !firstn_skipn.
  rewrite Eq in Hq. destruct (fed_split _ _ _ _ _ Hq) as (st1 & o1 & o2 & F1 & F2 & E). symmetry in E. apply app_eq_nil in E as [-> ->].
  destruct (fed_split _ _ _ _ _ F2) as (st2 & o1 & o2 & F3 & F4 & E). symmetry in E. apply app_eq_nil in E as [-> ->].
  assert (L1 : length quiet = 13%nat) by reflexivity.
  exists ([120; 1] ++ stored_part chunks ++ firstn i quiet), (firstn 8 (skipn i quiet)).
  exists (skipn 8 (skipn i quiet) ++ skipn 13 text_block ++ adler_bytes (adler (with_text chunks)) ++ rest), st1, st2.
  assert (P : fed inflate_start ([120; 1] ++ stored_part chunks ++ firstn i quiet) st1 (concat chunks)).
  { apply fed_head. rewrite <- (app_nil_r (concat chunks)). eapply fed_app; [apply (stored_fed _ Hc [])|exact F1]. }
  split; [|split; [|split; [|split; [exact P|split; [exact F3|]]]]].
  - unfold text_stream. replace text_block with (quiet ++ skipn 13 text_block) at 1 by reflexivity. rewrite Eq at 1. now rewrite <- !app_assoc.
  - rewrite !len_app, stored_part_len. assert (len (firstn i quiet) = Z.of_nat i) as -> by (unfold len; rewrite firstn_length, L1; lia). change (len [120; 1]) with 2. unfold bytes in *. lia.
  - unfold len. rewrite firstn_length, skipn_length, L1. lia.
  - pose proof (text_stream_run chunks Hc) as Hrun. 
    assert (E2 : text_stream chunks = ([120; 1] ++ stored_part chunks ++ firstn i quiet) ++ firstn 8 (skipn i quiet) ++ skipn 8 (skipn i quiet) ++ skipn 13 text_block ++ adler_bytes (adler (with_text chunks))).
    { unfold text_stream. replace text_block with (quiet ++ skipn 13 text_block) at 1 by reflexivity. rewrite Eq at 1. now rewrite <- !app_assoc. }
    rewrite E2 in Hrun. destruct (fed_run_rest _ _ _ _ _ _ _ _ _ P Hrun) as (d1 & R1 & _). destruct (fed_run_rest _ _ _ _ _ _ _ _ _ F3 R1) as (d2 & R2 & _).
    assert (N1 : (8 <= length (skipn i quiet))%nat) by (rewrite skipn_length, L1; lia).
    split.
    + destruct (firstn 8 (skipn i quiet)) as [|c l] eqn:E; [apply (f_equal (@length Z)) in E; rewrite firstn_length in E; cbn [length] in E; lia|]. cbn [app] in R1. now apply run_step in R1.
    + assert (skipn 13 text_block = 65 :: skipn 14 text_block) as E by reflexivity. rewrite E in R2. destruct (skipn 8 (skipn i quiet)) as [|c l]; cbn [app] in R2; now apply run_step in R2.
Qed.
  Lemma read_s_step f s (r : reader K) size n : r_buf r = None -> (if size <? 1 then s - r_br r else Z.min size (s - r_br r)) = n -> n <> 0 ->
    read_s (S f) s r size = read_rest f s r [] n.
  Proof. intros Hb Hn H0. cbn [read_s]. rewrite Hn, Hb. now replace (n =? 0) with false by lia. Qed.
  Lemma read_s_buffer f s (r : reader K) size n b : r_buf r = Some b -> (if size <? 1 then s - r_br r else Z.min size (s - r_br r)) = n -> n <> 0 -> r_buflen r < n ->
    read_s (S f) s r size = read_rest f s (with_buf r None 0 (r_br r + r_buflen r)) b (n - r_buflen r).
  Proof. intros Hb Hn H0 Hl. cbn [read_s]. rewrite Hn, Hb. replace (n =? 0) with false by lia. now replace (n <=? r_buflen r) with false by lia. Qed.
  Lemma read_rest_step f s (r r1 : reader K) dat size out : inflate_some r size = Ok (out, r1) ->
    read_rest (S f) s r dat size =
    if negb (len (dat ++ out) =? 0) && (len (dat ++ out) - len dat <? size) && (r_br r1 <? s) then
      let! (more, r2) := read_s f s r1 (size - len (dat ++ out)) in Ok ((dat ++ out) ++ more, r2)
    else Ok (dat ++ out, r1).
  Proof. intros H. cbn [read_rest]. now rewrite H. Qed.
(** Everything is asked for, and the text is missing. *)
Lemma text_read chunks rest n f : Forall (fun c => len c <= 65535) chunks -> len chunks = 3 -> n < 1 \/ len (with_text chunks) <= n -> (5 <= f)%nat ->
  exists r, read f (reader_init K (text_stream chunks ++ rest) (Some (len (with_text chunks)))) n = Ok (concat chunks, r) /\ r_br r = len (concat chunks).
Proof.
  intros Hc H3 Hn Hf. destruct (text_cut 3 chunks rest ltac:(lia) Hc) as (p & q & more & st1 & st2 & E & Lp & Lq & F1 & F2 & D1 & D2).
  set (m := text_stream chunks ++ rest) in *. assert (Ls : len (with_text chunks) = len (concat chunks) + 20) by (unfold with_text; now rewrite len_app).
  set (d := concat chunks) in *. set (s := len (with_text chunks)) in *. pose proof (len_nonneg _ d) as Hd.
  do 4 (destruct f as [|f]; [lia|]). clear Hf.
  unfold read, get_s. cbn [r_s reader_init bind].
  rewrite (read_s_step _ _ _ _ s); [|reflexivity|cbn [r_br reader_init]; destruct (n <? 1) eqn:En; lia|lia].
  erewrite read_rest_step.
  2:{ apply (some_fed _ inflate_start [] 0 s p st1 d s); [reflexivity| | |exact F1|lia|exact D1].
    - cbn [r_cws r_cwe reader_init]. unfold window. change (len []) with 0. cbn [Z.eqb negb]. replace (0 + s - 0 <? 8) with false by lia. now rewrite Z.add_0_l.
    - cbn [r_m reader_init]. rewrite E. change (p ++ q ++ more) with ([] ++ p ++ q ++ more). apply slice_mid; [reflexivity|]. rewrite len_nil. lia. }
  cbn [app r_br reader_init]. change (len []) with 0.
  destruct (len d =? 0) eqn:E0; [assert (d = []) as -> by (destruct d; [easy|rewrite len_cons in E0; pose proof (len_nonneg _ d); lia]); eexists; split; reflexivity|].
  replace (len d - 0 <? s) with true by lia. replace (0 + len d <? s) with true by lia. cbn [negb andb].
  rewrite (read_s_step _ _ _ _ 20); [|reflexivity|cbn [r_br]; destruct (s - len d <? 1) eqn:En; lia|lia].
  erewrite read_rest_step.
  2:{ apply (some_fed _ st1 [] s (s + 8) q st2 [] 20); [reflexivity| | |exact F2|cbn; lia|exact D2].
    - cbn [r_cws r_cwe]. unfold window. change (len []) with 0. cbn [Z.eqb negb]. replace (0 + 20 - (0 + len p) <? 8) with true by lia. f_equal; lia.
    - cbn [r_m reader_init]. rewrite E. replace s with (len p) by lia. apply slice_mid; [reflexivity|]. lia. }
  cbn [app]. change (len []) with 0. cbn [Z.eqb negb andb bind]. rewrite app_nil_r. eexists. split; [reflexivity|]. cbn [r_br]. change (len []) with 0. lia.
Qed.

(** ** A loose object *)
Lemma go_over st z st' o over : fed st z st' o -> inflate_direct st' = true -> forall pend room, len pend + len o = room ->
  a_go core inflate_feed inflate_done inflate_direct st pend (z ++ over) room = Ok (st', [], pend ++ o, over).
Proof.
  intros H Hst. induction H as [st|st c z st1 o1 st2 o2 Hd Hf H IH]; intros pend room Hr; cbn [a_go app].
  - rewrite len_nil in Hr. replace (room <? len pend) with false by lia. rewrite app_nil_r. destruct over as [|x over]; cbn [a_go]; (replace (room <? len pend) with false by lia); [reflexivity|].
    rewrite Hst. replace (room <=? len pend) with true by lia. now rewrite orb_true_r.
  - rewrite len_app in Hr. pose proof (len_nonneg _ o1). pose proof (len_nonneg _ o2). replace (room <? len pend) with false by lia. rewrite Hd. cbn [orb].
    replace (inflate_direct st && (room <=? len pend)) with false.
    + rewrite Hf. cbn [bind]. rewrite (IH Hst) by lia. reflexivity.
    + destruct (inflate_direct st) eqn:E; [|reflexivity]. pose proof (inflate_direct_out _ _ _ _ Hf E) as Hne. destruct o1 as [|x o1]; [easy|]. rewrite len_cons in *. pose proof (len_nonneg _ o1). cbn [andb]. lia.
Qed.
Lemma some_over (r : reader K) st tl ws we z over st' o size : r_zip r = mk_a st [] tl [] -> window (r_cws r) (r_cwe r) tl size = (ws, we) ->
  slice (r_m r) ws we = z ++ over -> fed st z st' o -> len o = size -> inflate_direct st' = true ->
  inflate_some r size = Ok (o, mk_reader (K := K) (r_m r) (mk_a st' [] over []) (r_buf r) (r_buflen r) (r_s r) (r_br r + len o) ws (ws + len (z ++ over)) (r_cbr r + len z) (r_phi r)).
Proof.
  intros Hz Hw Hs Hf Hl Hd. unfold inflate_some. rewrite Hz. cbn [zs_tail with_compressor a_tail]. rewrite Hw, Hs. pose proof (len_nonneg _ o). replace (size <? 0) with false by lia.
  cbn [zs_decompress with_compressor]. unfold a_decompress. cbn [a_core a_pend a_tail a_unused]. rewrite (go_over _ _ _ _ over Hf Hd) by (rewrite len_nil; lia). cbn [bind app].
  assert (inflate_done st' = false) as -> by (unfold inflate_direct, inflate_done in *; now destruct (c_ph st')).
  cbn [bind zs_unused with_compressor a_unused a_tail]. rewrite len_nil. repeat f_equal. rewrite len_app. lia.
Qed.
Lemma fed_part d : forall n fin out, len d < n -> fed (stt (PCopy n) fin out) d (stt (PCopy (n - len d)) fin (out ++ d)) d.
Proof.
  induction d as [|c d IH]; intros n fin out Hn; [rewrite app_nil_r, len_nil, Z.sub_0_r; constructor|]. change (c :: d) with ([c] ++ d) at 4. rewrite len_cons in *. pose proof (len_nonneg _ d). eapply fed_cons; [reflexivity| |].
  - unfold inflate_feed. cbn [c_ph stt]. rewrite with_stt. reflexivity.
  - unfold after_bytes. replace (0 <? n - 1) with true by lia. change (c :: d) with ([c] ++ d). rewrite app_assoc. replace (n - (len d + 1)) with (n - 1 - len d) by lia. apply IH. lia.
Qed.
Definition block_head (fin : bool) (n : Z) : bytes := [if fin then 1 else 0; n mod 256; n / 256; (65535 - n) mod 256; (65535 - n) / 256].
Lemma block_form fin d : s_block fin d = block_head fin (len d) ++ d.
Proof. reflexivity. Qed.
Lemma fed_block_head fin f0 out n : 0 < n <= 65535 -> fed (stt (collect GBlock 3) f0 out) (block_head fin n) (stt (PCopy n) fin out) [].
Proof.
  intros Hn. unfold block_head.
  eapply (fed_cons _ _ _ _ _ _ (stt (PLen []) fin out) []); [reflexivity|now destruct fin|].
  do 3 (eapply (fed_cons _ _ _ _ _ _ _ []); [reflexivity|reflexivity|cbn [stt c_fin app]; rewrite with_stt_nil]).
  eapply (fed_cons _ _ _ _ _ _ (stt (PCopy n) fin out) []); [reflexivity| |constructor].
  unfold inflate_feed. cbn [c_ph stt c_fin]. replace (n mod 256 + 256 * (n / 256)) with n by lia.
  replace ((65535 - n) mod 256 + 256 * ((65535 - n) / 256) =? 65535 - n) with true by lia. unfold after_bytes. replace (0 <? n) with true by lia. now rewrite with_stt_nil.
Qed.
Lemma first_part first chunks rest : 8192 < len first <= 65535 -> exists a b x more S1 S2 d1 d2 e2,
  text_stream (first :: chunks) ++ rest = a ++ b ++ x :: more /\ len a = 8192 /\ len b = 7 /\ first = d1 ++ d2 ++ e2 /\ len d1 = 8185 /\ len d2 = 7 /\
  fed inflate_start a S1 d1 /\ fed S1 b S2 d2 /\ inflate_done S1 = false /\ inflate_direct S2 = true.
Proof.
  intros Hf.
  assert (E : first = firstn (Z.to_nat 8185) first ++ firstn 7 (skipn (Z.to_nat 8185) first) ++ skipn 7 (skipn (Z.to_nat 8185) first)) by now rewrite !firstn_skipn.
  assert (L1 : len (firstn (Z.to_nat 8185) first) = 8185) by (unfold len in *; rewrite firstn_length; lia).
  assert (L2 : len (firstn 7 (skipn (Z.to_nat 8185) first)) = 7) by (unfold len in *; rewrite firstn_length, skipn_length; lia).
  revert E L1 L2. generalize (firstn (Z.to_nat 8185) first) as d1. generalize (firstn 7 (skipn (Z.to_nat 8185) first)) as d2. generalize (skipn 7 (skipn (Z.to_nat 8185) first)) as e2. intros e2 d2 d1 E L1 L2.
  assert (L : len first = 8192 + len e2) by (rewrite E, !len_app; lia). destruct e2 as [|x e2]; [rewrite len_nil in L; lia|].
  exists ([120; 1] ++ block_head false (len first) ++ d1), d2, x.
  exists (e2 ++ stored_part chunks ++ text_block ++ adler_bytes (adler (with_text (first :: chunks))) ++ rest).
  exists (stt (PCopy (len first - 8185)) false d1), (stt (PCopy (len first - 8185 - 7)) false (d1 ++ d2)), d1, d2, (x :: e2).
  split. { unfold text_stream. cbn [stored_part flat_map]. rewrite block_form. rewrite E at 2. now rewrite <- !app_assoc. }
  split. { rewrite !len_app, L1. reflexivity. }
  split; [exact L2|]. split; [exact E|]. split; [exact L1|]. split; [exact L2|]. split.
  { apply fed_head. change d1 with ([] ++ d1) at 3. eapply fed_app; [apply fed_block_head; lia|]. rewrite <- L1 at 1. apply (fed_part d1 (len first) false []). lia. }
  split; [rewrite <- L2 at 1; apply fed_part; lia|]. split; reflexivity.
Qed.
Lemma app_prefix {A} (a b : list A) : forall c d, a ++ b = c ++ d -> (length a <= length c)%nat -> exists e, c = a ++ e.
Proof.
  induction a as [|x a IH]; intros c d E H; [now exists c|]. destruct c as [|y c]; [cbn [length] in H; lia|]. injection E as -> E. destruct (IH _ _ E) as (e & ->); [cbn [length] in H; lia|]. now exists e.
Qed.
Notation hdr t c := (loose_object_header t (len c)).
Lemma text_object t out first chunks rest n : ~ In BYTE_SPACE t -> ~ In NULL_BYTE t -> len (hdr t (out ++ text)) <= 8172 ->
  hdr t (out ++ text) ++ out = concat (first :: chunks) -> 8192 < len first -> Forall (fun c => len c <= 65535) (first :: chunks) ->
  len chunks = 3 \/ len chunks = 4 -> n < 1 \/ len (out ++ text) <= n ->
  evaluates (fun f => read_object (K := K) (text_stream (first :: chunks) ++ rest) f [Read n]) (Ok (t, len (out ++ text), [out])).
Proof.
  intros Hsp Hnu Hh Hraw Hfirst Hc H4 Hn.
  assert (Hf6 : len first <= 65535) by (inversion Hc; assumption).
  destruct (first_part first chunks rest (conj Hfirst Hf6)) as (a & b & x & more1 & S1 & S2 & d1 & d2 & e2 & E1 & La & Lb & Ef & Ld1 & Ld2 & Fa & Fb & Da & Db).
  destruct (text_cut (Z.to_nat (20 - 5 * len chunks)) (first :: chunks) rest ltac:(lia) Hc) as (p & q & more & st1 & st2 & E & Lp & Lq & F1 & F2 & D1 & D2).
  rewrite <- Hraw in F1, Lp. set (m := text_stream (first :: chunks) ++ rest) in *. clear Hc.
  assert (Lc : len (concat (first :: chunks)) = len (hdr t (out ++ text)) + len out) by now rewrite <- Hraw, len_app.
  cbn [concat] in Lc, Hraw. rewrite len_app in Lc. pose proof (len_nonneg _ (concat chunks)) as Hch. rewrite len_cons in Lp.
  assert (Lt : len (out ++ text) = len out + 20) by now rewrite len_app.
  rewrite len_app in Lp. set (h := hdr t (out ++ text)) in *. set (s := len (out ++ text)) in *.
  assert (exists p3, p = (a ++ b) ++ p3) as (p3 & Ep).
  { apply (app_prefix _ (x :: more1) _ (q ++ more)); [rewrite <- app_assoc, <- E1; exact E|]. rewrite app_length. unfold len in *. lia. }
  rewrite Ep in F1, Lp. rewrite !len_app in Lp. destruct (fed_split _ _ _ _ _ F1) as (S3 & o1 & o3 & F3 & F4 & Eo). destruct (fed_det _ _ _ _ _ _ _ (fed_app _ _ _ _ _ _ _ Fa _ _ _ Fb) _ _ F3) as [<- <-]. clear F1 F3.
  assert (exists x3 p4, p3 = x3 :: p4 /\ x3 = x) as (x3 & p4 & Ep3 & ->).
  { assert (p3 <> []) as Hp3 by (intros ->; rewrite len_nil in Lp; lia). destruct p3 as [|x3 p4]; [easy|]. exists x3, p4. split; [reflexivity|].
    rewrite E, Ep, <- !app_assoc in E1. apply app_inv_head in E1. apply app_inv_head in E1. now injection E1 as ->. }
  destruct (parse_ok t (out ++ text) Hsp Hnu (d1 ++ d2) (o3 ++ text)) as (Pp & Pf & w & Ew & Ec).
  { change (h ++ out ++ text = (d1 ++ d2) ++ o3 ++ text). rewrite (app_assoc h), Eo. now rewrite <- !app_assoc. } { change (length h <= length (d1 ++ d2))%nat. rewrite app_length. unfold len in *. lia. }
  change (find NULL_BYTE (d1 ++ d2) = len h - 1) in Pf. change (d1 ++ d2 = h ++ w) in Ew. assert (out = w ++ o3) as Eout. { rewrite app_assoc in Ec. now apply app_inv_tail in Ec. }
  assert (Lw : len h + len w = 8192) by (rewrite <- len_app, <- Ew, len_app; lia).
  assert (Lo : len out = len w + len o3) by (rewrite Eout; apply len_app). pose proof (len_nonneg _ w) as Hw0. pose proof (len_nonneg _ o3) as Ho0. pose proof (len_nonneg _ h) as Hh0.
  exists 6%nat. intros f Hf. do 6 (destruct f as [|f]; [lia|]). clear Hf.
  unfold read_object, reader_new, parse_header_info. cbn [r_m r_zip r_buf r_buflen r_br r_cws r_cwe r_cbr r_phi reader_init].
  rewrite (read_s_step _ _ _ _ 8192); [|reflexivity|reflexivity|lia].
  erewrite read_rest_step.
  2:{ apply (some_fed _ inflate_start [] 0 8192 a S1 d1 8192); [reflexivity|reflexivity| |exact Fa|lia|exact Da].
    cbn [r_m]. rewrite E1. change (a ++ b ++ x :: more1) with ([] ++ a ++ b ++ x :: more1). apply slice_mid; [reflexivity|]. rewrite len_nil. lia. }
  cbn [app r_br]. rewrite len_nil. replace (negb (len d1 =? 0) && (len d1 - 0 <? 8192) && (0 + len d1 <? 8192)) with true by (rewrite Ld1; reflexivity).
  rewrite (read_s_step _ _ _ _ 7); [|reflexivity|cbn [r_br]; rewrite Ld1; reflexivity|lia].
  erewrite read_rest_step.
  2:{ apply (some_over _ S1 [] 8192 8200 b [x] S2 d2 7); [reflexivity| | |exact Fb|exact Ld2|exact Db].
    - cbn [r_cws r_cwe]. rewrite La. reflexivity.
    - cbn [r_m]. rewrite E1. change (x :: more1) with ([x] ++ more1). rewrite (app_assoc b). apply slice_mid; [lia|]. rewrite len_app, Lb. change (len [x]) with 1. lia. }
  cbn [app r_br]. rewrite len_nil. replace (negb (len d2 =? 0) && (len d2 - 0 <? 7) && (0 + len d1 + len d2 <? 8192)) with false by (rewrite Ld2; reflexivity).
  cbn [bind]. rewrite Pp. cbn [bind r_m r_zip r_cws r_cwe r_cbr]. rewrite Pf. replace (len h - 1 + 1) with (len h) by lia.
  rewrite Ew at 1. rewrite slice_from_app by reflexivity. rewrite len_app, Ld1, Ld2.
  cbn [run_stream]. unfold read, get_s. cbn [r_s bind].
  rewrite (read_s_buffer _ _ _ _ s w); [|reflexivity|cbn [r_br]; unfold s in *; destruct (n <? 1) eqn:En; lia|lia|cbn [r_buflen]; lia].
  erewrite read_rest_step.
  2:{ apply (some_fed _ S2 [x] 8199 (s + len h + 7) p3 st1 o3 (s - (8185 + 7 - len h))); [reflexivity| | |exact F4|lia|exact D1].
    - cbn [r_cws r_cwe with_buf]. unfold window. change (len [x]) with 1. cbn [Z.eqb negb]. rewrite len_app, Lb. change (len [x]) with 1.
      replace (8192 + (7 + 1) - 1) with 8199 by reflexivity. replace (8199 + (s - (8185 + 7 - len h)) - 8199 <? 8) with false by lia. f_equal. lia.
    - cbn [r_m with_buf]. rewrite E, Ep. rewrite <- app_assoc. apply slice_mid; rewrite len_app; lia. }
  cbn [r_br with_buf r_buflen]. rewrite len_app. fold s.
  replace (negb (len w + len o3 =? 0) && (len w + len o3 - len w <? s - (8185 + 7 - len h)) && (0 + (8185 + 7 - len h) + len o3 <? s)) with true by lia.
  rewrite (read_s_step _ _ _ _ 20); [|reflexivity|cbn [r_br]; match goal with |- (if ?b then _ else _) = _ => replace b with true by lia end; lia|lia].
  erewrite read_rest_step.
  2:{ apply (some_fed _ st1 [] (len p) (len p + 8) q st2 [] 20); [reflexivity| | |exact F2|cbn; lia|exact D2].
    - cbn [r_cws r_cwe]. unfold window. change (len []) with 0. cbn [Z.eqb negb]. replace (8199 + 20 - (8199 + len p3) <? 8) with true by lia. rewrite Ep, !len_app. f_equal; lia.
    - cbn [r_m with_buf]. rewrite E. apply slice_mid; lia. }
  cbn [app]. rewrite len_nil. cbn [Z.eqb negb andb bind]. rewrite (app_nil_r (w ++ o3)), <- Eout. reflexivity.
Qed.
End Reading.
