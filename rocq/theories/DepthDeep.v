(** Streams for which the calls of read nest as deep as wanted. *)
From Coq Require Import ZifyBool ZifyNat.
From Verif Require Import Py PyFacts FunModel FunSpec ZlibModel ZlibProofs ReaderModel StreamSpec ReaderProofs StopSpec StopProofs DepthModel DepthSpec DepthProofs.
Ltac Zify.zify_post_hook ::= Z.div_mod_to_equations.

(** A window without output but for [fill] is followed by one of 8 bytes with one byte of output, again and again. *)
Definition empty_block : bytes := s_block false [].
Fixpoint empties (k : nat) : bytes := match k with O => [] | S k => empty_block ++ empties k end.
Definition fill : bytes := s_block false (repeat 7 4) ++ [0; 1; 0; 254].
Definition wide (k : nat) : bytes := [0; 0; 255; 255] ++ empties k ++ fill.
Definition narrow : bytes := [255; 7] ++ empty_block ++ [0].
Fixpoint rounds (k : nat) : bytes := wide k ++ narrow ++ match k with O => [] | S k => rounds k end.
Definition first_window (k : nat) : bytes := [120; 1] ++ empties (k + 3) ++ fill.
Definition deep_data (k : nat) : bytes := repeat 7 (30 + 5 * k).
Definition last_bytes (k : nat) : bytes := [0; 0; 255; 255] ++ s_block true (repeat 7 20) ++ adler_bytes (adler (deep_data k)).
Definition deep_stream (k : nat) : bytes := first_window k ++ narrow ++ rounds k ++ last_bytes k.

Lemma feeds_empties k : forall ab, s_feeds (SBlock []) ab (empties k) = Ok (SBlock [], ab, []).
Proof. induction k as [|k IH]; intros ab; cbn [empties]; [easy|]. exact (s_feeds_trans _ _ _ _ _ _ _ _ _ _ (s_feeds_block false [] ab ltac:(easy)) (IH ab)). Qed.
Lemma feeds_fill ab : s_feeds (SBlock []) ab fill = Ok (SBlock [0; 1; 0; 254], fold_left adler_step (repeat 7 4) ab, repeat 7 4).
Proof. exact (s_feeds_trans _ [0; 1; 0; 254] _ _ _ _ _ _ _ _ (s_feeds_block false (repeat 7 4) ab ltac:(easy)) eq_refl). Qed.
Lemma feeds_first k ab : s_feeds (SHead []) ab (first_window k) = Ok (SBlock [0; 1; 0; 254], fold_left adler_step (repeat 7 4) ab, repeat 7 4).
Proof. exact (s_feeds_trans [120; 1] _ (SHead []) ab (SBlock []) ab [] _ _ _ eq_refl (s_feeds_trans _ _ _ _ _ _ _ _ _ _ (feeds_empties (k + 3) ab) (feeds_fill ab))). Qed.
Lemma feeds_wide k ab : s_feeds (SBlock [0]) ab (wide k) = Ok (SBlock [0; 1; 0; 254], fold_left adler_step (repeat 7 4) ab, repeat 7 4).
Proof. exact (s_feeds_trans [0; 0; 255; 255] _ (SBlock [0]) ab (SBlock []) ab [] _ _ _ eq_refl (s_feeds_trans _ _ _ _ _ _ _ _ _ _ (feeds_empties k ab) (feeds_fill ab))). Qed.
Lemma feeds_narrow ab : s_feeds (SBlock [0; 1; 0; 254]) ab narrow = Ok (SBlock [0], fold_left adler_step [7] ab, [7]).
Proof. reflexivity. Qed.
Lemma len_empties k : len (empties k) = 5 * Z.of_nat k.
Proof. induction k as [|k IH]; [easy|]. cbn [empties]. rewrite len_app, IH. change (len empty_block) with 5. lia. Qed.
Lemma len_first k : len (first_window k) = 30 + 5 * Z.of_nat k.
Proof. unfold first_window. rewrite !len_app, len_empties. change (len fill) with 13. change (len [120; 1]) with 2. lia. Qed.
Lemma len_wide k : len (wide k) = 17 + 5 * Z.of_nat k.
Proof. unfold wide. rewrite !len_app, len_empties. change (len fill) with 13. change (len [0; 0; 255; 255]) with 4. lia. Qed.
Lemma feeds_rounds k : forall ab, s_feeds (SBlock [0]) ab (rounds k) = Ok (SBlock [0], fold_left adler_step (repeat 7 (5 * (k + 1))) ab, repeat 7 (5 * (k + 1))).
Proof.
  induction k as [|k IH]; intros ab; cbn [rounds].
  - change (repeat 7 (5 * (0 + 1))) with (repeat 7 4 ++ [7] ++ []). rewrite fold_left_app. eapply s_feeds_trans; [apply feeds_wide|]. eapply s_feeds_trans; [apply feeds_narrow|]. reflexivity.
  - replace (repeat 7 (5 * (S k + 1))) with (repeat 7 4 ++ [7] ++ repeat 7 (5 * (k + 1))) by (replace (5 * (S k + 1))%nat with (4 + (1 + 5 * (k + 1)))%nat by lia; now rewrite !repeat_app).
    rewrite !fold_left_app. eapply s_feeds_trans; [apply feeds_wide|]. eapply s_feeds_trans; [apply feeds_narrow|]. apply IH.
Qed.
Lemma deep_feeds k : s_feeds (SHead []) (1, 0) (first_window k ++ narrow ++ rounds k ++ [0; 0; 255; 255] ++ s_block true (repeat 7 20)) =
  Ok (STrail [], adler (deep_data k), deep_data k).
Proof.
  unfold adler. replace (deep_data k) with (repeat 7 4 ++ [7] ++ repeat 7 (5 * (k + 1)) ++ [] ++ repeat 7 20).
  2: { unfold deep_data. replace (30 + 5 * k)%nat with (4 + (1 + (5 * (k + 1) + 20)))%nat by lia. now rewrite !repeat_app. }
  rewrite !fold_left_app. eapply s_feeds_trans; [apply feeds_first|]. eapply s_feeds_trans; [apply feeds_narrow|]. eapply s_feeds_trans; [apply feeds_rounds|].
  eapply s_feeds_trans; [reflexivity|]. now rewrite (s_feeds_block true) by easy.
Qed.
Lemma bytes_rep k : is_bytes (repeat 7 k).
Proof. apply Forall_forall. intros x Hx. apply repeat_spec in Hx as ->. unfold is_byte. lia. Qed.
Lemma bytes_lit l : forallb (fun b => (0 <=? b) && (b <? 256)) l = true -> is_bytes l.
Proof. intros H. rewrite forallb_forall in H. apply Forall_forall. intros x Hx. specialize (H x Hx). unfold is_byte. lia. Qed.
Lemma deep_ok k : zl_stream stored_laws (deep_stream k) (deep_data k).
Proof.
  cbn [zl_stream stored_laws]. split; [|split].
  - unfold deep_stream, last_bytes. replace (_ ++ _) with ((first_window k ++ narrow ++ rounds k ++ [0; 0; 255; 255] ++ s_block true (repeat 7 20)) ++ adler_bytes (adler (deep_data k))) by (now rewrite <- !app_assoc).
    rewrite (s_feeds_app _ _ _ _ _ _ _ (deep_feeds k)). destruct (adler_bytes_feed (adler (deep_data k))) as (a & b & c & e & E). rewrite E.
    cbn [s_run s_feed app]. rewrite E, beq_refl. cbn [option_map app]. now rewrite app_nil_r.
  - assert (He : forall j, is_bytes (empties j)) by (induction j as [|j IH]; cbn [empties]; [constructor|apply Forall_app; split; [now apply bytes_lit|exact IH]]).
    assert (Hr : forall j, is_bytes (rounds j)).
    { assert (Hw : forall j, is_bytes (wide j)) by (intros j; unfold wide; apply Forall_app; split; [now apply bytes_lit|apply Forall_app; split; [apply He|now apply bytes_lit]]).
      induction j as [|j IH]; cbn [rounds]; (apply Forall_app; split; [apply Hw|]); (apply Forall_app; split; [now apply bytes_lit|]); [constructor|exact IH]. }
    unfold deep_stream, first_window, last_bytes. apply Forall_app; split; [|apply Forall_app; split; [now apply bytes_lit|apply Forall_app; split; [apply Hr|apply Forall_app; split; [now apply bytes_lit|]]]].
    + apply Forall_app; split; [now apply bytes_lit|]. apply Forall_app; split; [apply He|now apply bytes_lit].
    + apply Forall_app; split; [now apply bytes_lit|]. unfold adler_bytes. cbn [be_enc app]. repeat (constructor; [unfold is_byte; lia|]). constructor.
  - apply bytes_rep.
Qed.

(** ** Every window is taken by a call of its own *)
Lemma go_feeds : forall inp ph ab n out0 ph' ab' o, s_feeds ph ab inp = Ok (ph', ab', o) -> len o <= n -> s_go ph ab inp n out0 = Ok (ph', ab', out0 ++ o, []).
Proof.
  induction inp as [|c inp IH]; intros ph ab n out0 ph' ab' o H Hn; cbn [s_feeds s_go] in *.
  - injection H as <- <- <-. now rewrite app_nil_r.
  - apply bind_ok_inv in H as ([[p1 a1] o1] & H1 & H). apply bind_ok_inv in H as ([[p2 a2] o2] & H2 & H). injection H as <- <- <-.
    rewrite H1. cbn [bind]. rewrite len_app in Hn. pose proof (s_feed_out _ _ _ _ _ _ H1) as Ho. pose proof (len_nonneg _ o2).
    assert (s_go p1 a1 inp (n - len o1) (out0 ++ o1) = Ok (p2, a2, out0 ++ o1 ++ o2, [])) as E by (rewrite app_assoc; apply IH; [exact H2|unfold bytes in *; lia]).
    destruct ph; try exact E; [|easy]. subst o1. replace (n <=? 0) with false by (change (len [c]) with 1 in Hn; unfold bytes in *; lia). exact E.
Qed.
Definition standing (r : reader stored) (ph : sphase) (pre next : bytes) (cws : Z) : Prop :=
  r_m r = pre ++ next /\ r_cwe r = len pre /\ r_cws r = cws /\ r_buf r = None /\ exists ab, r_zip r = mk_s ph ab [] [].
Lemma one_deeper d s r ph ph' pre inp next out cws :
  standing r ph pre (inp ++ next) cws -> (forall ab, exists ab', s_feeds ph ab inp = Ok (ph', ab', out)) -> ph' <> SDone -> 0 < len out < s - r_br r ->
  8 <= len inp -> (len inp = cws + (s - r_br r) - len pre \/ len inp = 8 /\ cws + (s - r_br r) - len pre < 8) ->
  (forall r', standing r' ph' (pre ++ inp) next (len pre) -> r_br r' = r_br r + len out -> forall n, n = s - r_br r' -> read_nested d s r' n = Raise RecursionError) ->
  forall n, n = s - r_br r -> read_nested (S d) s r n = Raise RecursionError.
Proof.
  intros (H1 & H2 & H3 & H4 & ab & H5) Hf Hp Ho H8 Hw Hd n ->. cbn [read_nested]. replace (if _ <? 1 then _ else _) with (s - r_br r) by (destruct (_ <? 1) eqn:E; lia).
  replace (s - r_br r =? 0) with false by lia. rewrite H4. unfold inflate_some. rewrite H2, H3, H5. cbn [zs_tail stored s_tail].
  replace (window cws (len pre) [] (s - r_br r)) with (len pre, len pre + len inp).
  2: { unfold window. cbn [len length Z.of_nat Z.eqb negb]. destruct (_ <? 8) eqn:E; f_equal; lia. }
  rewrite H1, slice_mid by easy. replace (s - r_br r <? 0) with false by lia. cbn [zs_decompress stored]. unfold s_decompress. cbn [s_ph s_ab s_tail s_unused]. rewrite s_fast_go. cbn [rev].
  destruct (Hf ab) as (ab' & E). rewrite (go_feeds _ _ _ (s - r_br r) [] _ _ _ E) by lia. cbn [bind app].
  replace (match ph' with SDone => _ | _ => _ end) with (@Ok (bytes * sstate) (out, mk_s ph' ab' [] [])) by (now destruct ph').
  cbn [bind r_br app]. rewrite len_nil, Z.sub_0_r. replace (negb (len out =? 0) && (len out <? s - r_br r) && (r_br r + len out <? s)) with true by lia.
  rewrite Hd; [easy| |easy|cbn [r_br]; lia]. unfold standing. cbn [r_m r_cwe r_cws r_buf r_zip]. rewrite len_app, <- app_assoc. repeat (split; [easy|]). now exists ab'.
Qed.
Lemma rounds_deep s : forall k d r pre next, (d <= 2 * (k + 1))%nat -> standing r (SBlock [0]) pre (rounds k ++ next) (len pre - 8) -> s - r_br r = 25 + 5 * Z.of_nat k ->
  forall n, n = s - r_br r -> read_nested d s r n = Raise RecursionError.
Proof.
  induction k as [|k IH]; intros d r pre next Hd Hst Hrem.
  all: cbn [rounds] in Hst; rewrite <- !app_assoc in Hst.
  all: destruct d as [|d]; [easy|].
  all: apply (one_deeper d s r _ _ _ _ _ _ _ Hst (fun ab => ex_intro _ _ (feeds_wide _ ab))); [easy|change (len (repeat 7 4)) with 4; lia|rewrite len_wide; lia|rewrite len_wide; lia|].
  all: intros r1 S1 B1; change (len (repeat 7 4)) with 4 in B1; destruct d as [|d]; [easy|].
  all: apply (one_deeper d s r1 _ _ _ _ _ _ _ S1 (fun ab => ex_intro _ _ (feeds_narrow ab))); [easy|change (len [7]) with 1; lia|easy|right; split; [easy|]; rewrite len_app, len_wide; lia|].
  all: intros r2 S2 B2; change (len [7]) with 1 in B2.
  - destruct d as [|d]; [easy|lia].
  - refine (IH d r2 _ _ _ _ _); [lia| |lia]. replace (len (pre ++ wide (S k))) with (len ((pre ++ wide (S k)) ++ narrow) - 8) in S2 by (rewrite len_app; change (len narrow) with 8; lia). exact S2.
Qed.
Lemma stream_deep k d rest : (d <= 2 * (k + 2))%nat ->
  limited_read d (reader_init stored (deep_stream k ++ rest) (Some (len (deep_data k)))) (-1) = Raise RecursionError.
Proof.
  intros Hd. assert (Hn : len (deep_data k) = 30 + 5 * Z.of_nat k) by (unfold deep_data; rewrite len_repeat; lia). rewrite Hn.
  destruct d as [|d]; [easy|]. unfold limited_read. cbn [reader_init r_s bind].
  set (r := reader_init stored _ _). set (s := 30 + 5 * Z.of_nat k).
  assert (standing r (SHead []) [] (first_window k ++ narrow ++ rounds k ++ last_bytes k ++ rest) 0) as S0.
  { unfold standing, r, reader_init, deep_stream. cbn [r_m r_cwe r_cws r_buf r_zip app]. rewrite <- !app_assoc. repeat (split; [easy|]). now exists (1, 0). }
  assert (Hneg : read_nested (S d) s r (-1) = read_nested (S d) s r (s - r_br r)).
  { cbn [read_nested]. replace (-1 <? 1) with true by easy. replace (s - r_br r <? 1) with false by (cbn [r reader_init r_br]; lia). now rewrite Z.min_id. }
  rewrite Hneg. revert Hneg. intros _.
  refine (one_deeper d s r _ _ _ _ _ _ _ S0 (fun ab => ex_intro _ _ (feeds_first k ab)) _ _ _ _ _ _ eq_refl); [easy|change (len (repeat 7 4)) with 4; cbn [r reader_init r_br]; lia|rewrite len_first; lia|left; rewrite len_first; cbn [r reader_init r_br len length Z.of_nat]; lia|].
  intros r1 S1 B1; change (len (repeat 7 4)) with 4 in B1; cbn [r reader_init r_br] in B1. destruct d as [|d]; [easy|].
  refine (one_deeper d s r1 _ _ _ _ _ _ _ S1 (fun ab => ex_intro _ _ (feeds_narrow ab)) _ _ _ _ _); [easy|change (len [7]) with 1; lia|easy|right; split; [easy|]; cbn [app]; rewrite len_first; cbn [len length Z.of_nat]; lia|].
  intros r2 S2 B2; change (len [7]) with 1 in B2.
  refine (rounds_deep s k d r2 _ _ _ _ _); [lia| |lia]. replace (len ([] ++ first_window k)) with (len (([] ++ first_window k) ++ narrow) - 8) in S2 by (rewrite len_app; change (len narrow) with 8; lia). exact S2.
Qed.

Lemma every_limit depth : exists z c, len c = 30 + 5 * (Z.of_nat depth / 2) /\ zl_stream stored_laws z c /\ forall rest,
  limited_read depth (reader_init stored (z ++ rest) (Some (len c))) (-1) = Raise RecursionError /\
  exists out, evaluates (fun f => run_stream (read f) (fun r => seek r 0 0) (reader_init stored (z ++ rest) (Some (len c))) [Read (-1)]) (Ok out).
Proof.
  exists (deep_stream (depth / 2)), (deep_data (depth / 2)). split; [unfold deep_data; rewrite len_repeat; lia|]. split; [apply deep_ok|]. intros rest.
  split; [apply stream_deep; lia|]. destruct (known_contiguous stored_laws _ _ rest [Read (-1)] (deep_ok (depth / 2))) as (outs & H & _). now exists outs.
Qed.
Lemma no_bound : ~ bounded_depth.
Proof.
  intros (depth & H). destruct (every_limit depth) as (z & c & _ & Hz & Hr). destruct (Hr []) as (E & out & f1 & H1).
  destruct (H stored stored_laws z c [] Hz) as (f2 & H2). specialize (H1 (Nat.max f1 f2) ltac:(lia)). specialize (H2 (Nat.max f1 f2) ltac:(lia)). cbv beta in H1, H2.
  rewrite H1 in H2. cbn [run_stream] in H2. rewrite E in H2. discriminate.
Qed.
