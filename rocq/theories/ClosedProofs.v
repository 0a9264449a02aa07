(** Proofs about closed streams. *)
From Coq Require Import ZifyBool ZifyNat.
From Verif Require Import Py PyFacts FunModel FunSpec FunProofs ZlibModel ZlibProofs ReaderModel StreamSpec ReaderProofs ClosedModel ClosedSpec.
Ltac Zify.zify_post_hook ::= Z.div_mod_to_equations.

Section Any.
  Context {K : zlib}.

  (** A closed stream gives nothing but what the open one would. *)
  Lemma closed_s_open s (r : reader K) n d r' f : closed_s s r n = (Ok d, r') -> read_s (S f) s r n = Ok (d, r').
  Proof.
    unfold closed_s. rewrite read_s_S. cbv zeta. destruct (_ =? 0); [intros H; now injection H as <- <-|].
    destruct (r_buf r) as [b|]; [|discriminate]. destruct (_ <=? _); [|discriminate].
    destruct (bio_read b _) as [x y]. intros H. now injection H as <- <-.
  Qed.
  Lemma closed_header_open (r r' : reader K) s f : closed_header r = (Ok s, r') ->
    exists t, parse_header_info (S f) r = Ok (t, s, r').
  Proof.
    unfold closed_header, parse_header_info. destruct (closed_s _ _ _) as [[h|e|] r1] eqn:E; try discriminate.
    rewrite (closed_s_open _ _ _ _ _ f E). cbn [bind]. destruct (parse_loose_header h) as [[t n]|e|]; try discriminate.
    cbn [bind]. intros H. injection H as <- <-. now exists t.
  Qed.
  Lemma read_closed_open (r : reader K) n d r' f : read_closed r n = (Ok d, r') -> read (S f) r n = Ok (d, r').
  Proof.
    unfold read_closed, read, get_s. destruct (r_s r) as [s|].
    - intros H. cbn [bind]. now apply closed_s_open.
    - destruct (closed_header r) as [[s|e|] r1] eqn:E; try discriminate.
      destruct (closed_header_open _ _ _ f E) as (t & ->). cbn [bind]. apply closed_s_open.
  Qed.

  (** A stream that failed once never gives anything again. *)
  Definition dead (r : reader K) : Prop :=
    r_buf r = None /\
    match r_s r with Some s => s <> r_br r /\ (r_phi r = false -> s <> 0) | None => r_br r = 0 end.
  Lemma dead_rewind r : dead r -> dead (rewind r).
  Proof.
    intros (Hb & Hs). unfold rewind, dead. cbn. split; [easy|].
    destruct (r_phi r); [easy|]. destruct (r_s r) as [s|]; [|easy]. split; [now apply Hs|]. intros _. now apply Hs.
  Qed.
  Lemma dead_read r n : dead r -> exists r', read_closed r n = (Raise ValueError, r') /\ dead r'.
  Proof.
    intros (Hb & Hs). unfold read_closed. destruct (r_s r) as [s|] eqn:Es.
    - exists r. split; [|now split; [|rewrite Es]]. unfold closed_s. rewrite Hb.
      destruct (Z.eqb_spec (if n <? 1 then s - r_br r else Z.min n (s - r_br r)) 0) as [E|E]; [|easy].
      destruct (Z.ltb_spec n 1); lia.
    - unfold closed_header, closed_s. cbn [r_br r_buf]. rewrite Hs, Hb. cbn.
      eexists. split; [reflexivity|]. split; [easy|]. cbn. rewrite ?Hs. split; [lia|easy].
  Qed.
  Lemma dead_gone f ops : forall o : ostream K, o_open o = false -> dead (o_reader o) -> outcomes f o ops = gone ops.
  Proof.
    induction ops as [|[n|] ops IH]; intros o Ho Hd; cbn [outcomes gone map]; [easy| |].
    - unfold ostream_read. rewrite Ho. destruct (dead_read _ n Hd) as (r' & -> & Hd'). f_equal. now apply IH.
    - f_equal. apply IH; [easy|]. now apply dead_rewind.
  Qed.

  (** The state in which a loose object's stream is: the buffer is shorter than what the
      header is looked for in. *)
  Definition short (r : reader K) : Prop := 0 <= r_buflen r < 8192.
  Lemma rewound_dead r n : short r -> r_s r = None -> r_br r = 0 ->
    exists r', read_closed r n = (Raise ValueError, r') /\ dead r'.
  Proof.
    intros Hl Hs Hbr. unfold read_closed. rewrite Hs. unfold closed_header, closed_s. cbn [r_br r_buf r_buflen].
    rewrite Hbr. change (Z.min 8192 (8192 - 0)) with 8192. change (if 8192 <? 1 then 8192 - 0 else 8192) with 8192. change (8192 =? 0) with false. cbv iota.
    unfold short in Hl. destruct (r_buf r) as [b|] eqn:Eb.
    - replace (8192 <=? r_buflen r) with false by lia. eexists. split; [reflexivity|]. split; [easy|]. cbn. split; [lia|easy].
    - eexists. split; [reflexivity|]. split; [easy|]. cbn. rewrite ?Eb, ?Hbr. split; [lia|easy].
  Qed.
  Lemma rewound_gone f ops : forall o : ostream K, o_open o = false -> short (o_reader o) ->
    r_s (o_reader o) = None -> r_br (o_reader o) = 0 -> outcomes f o ops = gone ops.
  Proof.
    induction ops as [|[n|] ops IH]; intros o Ho Hl Hs Hbr; cbn [outcomes gone map]; [easy| |].
    - unfold ostream_read. rewrite Ho. destruct (rewound_dead _ n Hl Hs Hbr) as (r' & -> & Hd'). f_equal. now apply dead_gone.
    - f_equal. apply IH; try easy. cbn. now destruct (r_phi _).
  Qed.
  (** After a failure, in any state of a stream with a parsed header. *)
  Lemma failed_dead r n r' : (forall s, r_s r = Some s -> r_phi r = true) -> (r_s r = None -> r_br r = 0) -> short r ->
    read_closed r n = (Raise ValueError, r') -> dead r'.
  Proof.
    intros Hp Hn Hl H. destruct (r_s r) as [s|] eqn:Es.
    - unfold read_closed in H. rewrite Es in H. specialize (Hp s eq_refl). unfold closed_s in H.
      set (q := if n <? 1 then s - r_br r else Z.min n (s - r_br r)) in H.
      assert (Hq : q <= s - r_br r /\ (q <> 0 -> s <> r_br r)) by (unfold q; destruct (Z.ltb_spec n 1); lia). clearbody q.
      destruct (Z.eqb_spec q 0); [discriminate|]. unfold short in Hl. destruct (r_buf r) as [b|] eqn:Eb.
      + destruct (Z.leb_spec q (r_buflen r)); [destruct (bio_read b q); discriminate|].
        injection H as <-. split; [easy|]. cbn. rewrite Es, Hp. split; [lia|easy].
      + injection H as <-. split; [easy|]. rewrite Es, Hp. split; [lia|easy].
    - destruct (rewound_dead r n Hl Es (Hn eq_refl)) as (r1 & E & Hd). congruence.
  Qed.
End Any.

Section Object.
  Context {K : zlib} (L : zlib_laws K) (t c z rest : bytes).
  Notation hdr := (loose_object_header t (len c)).
  Context (Hz : zl_stream L z (hdr ++ c)) (Ht1 : ~ In BYTE_SPACE t) (Ht2 : ~ In NULL_BYTE t).
  Notation PP := (P L t c z rest).

  Lemma P_state f : (2 * length c + 8 <= f)%nat -> forall ns B (r : reader K) pos outs r',
    PP B r pos -> run_state (read f) (fun r => seek r 0 0) r (map Read ns) = Ok (outs, r') ->
    PP B r' (pos + length (concat outs)).
  Proof.
    intros Hf ns B. induction ns as [|n ns IH]; intros r pos outs r' HP; cbn [map run_state].
    - intros H. injection H as <- <-. now rewrite Nat.add_0_r.
    - destruct (P_read L t c z rest Hz B r pos n f HP Hf) as (out & r1 & R1 & R2 & _). rewrite R1. cbn [bind].
      intros H. apply bind_ok_inv in H as ([l r2] & H1 & H2). injection H2 as <- <-.
      cbn [concat]. rewrite app_length, Nat.add_assoc. now apply (IH r1).
  Qed.

  Lemma P_short B (r : reader K) pos : PP B r pos -> Z.of_nat B < 8192 -> short r.
  Proof.
    intros (_ & _ & _ & _ & [(_ & Hl & _)|(b & dr & _ & Hl & HB & _)]) Hb; unfold short; rewrite Hl; [lia|].
    unfold len. lia.
  Qed.

  Lemma closed_outcomes f B : Z.of_nat B < 8192 -> forall ops (o : ostream K) pos, o_open o = false -> PP B (o_reader o) pos ->
    outcomes f o ops = closed_cursor c B pos ops.
  Proof.
    intros HB. induction ops as [|[n|] ops IH]; intros o pos Ho HP; cbn [outcomes closed_cursor]; [easy| |].
    2: { f_equal. pose proof (P_short _ _ _ HP HB) as Hl. destruct HP as (_ & _ & _ & Hphi & _).
         apply rewound_gone; try easy. cbn. now rewrite Hphi. }
    unfold ostream_read. rewrite Ho. pose proof (P_short _ _ _ HP HB) as Hl.
    set (d := if n <? 1 then skipn pos c else firstn (Z.to_nat n) (skipn pos c)). cbv zeta.
    destruct (read_closed (o_reader o) n) as [v r'] eqn:E.
    assert (Hn : r_s (o_reader o) = Some (len c)) by apply HP.
    assert (Hph : r_phi (o_reader o) = true) by (now destruct HP as (_ & _ & _ & ? & _)).
    assert (Hdead : v = Raise ValueError -> v :: outcomes f (mk_ostream r' (o_flag o) (o_closable o) false) ops = gone (Read n :: ops)).
    { intros ->. cbn [gone map]. f_equal. apply dead_gone; [easy|]. cbn [o_reader].
      eapply failed_dead; [| | |exact E]; [easy|now rewrite Hn|easy]. }
    destruct HP as (Hp & Hs & Hbr & Hphi & Hc).
    assert (Hls : len (skipn pos c) = len c - Z.of_nat pos) by (rewrite len_skipn; unfold len; lia).
    unfold read_closed in E. rewrite Hs in E. unfold closed_s in E.
    set (q := if n <? 1 then len c - r_br (o_reader o) else Z.min n (len c - r_br (o_reader o))) in E.
    assert (Hq0 : 0 <= q) by (unfold q; destruct (Z.ltb_spec n 1); unfold len in *; lia).
    assert (Hqe : d = firstn (Z.to_nat q) (skipn pos c) /\ len d = q).
    { unfold d, q. destruct (Z.ltb_spec n 1).
      - rewrite firstn_all2 by (unfold len in *; lia). split; [easy|lia].
      - rewrite len_firstn. split; [|lia]. destruct (Z.le_gt_cases n (len c - r_br (o_reader o))).
        + now replace (Z.min n (len c - r_br (o_reader o))) with n by lia.
        + rewrite !firstn_all2; [easy| |]; unfold len in *; lia. }
    destruct Hqe as [He Hle]. clearbody d q. unfold len in Hle.
    destruct (Z.eqb_spec q 0) as [Eq|Eq].
    { injection E as <- <-. replace (length d =? 0)%nat with true by lia. cbn [orb].
      assert (d = []) as -> by (destruct d; [easy|cbn in Hle; lia]). f_equal. apply IH; [easy|]. rewrite Nat.add_0_r.
      now repeat split. }
    destruct Hc as [(Hb & Hbl & HB' & HG)|(b & dr & Hb & Hbl & HB' & Hcc & HG)]; rewrite Hb in E.
    { injection E as <- <-. replace (_ || _) with false by lia. now apply Hdead. }
    rewrite Hbl in E. unfold len in E at 1. destruct (Z.leb_spec q (Z.of_nat (length b))).
    2: { injection E as <- <-. replace (_ || _) with false by lia. now apply Hdead. }
    replace (_ || _) with true by lia. unfold bio_read in E. replace (q <? 0) with false in E by lia.
    assert (Hd : d = firstn (Z.to_nat q) b).
    { rewrite He, Hcc, firstn_app. replace (Z.to_nat q - length b)%nat with O by lia. now rewrite app_nil_r. }
    injection E as <- <-. rewrite Hd at 1. f_equal. apply IH; [easy|]. cbn [o_reader].
    assert (Hskip : skipn (pos + length d) c = skipn (Z.to_nat q) b ++ dr).
    { replace (pos + length d)%nat with (Z.to_nat q + pos)%nat by lia. rewrite <- skipn_skipn, Hcc, skipn_app.
      now replace (Z.to_nat q - length b)%nat with O by lia. }
    split; [|split; [easy|split; [|split; [easy|right]]]].
    - apply (f_equal (@length Z)) in Hcc. rewrite skipn_length, app_length in Hcc. lia.
    - cbn. lia.
    - exists (skipn (Z.to_nat q) b), dr. cbn. split; [easy|]. split; [rewrite len_skipn; unfold len; lia|].
      split; [rewrite skipn_length; lia|]. split; [easy|]. now apply (G_same L t c z rest (o_reader o)).
  Qed.

  Definition held : nat := Z.to_nat (Z.min (len c) (8192 - len hdr)).
  Lemma new_tame f t' n r : tame L t c z -> len hdr <= 8192 -> reader_new K f (z ++ rest) = Ok (t', n, r) ->
    t' = t /\ n = len c /\ PP held r 0.
  Proof.
    intros Ht Hl Hnew. set (f1 := Nat.max f (2 * length (hdr ++ c) + 8)).
    assert (Hnew1 : reader_new K f1 (z ++ rest) = Ok (t', n, r)).
    { unfold reader_new in *. eapply parse_mono; [|exact Hnew]. lia. }
    destruct (parse_dense L t c z rest Hz Ht1 Ht2 _ f1 Ht Hl (N_init L t c z rest Hz (Some 0)) ltac:(lia)) as (r2 & R1 & R2).
    unfold reader_new in Hnew1. rewrite R1 in Hnew1. injection Hnew1 as <- <- <-. split; [easy|]. split; [easy|].
    unfold held. rewrite bufpos_gen by easy. exact R2.
  Qed.
  Lemma held_small : Z.of_nat held < 8192.
  Proof.
    unfold held, loose_object_header. rewrite !len_app. pose proof (len_nonneg _ t). pose proof (len_nonneg _ (fmt_i (len c))).
    change (len [BYTE_SPACE]) with 1. change (len [NULL_BYTE]) with 1. lia.
  Qed.
End Object.
