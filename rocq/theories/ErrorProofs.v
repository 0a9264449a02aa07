(** Proofs about errors. *)
From Coq Require Import Permutation ZifyBool ZifyNat.
From Verif Require Import Py PyFacts FunModel IndexModel IndexSpec IndexProofs IndexSearch ZlibModel ReaderModel PackModel PackDbModel PackDbSpec PackDbProofs ErrorSpec.
Ltac Zify.zify_post_hook ::= Z.div_mod_to_equations.

(** ** Files *)
Lemma four_at (c : bytes) k : 0 <= k -> k + 4 <= len c -> exists p q r s, firstn 4 (skipn (Z.to_nat k) c) = [p; q; r; s] /\ slice c k (k + 4) = [p; q; r; s].
Proof.
  intros Hk Hl. pose proof (skipn_length (Z.to_nat k) c) as Hs. unfold len in Hl.
  rewrite slice_spec by (unfold len; lia). replace (Z.to_nat (k + 4 - k)) with 4%nat by lia.
  destruct (skipn (Z.to_nat k) c) as [|p [|q [|r [|s t]]]] eqn:E; cbn [length] in Hs; try lia. now exists p, q, r, s.
Qed.
Lemma be_four p q r s v : is_bytes [p; q; r; s] -> 0 <= v < 2 ^ 32 -> be_dec [p; q; r; s] = v <-> [p; q; r; s] = [v / 16777216; v / 65536 mod 256; v / 256 mod 256; v mod 256].
Proof.
  intros Hb Hv. unfold be_dec. cbn [be_dec_acc]. rewrite !is_bytes_cons in Hb. destruct Hb as (H1 & H2 & H3 & H4 & _). unfold is_byte in *.
  assert (E : ((0 * 256 + p) * 256 + q) * 256 + r = 65536 * p + 256 * q + r) by lia.
  split.
  - intros H. repeat (apply f_equal2; [lia|]). reflexivity.
  - intros H. injection H as -> -> -> ->. lia.
Qed.
Lemma pack_bad c x : is_bytes c -> pack_open c = Raise x <-> bad_pack c x.
Proof.
  intros Hb. unfold pack_open, bad_pack, unpack_be. change (Z.of_nat 4) with 4. change (0 <=? 0) with true. change (0 <=? 4) with true. change (0 <=? 8) with true. change (0 + 4) with 4. change (4 + 4) with 8. change (8 + 4) with 12. cbn [andb]. pose proof (len_nonneg _ c).
  destruct (4 <=? len c) eqn:E4; cbn [bind]; [|split; [intros [= <-]; left; split; [lia|easy]|intros [[_ ->]|[Hc _]]; [easy|lia]]].
  destruct (8 <=? len c) eqn:E8; cbn [bind]; [|split; [intros [= <-]; left; split; [lia|easy]|intros [[_ ->]|[Hc _]]; [easy|lia]]].
  destruct (12 <=? len c) eqn:E12; cbn [bind]; [|split; [intros [= <-]; left; split; [lia|easy]|intros [[_ ->]|[Hc _]]; [easy|lia]]].
  destruct (four_at c 0) as (p & q & r & s & F & S); [lia|lia|]. change (skipn (Z.to_nat 0) c) with c in F. change (0 + 4) with 4 in S. rewrite S.
  assert (Hb4 : is_bytes [p; q; r; s]) by (rewrite <- F; now apply is_bytes_firstn).
  pose proof (be_four p q r s 1346454347 Hb4 ltac:(lia)) as Hd. change [1346454347 / 16777216; 1346454347 / 65536 mod 256; 1346454347 / 256 mod 256; 1346454347 mod 256] with [80; 65; 67; 75] in Hd. rewrite F.
  destruct (be_dec [p; q; r; s] =? 1346454347) eqn:E.
  - apply Z.eqb_eq in E. split; [easy|]. intros [[Hc _]|(_ & Hn & _)]; [lia|]. elim Hn. now apply Hd.
  - apply Z.eqb_neq in E. split; [intros [= <-]; right; split; [lia|]; split; [|easy]; intros Hn; apply E; now apply Hd|]. intros [[Hc _]|(_ & _ & ->)]; [lia|easy].
Qed.
Lemma fanout_read d : forall n off, 0 <= off ->
  (off + 4 * Z.of_nat n <= len d -> exists l, read_fanout n d off = Ok l /\ length l = n) /\
  (len d < off + 4 * Z.of_nat n -> (0 < n)%nat -> read_fanout n d off = Raise StructError).
Proof.
  induction n as [|n IH]; intros off Ho; [split; [now exists []|lia]|]. cbn [read_fanout]. unfold unpack_be. replace (0 <=? off) with true by lia. cbn [andb]. change (Z.of_nat 4) with 4.
  destruct (IH (off + 4)) as [H1 H2]; [lia|]. destruct (off + 4 <=? len d) eqn:E; cbn [bind]; [|split; [lia|easy]]. split.
  - intros H. destruct H1 as (l & -> & Hl); [lia|]. cbn [bind]. eexists. split; [reflexivity|]. cbn [length]. lia.
  - intros H _. rewrite H2 by lia. reflexivity.
Qed.
Lemma py_assert_ok (b : bool) : py_assert b (Ok tt) = if b then Ok tt else Raise AssertionError.
Proof. now destruct b. Qed.
Lemma index_open_two d fan off v : off = (if v =? 2 then 8 else 0) -> read_fanout 256 d off = fan ->
  (let! fanout := read_fanout 256 d (if v =? 2 then 8 else 0) in let! size := index fanout 255 in
   let crc := sha_list_offset + size * 20 in let po := crc + size * 4 in Ok (mk_pidx d v fanout crc po (po + size * 4))) =
  let! fanout := fan in let! size := index fanout 255 in
   let crc := sha_list_offset + size * 20 in let po := crc + size * 4 in Ok (mk_pidx d v fanout crc po (po + size * 4)).
Proof. now intros -> ->. Qed.
Lemma index_bad c : is_bytes c -> (exists x, index_open c = Raise x /\ forall y, bad_index c y <-> y = x) \/
  ((exists ix, index_open c = Ok ix /\ length (ix_fanout ix) = 256%nat) /\ forall y, ~ bad_index c y).
Proof.
  intros Hb. unfold index_open, bad_index. cbv zeta. rewrite slice_to_spec by lia. change (Z.to_nat 4) with 4%nat. pose proof (len_nonneg _ c) as Hn.
  destruct (beq (firstn 4 c) index_v2_signature) eqn:Ev.
  - assert (F0 : firstn 4 c = [255; 116; 79; 99]) by now apply beq_eq in Ev. change (2 =? 2) with true. cbn iota. unfold unpack_be. change (0 <=? 4) with true. cbn [andb]. change (4 + Z.of_nat 4) with 8.
    destruct (8 <=? len c) eqn:E8; cbn [bind].
    2:{ left. exists StructError. split; [reflexivity|]. intros y. split; [|intros ->; left; split; [easy|left; split; [lia|easy]]]. intros [[_ [[_ ->]|[[H _]|[H _]]]]|[H _]]; [easy|lia|lia|easy]. }
    destruct (four_at c 4) as (p & q & r & s & F & S); [lia|lia|]. change (Z.to_nat 4) with 4%nat in F. change (4 + 4) with 8 in S. rewrite S, F, py_assert_ok.
    assert (Hb4 : is_bytes [p; q; r; s]) by (rewrite <- F; now apply is_bytes_firstn, is_bytes_skipn).
    pose proof (be_four p q r s 2 Hb4 ltac:(lia)) as Hd. change [2 / 16777216; 2 / 65536 mod 256; 2 / 256 mod 256; 2 mod 256] with [0; 0; 0; 2] in Hd.
    destruct (be_dec [p; q; r; s] =? 2) eqn:E.
    2:{ apply Z.eqb_neq in E. cbn [bind]. left. exists AssertionError. split; [reflexivity|]. intros y. split.
        - intros [[_ [[H _]|[(_ & _ & ->)|(_ & H & _)]]]|[H _]]; [lia|easy|elim E; now apply Hd|easy].
        - intros ->. left. split; [easy|]. right. left. split; [lia|]. split; [|easy]. intros H. apply E. now apply Hd. }
    apply Z.eqb_eq in E. pose proof (proj1 Hd E) as F4. rewrite F4. cbn [bind]. destruct (fanout_read c 256 8 ltac:(lia)) as [Hf1 Hf2]. change (8 + 4 * Z.of_nat 256) with 1032 in *.
    destruct (Z_lt_dec (len c) 1032) as [H|H].
    + left. exists StructError. rewrite Hf2 by lia. split; [reflexivity|]. intros y. split; [|intros ->; left; split; [easy|]; right; right; split; [lia|easy]].
      intros [[_ [[H' _]|[(_ & H' & _)|(_ & _ & ->)]]]|[H' _]]; [lia|easy|easy|easy].
    + right. destruct Hf1 as (l & -> & Hl); [lia|]. cbn [bind]. split.
      * destruct (index_in _ l 255) as (n & ->); [unfold len; lia|]. cbn [bind]. eexists. split; [reflexivity|exact Hl].
      * intros y [[_ [[H' _]|[(_ & H' & _)|(H' & _)]]]|[H' _]]; [lia|easy|lia|easy].
  - assert (F0 : firstn 4 c <> [255; 116; 79; 99]) by now apply beq_neq in Ev. change (1 =? 2) with false. cbn [bind]. cbn iota.
    destruct (fanout_read c 256 0 ltac:(lia)) as [Hf1 Hf2]. change (0 + 4 * Z.of_nat 256) with 1024 in *. destruct (Z_lt_dec (len c) 1024) as [H|H].
    + left. exists StructError. rewrite Hf2 by lia. split; [reflexivity|]. intros y. split; [|now intros ->; right]. intros [[H' _]|(_ & _ & ->)]; easy.
    + right. destruct Hf1 as (l & -> & Hl); [lia|]. cbn [bind]. split.
      * destruct (index_in _ l 255) as (n & ->); [unfold len; lia|]. cbn [bind]. eexists. split; [reflexivity|exact Hl].
      * intros y [[H' _]|(_ & H' & _)]; [easy|lia].
Qed.
Lemma pack_cases c : is_bytes c -> (exists x, pack_open c = Raise x /\ forall y, bad_pack c y <-> y = x) \/ ((exists v, pack_open c = Ok v) /\ forall y, ~ bad_pack c y).
Proof.
  intros Hb. destruct (pack_open c) as [v|x|] eqn:E.
  - right. split; [now exists v|]. intros y H. apply pack_bad in H; [|easy]. congruence.
  - left. exists x. split; [easy|]. intros y. rewrite <- pack_bad by easy. rewrite E. split; congruence.
  - exfalso. unfold pack_open, unpack_be in E. repeat (destruct (_ && _); cbn [bind] in E; [|easy]). now destruct (_ =? _).
Qed.
Lemma file_cases e d n : proper_env e d -> readable_dir d ->
  (exists x, map_file e n = Raise x /\ x <> BadObject /\ forall bad y, file_fails bad d n y <-> y = x) \/
  (exists c, map_file e n = Ok c /\ is_bytes c /\ c <> [] /\ forall bad y, file_fails bad d n y <-> bad c y).
Proof.
  intros (He & Hd & _) Hr. unfold map_file, file_fails. rewrite He. assert (Hone : forall c c', In (n, c) (d_files d) -> In (n, c') (d_files d) -> c = c').
  { intros c c' H1 H2. apply (file_named_in n _ _ Hd) in H1, H2. congruence. }
  assert (Hl : (exists c, In (n, c) (d_files d) /\ file_named n (d_files d) = c) \/ (~ listed d n /\ file_named n (d_files d) = Raise FileNotFound)).
  { unfold listed. clear - Hd. induction (d_files d) as [|[m c] l IH]; [right; split; [now intros (c & H)|easy]|]. cbn [file_named]. destruct (beq m n) eqn:E.
    - apply beq_eq in E as ->. left. exists c. split; [now left|easy].
    - apply beq_neq in E. cbn [map] in Hd. inversion Hd; subst. destruct IH as [(c' & H1' & H2')|[H1' H2']]; [easy|left; exists c'; split; [now right|easy]|right; split; [|easy]].
      intros (c' & [H|H]); [congruence|]. apply H1'. now exists c'. }
  destruct Hl as [(c & Hi & ->)|[Hi ->]].
  - pose proof (Hr n c Hi) as Hc. assert (Hlist : listed d n) by now exists c. destruct c as [b|x|]; [|cbn [bind]|easy].
    + cbn [bind]. destruct b as [|b0 b].
      * left. exists ValueError. split; [reflexivity|]. split; [easy|]. intros bad y. split; [|intros ->; tauto].
        intros [[H _]|[H|[[_ ->]|(c & H1 & H2 & _)]]]; [easy|apply (Hone _ _ Hi) in H; discriminate H|easy|apply (Hone _ _ Hi) in H2; congruence].
      * right. exists (b0 :: b). rewrite len_cons. pose proof (len_nonneg _ b). replace (len b + 1 =? 0) with false by lia. split; [easy|]. split; [easy|]. split; [easy|]. intros bad y. split.
        -- intros [[H' _]|[H'|[[H' ->]|(c & H1 & H2 & H3)]]]; [easy|apply (Hone _ _ Hi) in H'; discriminate H'|apply (Hone _ _ Hi) in H'; discriminate H'|]. apply (Hone _ _ Hi) in H2. now injection H2 as <-.
        -- intros H'. right. right. right. now exists (b0 :: b).
    + left. exists x. split; [easy|]. split; [easy|]. intros bad y. split; [|intros ->; tauto].
      intros [[H _]|[H|[[H ->]|(c & H1 & H2 & _)]]]; [easy|apply (Hone _ _ Hi) in H; congruence|apply (Hone _ _ Hi) in H; discriminate H|apply (Hone _ _ Hi) in H2; discriminate H2].
  - left. exists FileNotFound. split; [reflexivity|]. split; [easy|]. intros bad y. split; [|intros ->; tauto].
    intros [[_ ->]|[H|[[H ->]|(c & H1 & H2 & _)]]]; [easy|elim Hi; now exists (Raise y)|elim Hi; now exists (Ok [])|elim Hi; now exists (Ok c)].
Qed.

(** ** Loading *)
Section Load.
  Variables (e : env) (d : dir).
  Hypotheses (He : proper_env e d) (Hr : readable_dir d).
  Lemma add_cases new : forall l,
    (exists x n l', add_packs e new l = (Raise x, l') /\ In n new /\ file_fails bad_pack d n x /\ x <> BadObject) \/
    (exists l', add_packs e new l = (Ok tt, l') /\ forall n y, In n new -> ~ file_fails bad_pack d n y).
  Proof.
    induction new as [|n new IH]; intros l; cbn [add_packs]; [right; now exists l|].
    destruct (file_cases e d n He Hr) as [(x & -> & Hx & Hf)|(c & -> & Hb & Hc & Hf)]; cbn [bind].
    - left. exists x, n, l. split; [easy|]. split; [now left|]. split; [now apply Hf|easy].
    - destruct (pack_cases c Hb) as [(x & -> & Hp)|[([v k] & ->) Hp]]; cbn [bind].
      + left. exists x, n, l. split; [easy|]. split; [now left|]. split; [now apply Hf, Hp|]. assert (H : bad_pack c x) by now apply Hp. destruct H as [[_ ->]|(_ & _ & ->)]; easy.
      + destruct (IH (l ++ [mk_item k n c None])) as [(x & m & l' & H1 & H2 & H3)|(l' & H1 & H2)].
        * left. exists x, m, l'. split; [easy|]. split; [now right|easy].
        * right. exists l'. split; [easy|]. intros m y [<- |Hi]; [|now apply H2]. intros H. now apply Hf, Hp in H.
  Qed.
  Definition new_fails (l : list item) (n : bytes) (x : exn) : Prop := packs_in d n /\ ~ In n (map it_name l) /\ file_fails bad_pack d n x.
  Lemma refresh_cases l : NoDup (map it_name l) ->
    (exists x n l', refresh e d l = (Raise x, l') /\ new_fails l n x /\ x <> BadObject) \/
    (exists l', refresh e d l = (Ok true, l') /\ forall n y, ~ new_fails l n y).
  Proof.
    intros Hl. destruct (refresh e d l) as [r l'] eqn:Er. pose proof (refresh_ok e d l r l' He Hl Er) as (_ & _ & _ & Hres). destruct He as (He1 & Hd & Hord).
    unfold refresh in Er. set (new := e_order e (filter _ (glob_packs d))) in Er.
    assert (Hnew : forall n, In n new <-> packs_in d n /\ ~ In n (map it_name l)).
    { intros n. unfold new. split; intros H.
      - apply (Permutation_in _ (Hord _)) in H. apply filter_In in H as [H1 H2]. rewrite <- glob_in. split; [easy|]. rewrite <- dedup_in. apply mem_out. now destruct (mem n _).
      - apply (Permutation_in _ (Permutation_sym (Hord _))). apply filter_In. rewrite glob_in. split; [easy|]. destruct H as [_ H]. rewrite <- dedup_in in H. apply mem_out in H. now rewrite H. }
    clearbody new. destruct (add_cases new l) as [(x & n & l1 & H1 & H2 & H3)|(l1 & H1 & H2)]; rewrite H1 in Er.
    - injection Er as <- <-. left. exists x, n, l1. split; [easy|]. apply Hnew in H2. unfold new_fails. tauto.
    - assert (Hno : forall n y, ~ new_fails l n y) by (intros n y (H3 & H4 & H5); apply (H2 n y); [now apply Hnew|easy]).
      right. exists l'. split; [|easy]. destruct r as [b|x|]; [destruct Hres as [-> _]; easy| |].
      + destruct Hres as (n & Hn1 & Hn2 & Hn3). exfalso. destruct (file_cases e d n He Hr) as [(y & Hm & _ & Hf)|(c & Hm & Hb & _ & Hf)]; [apply (Hno n y); split; [easy|split; [easy|now apply Hf]]|].
        destruct (pack_cases c Hb) as [(y & Hy & Hp)|[([v k] & Hy) _]]; [|now apply (Hn3 c v k)]. apply (Hno n y). split; [easy|split; [easy|now apply Hf, Hp]].
      + destruct Hres as (n & Hn1 & Hn2 & Hn3). exfalso. destruct (file_cases e d n He Hr) as [(y & Hm & _ & Hf)|(c & Hm & Hb & _ & Hf)]; [apply (Hno n y); split; [easy|split; [easy|now apply Hf]]|].
        destruct (pack_cases c Hb) as [(y & Hy & Hp)|[([v k] & Hy) _]]; [|now apply (Hn3 c v k)]. apply (Hno n y). split; [easy|split; [easy|now apply Hf, Hp]].
  Qed.

  (** ** Indices *)
  Definition item_ok (it : item) : Prop := (exists idx, pack_and_index (it_name it) idx) /\ forall c, it_idx it = Some c -> is_bytes c.
  Lemma open_cases it : item_ok it -> item_ok (snd (open_index e it)) /\
    ((exists x, fst (open_index e it) = Raise x /\ forall y, index_fails d it y <-> y = x) \/
     (exists ix, fst (open_index e it) = Ok ix /\ length (ix_fanout ix) = 256%nat /\ forall y, ~ index_fails d it y)).
  Proof.
    intros [(idx & Hi) Hb]. unfold open_index, index_fails. destruct (it_idx it) as [c|] eqn:E.
    - split; [split; [now exists idx|cbn [snd]; now rewrite E]|]. cbn [fst]. destruct (index_bad c (Hb c eq_refl)) as [(x & H1 & H2)|[(ix & H1 & H2) H3]]; [left; now exists x|right; now exists ix].
    - pose proof (idx_name_spec _ _ Hi) as Hn. rewrite Hn. assert (Hfa : forall y, (forall j, pack_and_index (it_name it) j -> file_fails bad_index d j y) <-> file_fails bad_index d idx y).
      { intros y. split; [auto|]. intros H j Hj. apply idx_name_spec in Hj. congruence. }
      destruct (file_cases e d idx He Hr) as [(x & -> & _ & Hf)|(c & -> & Hc & _ & Hf)]; cbn [fst snd].
      + split; [split; [now exists idx|now rewrite E]|]. left. exists x. split; [easy|]. intros y. now rewrite Hfa, Hf.
      + split; [split; [now exists idx|cbn [it_idx]; intros c' [= <-]; easy]|]. destruct (index_bad c Hc) as [(x & H1 & H2)|[(ix & H1 & H2) H3]].
        * left. exists x. split; [easy|]. intros y. now rewrite Hfa, Hf, H2.
        * right. exists ix. split; [easy|]. split; [easy|]. intros y. rewrite Hfa, Hf. apply H3.
  Qed.
  Lemma each_cases {A} (f : pidx -> res A) l : (forall ix, length (ix_fanout ix) = 256%nat -> exists a, f ix = Ok a) -> Forall item_ok l ->
    Forall item_ok (snd (each_index e f l)) /\
    ((exists x it, fst (each_index e f l) = Raise x /\ In it l /\ index_fails d it x) \/
     (exists r, fst (each_index e f l) = Ok r /\ forall it y, In it l -> ~ index_fails d it y)).
  Proof.
    intros Hf. induction 1 as [|it l Hi Hl [IH1 IH2]]; cbn [each_index]; [split; [constructor|]; right; now exists []|].
    destruct (open_cases it Hi) as [Ho1 Ho2]. destruct (open_index e it) as [r it'] eqn:E. cbn [fst snd] in *.
    destruct Ho2 as [(x & -> & Hx)|(ix & -> & Hn & Hx)]; cbn [bind].
    - split; [now constructor|]. left. exists x, it. split; [easy|]. split; [now left|now apply Hx].
    - destruct (Hf ix Hn) as (a & ->). destruct (each_index e f l) as [r l'] eqn:El. cbn [fst snd] in *. split; [now constructor|].
      destruct IH2 as [(x & jt & -> & H1 & H2)|(r' & -> & H1)]; cbn [bind].
      + left. exists x, jt. split; [easy|]. split; [now right|easy].
      + right. eexists. split; [reflexivity|]. intros jt y [<- |Hj]; [apply Hx|now apply H1].
  Qed.
  Lemma lookup_total ix sha : length (ix_fanout ix) = 256%nat -> sha_ok sha -> exists o, sha_to_index ix sha = Ok o.
  Proof.
    intros Hf [Hl Hb]. pose proof (sha_to_index_terminates ix sha) as Ht. unfold sha_to_index in *. destruct sha as [|b sha]; [cbn in Hl; lia|]. apply is_bytes_cons in Hb as [Hb _]. unfold is_byte in Hb. change (index (b :: sha) 0) with (Ok b) in *. cbn [bind] in *.
    assert (Hix : forall i, 0 <= i < 256 -> exists v, index (ix_fanout ix) i = Ok v) by (intros i Hi; apply index_in; unfold len; lia).
    unfold bisect_bounds in *. destruct (Hix b Hb) as (hi & Ehi). rewrite Ehi in *. assert (exists lo, (if b =? 0 then Ok 0 else index (ix_fanout ix) (b - 1)) = Ok lo) as (lo & Elo).
    { destruct (b =? 0) eqn:E; [now exists 0|]. apply Hix. lia. }
    rewrite Elo in *. cbn [bind] in *.
    assert (Hno : forall fuel lo hi x, bisect fuel (ix_sha ix) (b :: sha) lo hi <> Raise x).
    { clear. induction fuel as [|f IH]; intros lo hi x; cbn [bisect]; [easy|]. destruct (lo <? hi); [|easy]. destruct (blt _ _); [apply IH|]. destruct (beq _ _); [easy|apply IH]. }
    destruct (bisect (bisect_fuel lo hi) (ix_sha ix) (b :: sha) lo hi) as [o|x|] eqn:E; [now exists o|now apply Hno in E|]. now elim Ht.
  Qed.
  Lemma look_cases sha l : sha_ok sha -> Forall item_ok l ->
    Forall item_ok (snd (look e sha l)) /\
    ((exists x it, fst (look e sha l) = Raise x /\ In it l /\ index_fails d it x) \/ (exists o, fst (look e sha l) = Ok o)).
  Proof.
    intros Hs. induction 1 as [|it l Hi Hl [IH1 IH2]]; cbn [look]; [split; [constructor|]; right; now exists None|].
    destruct (open_cases it Hi) as [Ho1 Ho2]. destruct (open_index e it) as [r it'] eqn:E. cbn [fst snd] in *.
    destruct Ho2 as [(x & -> & Hx)|(ix & -> & Hn & Hx)]; cbn [bind].
    - split; [now constructor|]. left. exists x, it. split; [easy|]. split; [now left|now apply Hx].
    - destruct (lookup_total ix sha Hn Hs) as ([i|] & ->); cbn [bind].
      + split; [|right; now eexists]. constructor; [|easy]. destruct Ho1 as [H1 H2]. now split.
      + destruct (look e sha l) as [r l'] eqn:El. cbn [fst snd] in *. split; [now constructor|]. destruct IH2 as [(x & jt & -> & H1 & H2)|(r' & ->)]; [|right; now exists r'].
        left. exists x, jt. split; [easy|]. split; [now right|easy].
  Qed.
End Load.

(** ** Histories *)
Definition inv (s : pdb) : Prop := match p_entities s with None => True | Some l => NoDup (map it_name l) /\ Forall item_ok l end.
Definition byte_files (e : env) : Prop := forall n c, map_file e n = Ok c -> is_bytes c.
Lemma proper_bytes o : proper_call o -> byte_files (op_env o).
Proof.
  intros [H|(d & H1 & H2)] n c Hm; [unfold map_file in Hm; now rewrite H in Hm|].
  destruct (file_cases (op_env o) d n H1 H2) as [(x & H & _)|(c' & H & Hb & _)]; congruence.
Qed.
Lemma open_keeps e it : byte_files e -> item_ok it -> item_ok (snd (open_index e it)) /\ it_name (snd (open_index e it)) = it_name it.
Proof.
  intros He [H1 H2]. unfold open_index. destruct (it_idx it) as [c|] eqn:E; [cbn [snd]; split; [split; [easy|now rewrite E]|easy]|].
  destruct (map_file e (idx_name (it_name it))) as [c| |] eqn:Em; cbn [snd]; (split; [split; [easy|]|easy]); cbn [it_idx]; [|now rewrite E..]. intros c' [= <-]. now apply He in Em.
Qed.
Definition keeps (l l' : list item) : Prop := Forall item_ok l' /\ map it_name l' = map it_name l.
Lemma keeps_cons it it' l l' : item_ok it' -> it_name it' = it_name it -> keeps l l' -> keeps (it :: l) (it' :: l').
Proof. intros H1 H2 [H3 H4]. split; [now constructor|]. cbn [map]. now rewrite H2, H4. Qed.
Lemma keeps_tail it it' l : item_ok it' -> it_name it' = it_name it -> Forall item_ok l -> keeps (it :: l) (it' :: l).
Proof. intros. now apply keeps_cons. Qed.
Lemma look_keeps e sha l : byte_files e -> Forall item_ok l -> keeps l (snd (look e sha l)).
Proof.
  intros He. induction 1 as [|it l Hi Hl IH]; cbn [look]; [split; [constructor|reflexivity]|]. destruct (open_keeps e it He Hi) as [H1 H2]. destruct (open_index e it) as [r it']. cbn [snd] in *.
  destruct (let! ix := r in let! i := sha_to_index ix sha in Ok (ix, i)) as [[ix [i|]]|x|]; [|destruct (look e sha l); now apply keeps_cons|now apply keeps_tail..].
  cbn [snd]. apply keeps_tail; [|easy|easy]. destruct H1. now split.
Qed.
Lemma each_keeps {A} e (f : pidx -> res A) l : byte_files e -> Forall item_ok l -> keeps l (snd (each_index e f l)).
Proof.
  intros He. induction 1 as [|it l Hi Hl IH]; cbn [each_index]; [split; [constructor|reflexivity]|]. destruct (open_keeps e it He Hi) as [H1 H2]. destruct (open_index e it) as [r it']. cbn [snd] in *.
  destruct (let! ix := r in f ix) as [a|x|]; [destruct (each_index e f l); now apply keeps_cons|now apply keeps_tail..].
Qed.
Lemma partial_keeps e p n l : byte_files e -> Forall item_ok l -> forall c, keeps l (snd (partial_scan e p n l c)).
Proof.
  intros He. induction 1 as [|it l Hi Hl IH]; intros c; cbn [partial_scan]; [split; [constructor|reflexivity]|]. destruct (open_keeps e it He Hi) as [H1 H2]. destruct (open_index e it) as [r it']. cbn [snd] in *.
  destruct (bind r _) as [c'|x|]; [|now apply keeps_tail..]. specialize (IH c'). destruct (partial_scan e p n l c') as [r' l']. now apply keeps_cons.
Qed.
Lemma keeps_inv l l' h t h' t' : keeps l l' -> inv (mk_pdb (Some l) h t) -> inv (mk_pdb (Some l') h' t').
Proof. intros [H1 H2] [H3 H4]. unfold inv. cbn [p_entities]. now rewrite H2. Qed.
Lemma refresh_inv e d l r l' h t h' t' : proper_env e d -> refresh e d l = (r, l') -> inv (mk_pdb (Some l) h t) -> inv (mk_pdb (Some l') h' t').
Proof.
  intros He Hr [Hn Hi]. destruct (refresh_ok e d l r l' He Hn Hr) as (H1 & H2 & _). split; [easy|]. cbn [p_entities] in *. rewrite Forall_forall in *. intros it Hit.
  destruct (H2 it Hit) as [H|(H3 & _ & H4 & _)]; [now apply Hi|]. split; [apply H3|]. now rewrite H4.
Qed.
Lemma inv_empty h t : inv (mk_pdb (Some []) h t).
Proof. split; constructor. Qed.
Lemma load_inv o s : proper_call o -> inv s -> inv (snd (load (op_env o) s)) /\ (forall l, fst (load (op_env o) s) = Ok l -> p_entities (snd (load (op_env o) s)) = Some l).
Proof.
  intros Ho Hs. unfold load. destruct (p_entities s) as [l|] eqn:E; [cbn [fst snd]; split; [easy|congruence]|]. destruct Ho as [->|(d & Hd & _)]; [split; [apply inv_empty|easy]|].
  destruct Hd as (Hd1 & Hd). rewrite Hd1. destruct (refresh (op_env o) d []) as [r l] eqn:Er.
  assert (H : inv (mk_pdb (Some l) (p_hit_count s) (d_mtime d))) by (apply (refresh_inv (op_env o) d [] r l 0 0); [now split|easy|apply inv_empty]).
  destruct r; (split; [exact H|]); cbn [fst snd p_entities]; congruence.
Qed.
Section Histories.
  Variable K : zlib.
  Lemma do_inv o s : proper_call o -> inv s -> inv (snd (do_op K o s)).
  Proof.
    intros Ho Hs. pose proof (proper_bytes o Ho) as Hb. destruct (load_inv o s Ho Hs) as [H1 H2].
    destruct o as [e q|e force]; cbn [op_env] in *.
    - assert (Hinfo : forall sha, inv (snd (pack_info e sha s))).
      { intros sha. unfold pack_info. destruct (load e s) as [[l|x|] s1] eqn:El; cbn [fst snd] in *; [|easy..]. specialize (H2 l eq_refl).
        assert (H3 : inv (mk_pdb (Some (if p_hit_count s1 mod sort_interval =? 0 then sort_items l else l)) 0 0)).
        { unfold inv in *. rewrite H2 in H1. cbn [p_entities]. destruct (_ =? 0); [|easy]. destruct H1 as [H1 H3]. split.
          - apply (Permutation_NoDup (Permutation_map it_name (Permutation_sym (sort_perm l)))). exact H1.
          - apply (Permutation_Forall (Permutation_sym (sort_perm l))). exact H3. }
        pose proof (look_keeps e sha _ Hb (proj2 H3)) as Hk. destruct (look e sha _) as [[[p|]|x|] l']; cbn [snd] in *; exact (keeps_inv _ _ _ _ _ _ Hk H3). }
      assert (Hon : forall A (f : pidx -> res A), inv (snd (on_indices e f s))).
      { intros A f. unfold on_indices. destruct (load e s) as [[l|x|] s1] eqn:El; cbn [fst snd] in *; [|easy..]. specialize (H2 l eq_refl). unfold inv in H1. rewrite H2 in H1.
        pose proof (each_keeps e f l Hb (proj2 H1)) as Hk. destruct (each_index e f l) as [r l']. exact (keeps_inv l l' 0 0 _ _ Hk H1). }
      destruct q as [sha|fuel sha|fuel sha| | |p n|]; cbn [do_op tag snd].
      + unfold has_object. specialize (Hinfo sha). destruct (pack_info e sha s) as [[p|x|] s']; [easy| |easy]. now destruct x.
      + unfold info. specialize (Hinfo sha). now destruct (pack_info e sha s).
      + unfold stream. specialize (Hinfo sha). now destruct (pack_info e sha s).
      + unfold sha_iter. specialize (Hon _ index_shas). now destruct (on_indices e index_shas s).
      + unfold size. specialize (Hon _ ix_size). now destruct (on_indices e ix_size s).
      + unfold partial_to_complete_sha. destruct (load e s) as [[l|x|] s1] eqn:El; cbn [fst snd] in *; [|easy..]. specialize (H2 l eq_refl). unfold inv in H1. rewrite H2 in H1.
        pose proof (partial_keeps e p n l Hb (proj2 H1) None) as Hk. destruct (partial_scan e p n l None) as [r l']. exact (keeps_inv l l' 0 0 _ _ Hk H1).
      + exact H1.
    - cbn [do_op tag snd]. unfold update_cache. destruct (e_dir e) as [d|] eqn:Ed; [|easy]. destruct Ho as [Ho|(d' & Hd & Hr)]; [cbn [op_env] in Ho; congruence|]. cbn [op_env] in Hd. assert (d' = d) as -> by (destruct Hd; congruence).
      destruct (negb force && (d_mtime d <=? p_mtime s)); [easy|].
      destruct (load_inv (Update e force) (mk_pdb (p_entities s) (p_hit_count s) (d_mtime d))) as [H3 H4]; [right; now exists d|easy|]. cbn [op_env] in *.
      destruct (load e (mk_pdb (p_entities s) (p_hit_count s) (d_mtime d))) as [[l|x|] s1]; cbn [fst snd] in *; [|easy..]. specialize (H4 l eq_refl).
      destruct (refresh e d l) as [r l'] eqn:Er. cbn [snd]. apply (refresh_inv e d l r l' 0 0 _ _ Hd Er). unfold inv in *. now rewrite H4 in H3.
  Qed.
  Lemma run_inv ops : forall s, Forall proper_call ops -> inv s -> inv (snd (run_ops K ops s)).
  Proof.
    induction ops as [|o ops IH]; intros s Ho Hs; cbn [run_ops]; [easy|]. inversion Ho; subst. pose proof (do_inv o s ltac:(easy) Hs) as H. destruct (do_op K o s) as [a s1]. cbn [snd] in H.
    specialize (IH s1 ltac:(easy) H). now destruct (run_ops K ops s1).
  Qed.

  (** ** First use *)
  Lemma load_raises e q s x : fst (load e s) = Raise x -> x <> BadObject -> raised (fst (do_op K (Query e q) s)) = Some x.
  Proof.
    intros Hl Hx. destruct q as [sha|fuel sha|fuel sha| | |p n|]; cbn [do_op tag fst raised];
      unfold has_object, info, stream, sha_iter, size, partial_to_complete_sha, pack_info, on_indices, entities; (destruct (load e s) as [[l|y|] s1]; cbn [fst] in *; [easy| |easy]); injection Hl as ->; cbn [bind fst]; try reflexivity.
    now destruct x.
  Qed.
  Lemma missing e s o : e_dir e = None -> p_entities s = None -> op_env o = e -> raised (fst (do_op K o s)) = Some FileNotFound.
  Proof.
    intros He Hs Ho. destruct o as [e' q|e' force]; cbn [op_env] in Ho; subst e'; [|cbn [do_op tag fst raised]; unfold update_cache; now rewrite He].
    apply load_raises; [|easy]. unfold load. now rewrite Hs, He.
  Qed.
  Lemma loading e d s : proper_env e d -> readable_dir d -> p_entities s = None ->
    (exists x n, packs_in d n /\ file_fails bad_pack d n x /\
       forall o, op_env o = e -> match o with Query _ _ => True | Update _ force => force = true end -> raised (fst (do_op K o s)) = Some x) \/
    ((forall n y, packs_in d n -> ~ file_fails bad_pack d n y) /\ exists l, fst (load e s) = Ok l).
  Proof.
    intros He Hr Hs. destruct (refresh_cases e d He Hr [] (NoDup_nil _)) as [(x & n & l' & H1 & (H2 & _ & H3) & H4)|(l' & H1 & H2)].
    - left. exists x, n. split; [easy|]. split; [easy|]. intros o Ho Hf. destruct He as (He & _). destruct o as [e' q|e' force]; cbn [op_env] in Ho; subst e'.
      + apply load_raises; [|easy]. unfold load. now rewrite Hs, He, H1.
      + subst force. cbn [do_op tag fst raised]. unfold update_cache, load. cbn [p_entities]. rewrite He, Hs, H1. reflexivity.
    - right. split.
      + intros n y Hn Hf. now apply (H2 n y).
      + exists l'. destruct He as (He & _). unfold load. now rewrite Hs, He, H1.
  Qed.
  Lemma updating e d s l : proper_env e d -> readable_dir d -> inv s -> p_entities s = Some l ->
    (exists x n, packs_in d n /\ ~ In n (map it_name l) /\ file_fails bad_pack d n x /\ fst (update_cache e true s) = Raise x) \/
    ((forall n y, packs_in d n -> ~ In n (map it_name l) -> ~ file_fails bad_pack d n y) /\ fst (update_cache e true s) = Ok true).
  Proof.
    intros He Hr Hi Hs. unfold inv in Hi. rewrite Hs in Hi. unfold update_cache, load. cbn [p_entities]. rewrite Hs. destruct (refresh_cases e d He Hr l (proj1 Hi)) as [(x & n & l' & H1 & (H2 & H3 & H4) & _)|(l' & H1 & H2)];
      destruct He as (He & _); rewrite He; cbn [negb andb]; rewrite H1; cbn [fst].
    - left. now exists x, n.
    - right. split; [|easy]. intros n y Hn1 Hn2 Hf. now apply (H2 n y).
  Qed.
  (** ** Known packs *)
  Lemma indices e d s l : proper_env e d -> readable_dir d -> inv s -> p_entities s = Some l ->
    (exists x it y jt, In it l /\ index_fails d it x /\ In jt l /\ index_fails d jt y /\ fst (sha_iter e s) = Raise x /\ fst (size e s) = Raise y) \/
    ((forall it y, In it l -> ~ index_fails d it y) /\ (exists r, fst (sha_iter e s) = Ok r) /\ exists n, fst (size e s) = Ok n).
  Proof.
    intros He Hr Hi Hs. unfold inv in Hi. rewrite Hs in Hi. unfold sha_iter, size, on_indices, load. rewrite Hs.
    assert (Hsz : forall ix, length (ix_fanout ix) = 256%nat -> exists n, ix_size ix = Ok n) by (intros ix H; unfold ix_size; apply index_in; unfold len; lia).
    destruct (each_cases e d He Hr index_shas l) as [_ H1]; [|easy|].
    { intros ix H. unfold index_shas. destruct (Hsz ix H) as (n & ->). now eexists. }
    destruct (each_cases e d He Hr ix_size l Hsz) as [_ H2]; [easy|]. destruct (each_index e index_shas l) as [r1 l1], (each_index e ix_size l) as [r2 l2]. cbn [fst] in *.
    destruct H1 as [(x & it & -> & H3 & H4)|(r & -> & H3)], H2 as [(y & jt & -> & H5 & H6)|(r' & -> & H5)]; cbn [bind].
    - left. now exists x, it, y, jt.
    - now apply H5 in H4.
    - now apply H3 in H6.
    - right. split; [easy|]. split; now eexists.
  Qed.
  Lemma lookups e d s l sha x : proper_env e d -> readable_dir d -> inv s -> p_entities s = Some l -> sha_ok sha ->
    (fst (has_object e sha s) = Raise x -> exists it, In it l /\ index_fails d it x) /\
    (fst (pack_info e sha s) = Raise x -> x = BadObject \/ exists it, In it l /\ index_fails d it x) /\
    fst (has_object e sha s) <> Diverge.
  Proof.
    intros He Hr Hi Hs Hsha. unfold inv in Hi. rewrite Hs in Hi. unfold has_object, pack_info, load. rewrite Hs. set (l2 := if p_hit_count s mod sort_interval =? 0 then sort_items l else l).
    assert (Hp : Permutation l2 l) by (unfold l2; destruct (_ =? 0); [apply sort_perm|easy]).
    destruct (look_cases e d He Hr sha l2 Hsha) as [_ Hc]; [apply (Permutation_Forall (Permutation_sym Hp)); apply Hi|].
    destruct (look e sha l2) as [r l']. cbn [fst] in Hc. destruct Hc as [(y & it & -> & H1 & H2)|([o|] & ->)]; cbn [fst].
    - apply (Permutation_in _ Hp) in H1. split; [|split].
      + intros H. assert (y = x) as <-; [|now exists it]. destruct y; try discriminate H; now injection H as <-.
      + intros [= <-]. right. now exists it.
      + now destruct y.
    - split; [easy|]. split; easy.
    - split; [easy|]. split; [|easy]. intros [= <-]. now left.
  Qed.
End Histories.

(** ** A damaged pack looked at first *)
Definition first_of (n : bytes) (l : list bytes) : list bytes := filter (beq n) l ++ filter (fun m => negb (beq n m)) l.
Lemma first_of_perm n l : Permutation (first_of n l) l.
Proof.
  unfold first_of. induction l as [|m l IH]; [constructor|]. cbn [filter]. destruct (beq n m); cbn [negb app]; [now constructor|].
  rewrite <- Permutation_middle. now constructor.
Qed.
Lemma first_of_head n l : In n l -> exists t, first_of n l = n :: t.
Proof.
  intros H. unfold first_of. assert (H' : In n (filter (beq n) l)) by (apply filter_In; split; [easy|now apply beq_eq]).
  destruct (filter (beq n) l) as [|m t] eqn:E; [easy|]. assert (Hm : In m (filter (beq n) l)) by (rewrite E; now left). apply filter_In in Hm as [_ Hm]. apply beq_eq in Hm as <-. now exists (t ++ filter (fun m => negb (beq n m)) l).
Qed.
Lemma damaged_first d n x : NoDup (map fst (d_files d)) -> readable_dir d -> packs_in d n -> file_fails bad_pack d n x ->
  exists e, proper_env e d /\ forall (K : zlib) (sha : bytes),
    fst (run_ops K [Query e (QHas sha); Query e (QHas sha); Query e QSize; Update e false; Query e QIter] packed_init) =
    [AHas (Raise x); AHas (Ok false); ASize (Ok 0); AUpdate (Ok false); AIter (Ok [])].
Proof.
  intros Hd Hr Hn Hx. exists (mk_env (Some d) (first_of n)). set (e := mk_env (Some d) (first_of n)).
  assert (He : proper_env e d) by (split; [easy|]; split; [easy|]; intros l; apply first_of_perm). split; [exact He|]. intros K sha.
  assert (Hbad : x <> BadObject /\ (let! c := map_file e n in let! (_, size) := pack_open c in Ok (mk_item size n c None)) = Raise x).
  { destruct (file_cases e d n He Hr) as [(y & -> & Hy & Hf)|(c & -> & Hc & Hne & Hf)]; cbn [bind].
    - apply Hf in Hx as ->. now split.
    - apply Hf in Hx. pose proof Hx as Hp. apply pack_bad in Hp; [|easy]. rewrite Hp. split; [|reflexivity]. destruct Hx as [[_ ->]|(_ & _ & ->)]; easy. }
  destruct Hbad as [Hb Hbad]. assert (Hl : load e packed_init = (Raise x, mk_pdb (Some []) 0 (d_mtime d))).
  { unfold load, packed_init. cbn [p_entities p_hit_count e e_dir]. unfold refresh. cbn [map dedup].
    assert (Hg : filter (fun m => negb (mem m [])) (glob_packs d) = glob_packs d) by (clear; induction (glob_packs d) as [|m l IH]; [easy|]; cbn [filter]; change (negb (mem m [])) with true; cbn iota; now rewrite IH).
    rewrite Hg. cbn [e_order e]. apply glob_in in Hn. destruct (first_of_head n _ Hn) as (t & ->). cbn [add_packs]. now rewrite Hbad. }
  cbn [run_ops do_op]. unfold has_object at 1, pack_info at 1. rewrite Hl. destruct x; try (now elim Hb);
    cbn [tag fst snd]; unfold has_object, pack_info, size, sha_iter, on_indices, load, update_cache; cbn [p_entities p_hit_count p_mtime];
    change (0 mod sort_interval =? 0) with true; cbn [sort_items look tag fst snd p_entities p_hit_count p_mtime each_index bind fold_left e e_dir negb andb];
    rewrite Z.leb_refl; reflexivity.
Qed.
