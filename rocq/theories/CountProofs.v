(** Proofs about compressed_bytes_read and later reads. *)
From Coq Require Import ZifyBool ZifyNat.
From Verif Require Import Py PyFacts FunModel FunSpec FunProofs ZlibModel ZlibProofs ReaderModel StreamSpec ReaderProofs ClosedModel ClosedSpec ClosedProofs CountModel.
Ltac Zify.zify_post_hook ::= Z.div_mod_to_equations.

Section Count.
  Context {K : zlib} (pagesize : Z).

  (** Reads leave the size alone. *)
  Lemma inflate_size (r r' : reader K) n out : inflate_some r n = Ok (out, r') -> r_s r' = r_s r.
  Proof.
    unfold inflate_some. destruct (window _ _ _ _) as [ws we]. destruct (n <? 0); [discriminate|]. intros H.
    apply bind_ok_inv in H as ([o zip] & _ & H). now injection H as _ <-.
  Qed.
  Lemma read_size : forall f,
    (forall s (r : reader K) n out r', read_s f s r n = Ok (out, r') -> r_s r' = r_s r) /\
    (forall s (r : reader K) dat n out r', read_rest f s r dat n = Ok (out, r') -> r_s r' = r_s r).
  Proof.
    induction f as [|f [IHs IHr]]; [split; discriminate|]. split.
    - intros s r n out r'. rewrite read_s_S. cbv zeta. destruct (_ =? 0); [intros H; now injection H as _ <-|].
      destruct (r_buf r) as [b|]; [|apply IHr]. destruct (_ <=? _).
      + destruct (bio_read b _) as [d b']. intros H. now injection H as _ <-.
      + intros H. apply IHr in H. exact H.
    - intros s r dat n out r'. rewrite read_rest_S. intros H. apply bind_ok_inv in H as ([o r1] & H1 & H).
      apply inflate_size in H1. destruct (_ && _).
      + apply bind_ok_inv in H as ([o2 r2] & H2 & H). injection H as _ <-. apply IHs in H2. congruence.
      + now injection H as _ <-.
  Qed.
  Lemma get_size f (r r1 : reader K) s : get_s f r = Ok (s, r1) -> r_s r1 = Some s /\ (r_s r = Some s /\ r1 = r \/ r_s r = None /\ r_br r1 = 0).
  Proof.
    unfold get_s. destruct (r_s r) as [x|] eqn:E; [intros H; injection H as <- <-; now split; [|left]|].
    intros H. apply bind_ok_inv in H as ([[t x] r2] & H1 & H). injection H as <- <-. unfold parse_header_info in H1.
    apply bind_ok_inv in H1 as ([h r3] & _ & H1). apply bind_ok_inv in H1 as ([t' x'] & _ & H1). injection H1 as <- <- <-. split; [easy|now right].
  Qed.
  Lemma scrub_size inner s : forall f (r r' : reader K), r_s r = Some s -> while f (scrub_step pagesize inner) r = Ok r' -> r_s r' = Some s.
  Proof.
    induction f as [|f IH]; intros r r' Hs H; [discriminate|]. cbn [while] in H.
    destruct (scrub_step pagesize inner r) as [[r1|r1]| |] eqn:E; try discriminate; unfold scrub_step in E.
    - destruct (_ && _); [|discriminate]. apply bind_ok_inv in E as ([o r2] & E & E2). injection E2 as ->.
      apply (IH r1); [|exact H]. unfold read, get_s in E. rewrite Hs in E. cbn [bind] in E. apply (read_size inner) in E. congruence.
    - destruct (_ && _); [now apply bind_ok_inv in E as ([o r2] & E & E2)|]. injection E as <-. now injection H as <-.
  Qed.

  (** A stream at its end. *)
  Definition ended (r : reader K) : Prop := exists s, r_s r = Some s /\ r_br r = s.
  Lemma ended_outcomes f ns : forall o : ostream K, ended (o_reader o) -> outcomes (S f) o (map Read ns) = map (fun _ => Ok []) ns.
  Proof.
    induction ns as [|n ns IH]; intros o (s & Hs & Hb); [easy|]. cbn [map outcomes]. unfold ostream_read.
    assert (E0 : (if n <? 1 then s - r_br (o_reader o) else Z.min n (s - r_br (o_reader o))) =? 0 = true) by (rewrite Hb; destruct (Z.ltb_spec n 1); lia).
    destruct (o_open o).
    - unfold read, get_s. rewrite Hs. cbn [bind]. rewrite read_s_S. cbv zeta. rewrite E0. f_equal. apply IH. now exists s.
    - unfold read_closed, closed_s. rewrite Hs. cbv zeta. rewrite E0. f_equal. apply IH. now exists s.
  Qed.

  (** The number of bytes, or the state in which the next read finds the stream. *)
  Lemma count_open f (r : reader K) n r' : compressed_bytes_read pagesize f r = Ok (n, r') ->
    exists s r1, get_s f r = Ok (s, r1) /\ (r' = r1 \/ ended r1 /\ ended r').
  Proof.
    unfold compressed_bytes_read. intros H. apply bind_ok_inv in H as ([s r1] & H1 & H). exists s, r1. split; [exact H1|].
    apply get_size in H1 as (Hs & _). destruct (Z.eqb_spec (r_br r1) s) as [Hb|Hb]; cbn [andb] in H; [|left; now injection H as _ <-].
    destruct (_ =? 0); [|left; now injection H as _ <-]. right. split; [now exists s|].
    apply bind_ok_inv in H as (r2 & H2 & H). apply (scrub_size f s) in H2; [|exact Hs]. unfold get_s in H. rewrite H2 in H. cbn [bind] in H.
    injection H as _ <-. now exists s.
  Qed.
  (** Loading the size first makes no difference to reads. *)
  Lemma loaded_outcomes f (r r1 : reader K) s fl cl ns : get_s f r = Ok (s, r1) ->
    outcomes f (mk_ostream r1 fl cl true) (map Read ns) = outcomes f (mk_ostream r fl cl true) (map Read ns).
  Proof.
    intros H. induction ns as [|n ns IH]; [easy|]. cbn [map outcomes]. unfold ostream_read. cbn [o_open o_reader o_flag o_closable].
    assert (E : read f r1 n = read f r n).
    { unfold read. rewrite H. destruct (get_size _ _ _ _ H) as (Hs & _). unfold get_s. now rewrite Hs. }
    rewrite E. destruct (read f r n) as [[d r2]|e|]; [easy|now rewrite IH|now rewrite IH].
  Qed.
  Lemma closed_loaded f (r r1 : reader K) s fl cl ns : r_s r = None -> closed_header r = (Ok s, r1) ->
    r_s r1 = Some s /\ outcomes f (mk_ostream r1 fl cl false) (map Read ns) = outcomes f (mk_ostream r fl cl false) (map Read ns).
  Proof.
    intros Hn H. assert (Hs : r_s r1 = Some s) by (destruct (closed_header_open _ _ _ 0%nat H) as (t & E);
      assert (G : get_s 1 r = Ok (s, r1)) by (unfold get_s; rewrite Hn, E; easy); now apply get_size in G).
    split; [exact Hs|]. destruct ns as [|n ns]; [easy|]. cbn [map outcomes]. unfold ostream_read. cbn [o_open o_reader o_flag o_closable].
    unfold read_closed. rewrite Hn, H, Hs. easy.
  Qed.
  Lemma count_reads f f' (o o' : ostream K) n ns : (f <= f')%nat -> ostream_count pagesize f o = (Ok n, o') ->
    outcomes (S f') o' (map Read ns) = outcomes (S f') o (map Read ns).
  Proof.
    intros Hf. destruct o as [r fl cl op]. unfold ostream_count. cbn [o_open o_reader o_flag o_closable]. destruct op.
    - destruct (compressed_bytes_read pagesize f r) as [[m r']|e|] eqn:E; try discriminate. intros H. injection H as _ <-.
      destruct (count_open _ _ _ _ E) as (s & r1 & Hg & Hr). apply (get_s_mono f (S f')) in Hg; [|lia].
      rewrite <- (loaded_outcomes (S f') r r1 s fl cl ns Hg). destruct Hr as [-> |[H1 H2]]; [easy|]. now rewrite !ended_outcomes.
    - destruct (count_closed r) as [v r'] eqn:E. intros H. injection H as -> <-. unfold count_closed in E. destruct (r_s r) as [s|] eqn:Hs.
      + unfold count_closed_s in E. destruct (_ && _); [discriminate|]. now injection E as _ <-.
      + destruct (closed_header r) as [[s|e|] r1] eqn:Eh; try discriminate. destruct (closed_loaded (S f') r r1 s fl cl ns Hs Eh) as (_ & <-).
        unfold count_closed_s in E. destruct (_ && _); [discriminate|]. now injection E as _ <-.
  Qed.

  (** Closed, at the end. *)
  Lemma count_dead f f' (o : ostream K) s ns : o_open o = false -> r_s (o_reader o) = Some s -> r_br (o_reader o) = s -> 0 < s ->
    zs_unused K (r_zip (o_reader o)) = [] -> r_buflen (o_reader o) = 0 ->
    fst (ostream_count pagesize f o) = Raise ValueError /\
    outcomes (S f') (snd (ostream_count pagesize f o)) (map Read ns) = map (fun _ => Raise ValueError) ns.
  Proof.
    destruct o as [r fl cl op]. cbn [o_open o_reader]. intros -> Hs Hb H0 Hu Hl. unfold ostream_count. cbn [o_open o_reader o_flag o_closable].
    unfold count_closed, count_closed_s. rewrite Hs, Hb, Z.eqb_refl, Hu. cbn [len length andb Z.of_nat Z.eqb]. cbn [fst snd]. split; [reflexivity|].
    destruct ns as [|n ns]; [easy|]. cbn [map outcomes]. unfold ostream_read. cbn [o_open o_reader o_flag o_closable].
    unfold read_closed, closed_s. cbn [with_buf r_s r_br r_buf r_buflen]. rewrite Hs, Hl. cbv zeta. rewrite Z.sub_0_r.
    set (q := if n <? 1 then s else Z.min n s). assert (Hq : 0 < q) by (unfold q; destruct (Z.ltb_spec n 1); lia).
    replace (q =? 0) with false by lia. replace (q <=? 0) with false by lia.
    assert (Hg : forall r' : reader K, dead r' -> outcomes (S f') (mk_ostream r' fl cl false) (map Read ns) = map (fun _ => Raise ValueError) ns).
    { intros r' Hd. rewrite dead_gone by easy. unfold gone. now rewrite map_map. }
    destruct (r_buf r) as [b|] eqn:Eb; f_equal; apply Hg; (split; [easy|]); cbn; rewrite ?Hs; (split; [lia|lia]).
  Qed.
End Count.

(** ** Rewinds too *)
Section Rewinds.
  Context {K : zlib} (pagesize : Z).
  Definition blank (r : reader K) : Prop := (r_buf r = None \/ r_buf r = Some []) /\ r_buflen r = 0.
  (** The same but for an empty buffer in place of none. *)
  Definition twins (a b : reader K) : Prop :=
    blank a /\ blank b /\ (match r_s a with Some s => 0 <= s /\ r_br a <= s | None => r_br a = 0 end) /\
    with_buf a None 0 (r_br a) = with_buf b None 0 (r_br b).
  Lemma twins_same a b : twins a b -> r_s a = r_s b /\ r_br a = r_br b /\ r_phi a = r_phi b /\ r_m a = r_m b.
  Proof. intros (_ & _ & _ & H). unfold with_buf in H. now injection H as -> _ -> -> _ _ _ ->. Qed.
  Lemma blank_read f s (r : reader K) n : blank r -> 0 < n -> 0 < s - r_br r ->
    read_s (S f) s r n = read_rest f s (with_buf r None 0 (r_br r)) [] (Z.min n (s - r_br r)).
  Proof.
    intros (Hb & Hl) Hn Hs. rewrite read_s_S. cbv zeta. replace (n <? 1) with false by lia. replace (_ =? 0) with false by lia.
    destruct Hb as [Hb|Hb]; rewrite Hb.
    - f_equal. destruct r. cbn in *. now subst.
    - rewrite Hl. replace (_ <=? 0) with false by lia. now rewrite Z.add_0_r, Z.sub_0_r.
  Qed.
  Definition alike (x y : res (bytes * reader K)) : Prop :=
    match x, y with Ok (d, a), Ok (d', b) => d = d' /\ (a = b \/ twins a b) | Raise e, Raise e' => e = e' | Diverge, Diverge => True | _, _ => False end.
  Lemma alike_refl x : alike x x.
  Proof. destruct x as [[d r]| |]; cbn; auto. Qed.
  Lemma read_s_twins f s a b n : twins a b -> r_s a = Some s -> alike (read_s f s a n) (read_s f s b n).
  Proof.
    intros H Hs. destruct f as [|f]; [now apply alike_refl|]. pose proof (twins_same _ _ H) as (_ & Hbr & _). pose proof H as (Ha & Hb & Hc & He). rewrite Hs in Hc.
    assert (Hcase : r_br a = s \/ 0 < s - r_br a) by lia. destruct Hcase as [E|E].
    - rewrite !read_s_S. cbv zeta. rewrite <- Hbr. replace (_ =? 0) with true by (destruct (Z.ltb_spec n 1); lia). cbn. split; [easy|now right].
    - assert (En : exists m, 0 < m /\ forall r : reader K, r_br r = r_br a -> read_s (S f) s r n = read_s (S f) s r m).
      { exists (if n <? 1 then s - r_br a else n). split; [destruct (Z.ltb_spec n 1); lia|]. intros r Hr. destruct (Z.ltb_spec n 1) as [Hn|Hn]; [|easy]. rewrite !read_s_S. cbv zeta. rewrite Hr.
        replace (n <? 1) with true by lia. replace (s - r_br a <? 1) with false by lia. now rewrite Z.min_id. }
      destruct En as (m & Hm & En). rewrite (En a), (En b), (blank_read f s a m Ha), (blank_read f s b m Hb) by (easy || lia). rewrite He, Hbr. apply alike_refl.
  Qed.
  Lemma read_twins f a b n : twins a b -> alike (read f a n) (read f b n).
  Proof.
    intros H. pose proof (twins_same _ _ H) as (Hs & Hbr & Hphi & Hm). unfold read, get_s. rewrite <- Hs. destruct (r_s a) as [s|] eqn:E; [cbn [bind]; now apply read_s_twins|].
    unfold parse_header_info. pose proof H as (Ha & Hb & Hc & He). rewrite E in Hc.
    match goal with |- context [read_s f 8192 ?x 8192] => set (a' := x) end.
    match goal with |- alike _ (bind (bind (bind (read_s f 8192 ?x 8192) _) _) _) => set (b' := x) end.
    assert (Eq : f = O \/ read_s f 8192 a' 8192 = read_s f 8192 b' 8192).
    { destruct f as [|f]; [now left|right]. rewrite (blank_read f 8192 a' 8192), (blank_read f 8192 b' 8192); [|exact Hb|lia|change (r_br b') with (r_br b); lia|exact Ha|lia|change (r_br a') with (r_br a); lia].
      unfold a', b', with_buf in *. cbn. injection He as -> -> _ Hx -> -> -> ->. now rewrite Hx. }
    destruct Eq as [-> | ->]; [cbn; easy|apply alike_refl].
  Qed.
  Lemma rewind_twins a b : twins a b -> twins (rewind a) (rewind b).
  Proof.
    intros (Ha & Hb & Hc & He). unfold with_buf in He. injection He as Hm _ Hs _ _ _ _ Hp. split; [exact Ha|]. split; [exact Hb|].
    unfold rewind, with_buf. cbn. split; [destruct (r_phi a); [easy|]; destruct (r_s a); [lia|easy]|]. now rewrite Hm, Hs, Hp.
  Qed.
  Lemma twins_outcomes f ops : forall (a b : reader K) fl cl, twins a b -> outcomes f (mk_ostream a fl cl true) ops = outcomes f (mk_ostream b fl cl true) ops.
  Proof.
    induction ops as [|[n|] ops IH]; intros a b fl cl H; cbn [outcomes]; [easy| |].
    - unfold ostream_read. cbn [o_open o_reader o_flag o_closable]. pose proof (read_twins f a b n H) as Hr.
      destruct (read f a n) as [[d a']|e|], (read f b n) as [[d' b']|e'|]; cbn in Hr; try easy.
      + destruct Hr as [<- [-> |Ht]]; [easy|]. f_equal. now apply IH.
      + rewrite Hr. f_equal. now apply IH.
      + f_equal. now apply IH.
    - unfold ostream_rewind. cbn [o_open o_reader o_flag o_closable]. f_equal. apply IH. now apply rewind_twins.
  Qed.

  (** Two streams at the end of the same content. *)
  Definition both_ended (a b : reader K) : Prop :=
    blank a /\ blank b /\ r_m a = r_m b /\ r_phi a = r_phi b /\ exists s, 0 <= s /\ r_s a = Some s /\ r_s b = Some s /\ r_br a = s /\ r_br b = s.
  Lemma both_outcomes f ops : forall (a b : reader K) fl cl, both_ended a b -> outcomes (S f) (mk_ostream a fl cl true) ops = outcomes (S f) (mk_ostream b fl cl true) ops.
  Proof.
    induction ops as [|[n|] ops IH]; intros a b fl cl H; cbn [outcomes]; [easy| |].
    - unfold ostream_read. cbn [o_open o_reader o_flag o_closable]. pose proof H as (_ & _ & _ & _ & s & _ & Ha & Hb & Ea & Eb).
      unfold read, get_s. rewrite Ha, Hb. cbn [bind]. rewrite !read_s_S. cbv zeta. rewrite Ea, Eb. replace (_ =? 0) with true by (destruct (Z.ltb_spec n 1); lia).
      f_equal. now apply IH.
    - unfold ostream_rewind. cbn [o_open o_reader o_flag o_closable]. f_equal. apply twins_outcomes.
      destruct H as (Ha & Hb & Hm & Hp & s & Hs & Sa & Sb & _). split; [exact Ha|]. split; [exact Hb|]. unfold rewind, with_buf. cbn. rewrite Hm, Hp, Sa, Sb.
      split; [destruct (r_phi b); lia|easy].
  Qed.

  (** What reads leave alone. *)
  Definition stays (r r' : reader K) : Prop := r_m r' = r_m r /\ r_buf r' = None /\ r_buflen r' = r_buflen r /\ r_s r' = r_s r /\ r_phi r' = r_phi r.
  Lemma read_stays : forall f,
    (forall s (r : reader K) n out r', r_buf r = None -> read_s f s r n = Ok (out, r') -> stays r r') /\
    (forall s (r : reader K) dat n out r', r_buf r = None -> read_rest f s r dat n = Ok (out, r') -> stays r r').
  Proof.
    induction f as [|f [IHs IHr]]; [split; discriminate|]. split.
    - intros s r n out r' Hb. rewrite read_s_S. cbv zeta. rewrite Hb. destruct (_ =? 0); [intros H; injection H as _ <-; now repeat split|now apply IHr].
    - intros s r dat n out r' Hb. rewrite read_rest_S. intros H. apply bind_ok_inv in H as ([o r1] & H1 & H).
      assert (Hk : stays r r1).
      { unfold inflate_some in H1. destruct (window _ _ _ _) as [ws we]. destruct (_ <? 0); [discriminate|]. apply bind_ok_inv in H1 as ([o1 zip] & _ & H1). injection H1 as _ <-. now repeat split. }
      destruct (_ && _); [|injection H as _ <-; exact Hk].
      apply bind_ok_inv in H as ([o2 r2] & H2 & H). injection H as _ <-. apply IHs in H2; [|apply Hk]. unfold stays in *. destruct Hk as (? & ? & ? & ? & ?), H2 as (? & ? & ? & ? & ?). repeat split; congruence.
  Qed.
  Lemma scrub_stays inner s : 0 <= s -> forall f (r r' : reader K), blank r -> r_s r = Some s -> (r_buf r = Some [] -> r_br r = 0) ->
    while f (scrub_step pagesize inner) r = Ok r' -> blank r' /\ r_m r' = r_m r /\ r_s r' = Some s /\ r_phi r' = r_phi r.
  Proof.
    intros H0. induction f as [|f IH]; intros r r' Hbl Hs Hz H; [discriminate|]. cbn [while] in H.
    destruct (scrub_step pagesize inner r) as [[r1|r1]| |] eqn:E; try discriminate; unfold scrub_step in E.
    - destruct (_ && _); [|discriminate]. apply bind_ok_inv in E as ([o r2] & E & E2). injection E2 as ->.
      assert (Hk : blank r1 /\ r_m r1 = r_m r /\ r_s r1 = Some s /\ r_phi r1 = r_phi r /\ (r_buf r1 = Some [] -> r_br r1 = 0)).
      { unfold read, get_s in E. rewrite Hs in E. cbn [bind] in E. pose proof Hbl as (Hb & Hl). destruct Hb as [Hb|Hb].
        - apply (read_stays inner) in E as (Hm & Hb1 & Hl1 & Hs1 & Hp); [|exact Hb]. unfold blank. rewrite Hm, Hb1, Hl1, Hs1, Hp. intuition congruence.
        - destruct inner as [|inner]; [discriminate|]. rewrite read_s_S in E. cbv zeta in E. rewrite (Hz Hb), Z.sub_0_r, Hb, Hl in E.
          set (q := if pagesize <? 1 then s else Z.min pagesize s) in E. assert (Hq : 0 <= q) by (unfold q; destruct (Z.ltb_spec pagesize 1); lia).
          destruct (Z.eqb_spec q 0) as [Eq|Eq]; [injection E as _ <-; exact (conj Hbl (conj eq_refl (conj Hs (conj eq_refl Hz))))|]. replace (q <=? 0) with false in E by lia.
          apply (read_stays inner) in E as (Hm & Hb1 & Hl1 & Hs1 & Hp); [|easy]. cbn in *. unfold blank. rewrite Hm, Hb1, Hl1, Hs1, Hp. intuition congruence. }
      destruct Hk as (K1 & K2 & K3 & K4 & K5). destruct (IH r1 r' K1 K3 K5 H) as (A & B & C & D). repeat split; try congruence; apply A.
    - destruct (_ && _); [now apply bind_ok_inv in E as ([o r2] & E & E2)|]. injection E as <-. injection H as <-. repeat split; try easy; apply Hbl.
  Qed.
  Lemma count_all f f' (o o' : ostream K) s n ops : (f <= f')%nat -> r_s (o_reader o) = Some s -> 0 <= s -> (r_br (o_reader o) = s -> blank (o_reader o)) ->
    ostream_count pagesize f o = (Ok n, o') -> outcomes (S f') o' ops = outcomes (S f') o ops.
  Proof.
    intros Hf. destruct o as [r fl cl op]. unfold ostream_count. cbn [o_open o_reader o_flag o_closable]. intros Hs H0 Hbl. destruct op.
    - unfold compressed_bytes_read. unfold get_s at 1. rewrite Hs. cbn [bind]. destruct (Z.eqb_spec (r_br r) s) as [Eb|Eb]; cbn [andb]; [|intros H; now injection H as _ <-].
      destruct (_ =? 0); [|intros H; now injection H as _ <-]. specialize (Hbl Eb).
      destruct (while f _ _) as [r1|e|] eqn:Ew; cbn [bind]; try discriminate.
      destruct (scrub_stays f s H0 f (with_buf r (r_buf r) (r_buflen r) 0) r1 Hbl Hs ltac:(easy) Ew) as (A & B & C & D).
      unfold get_s. rewrite C. cbn [bind]. intros H. injection H as _ <-. apply both_outcomes. cbn in *.
      split; [exact A|]. split; [exact Hbl|]. split; [exact B|]. split; [exact D|]. now exists s.
    - unfold count_closed, count_closed_s. rewrite Hs. destruct (_ && _); [discriminate|]. intros H. now injection H as _ <-.
  Qed.
End Rewinds.
