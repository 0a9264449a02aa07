(** The decompressors of ZlibModel.v and DeflateModel.v end, for all input. *)
From Coq Require Import ZifyBool ZifyNat.
From Verif Require Import Py PyFacts ZlibModel DeflateModel CompressModel StopSpec.
Ltac Zify.zify_post_hook ::= Z.div_mod_to_equations.

Section Automaton.
  Context (S : Type) (feed : S -> Z -> res (S * bytes)) (done direct : S -> bool) (inv : S -> Prop).
  Context (Hfeed : forall st c, inv st -> is_byte c -> feed st c <> Diverge /\ forall st' o, feed st c = Ok (st', o) -> inv st' /\ is_bytes o).
  Lemma a_go_ends : forall inp st pend room, inv st -> is_bytes pend -> is_bytes inp -> 0 <= room ->
    a_go S feed done direct st pend inp room <> Diverge /\
    forall st' p out over, a_go S feed done direct st pend inp room = Ok (st', p, out, over) -> inv st' /\ is_bytes p /\ is_bytes out /\ len out <= room.
  Proof.
    induction inp as [|c inp IH]; intros st pend room Hst Hp Hi Hr.
    all: cbn [a_go]; destruct (room <? len pend) eqn:E;
      [split; [easy|]; intros st' p out over [= <- <- <- <-]; split; [exact Hst|]; split; [unfold slice_from; now apply is_bytes_skipn|]; rewrite slice_to_spec by lia; split; [now apply is_bytes_firstn|]; rewrite len_firstn; lia|].
    - split; [easy|]. intros st' p out over [= <- <- <- <-]. split; [exact Hst|]. split; [constructor|]. split; [exact Hp|lia].
    - destruct (_ || _).
      { split; [easy|]. intros st' p out over [= <- <- <- <-]. split; [exact Hst|]. split; [constructor|]. split; [exact Hp|lia]. }
      inversion Hi as [|? ? Hc Hi']; subst. destruct (Hfeed st c Hst Hc) as (F1 & F2). destruct (feed st c) as [[st1 o]| |]; cbn [bind]; [|easy|easy].
      destruct (F2 st1 o eq_refl) as (F3 & F4). destruct (IH st1 o (room - len pend) F3 F4 Hi') as (I1 & I2); [lia|].
      destruct (a_go S feed done direct st1 o inp (room - len pend)) as [[[[st2 p2] out2] over2]| |]; cbn [bind]; [|easy|easy]. split; [easy|].
      intros st' p out over [= <- <- <- <-]. destruct (I2 _ _ _ _ eq_refl) as (A & B & C & D). split; [exact A|]. split; [exact B|]. split; [now apply Forall_app|]. rewrite len_app. lia.
  Qed.
End Automaton.

(** Symbols are no negative numbers. *)
Definition signs (h : huff) : Prop := Forall (fun s => 0 <= s) (h_symbol h).
Definition goal_fine (g : goal) : Prop :=
  match g with
  | GBlock | GCounts | GClen _ _ _ _ => True
  | GRepeat ch _ _ _ _ => signs ch
  | GLen lit dist _ | GDist lit dist _ _ => signs lit /\ signs dist
  end.
Definition wgoal_fine (g : wgoal) : Prop :=
  match g with WClen ch _ _ _ => signs ch | WLit lit dist | WDist lit dist _ => signs lit /\ signs dist end.
Definition phase_fine (ph : phase) : Prop :=
  match ph with
  | PCollect g _ _ _ => goal_fine g
  | PWalk g _ symbols _ _ _ => wgoal_fine g /\ Forall (fun s => 0 <= s) symbols
  | _ => True
  end.
Definition core_fine (st : core) : Prop := phase_fine (c_ph st) /\ is_bytes (c_hist st).

Lemma upto_signs n : Forall (fun s => 0 <= s) (upto n).
Proof. unfold upto. apply Forall_map, Forall_forall. intros x _. cbn. lia. Qed.
Lemma build_signs lens : signs (build lens).
Proof.
  unfold signs, build. cbn [h_symbol]. apply Forall_flat_map, Forall_forall. intros l _. unfold with_length. apply Forall_map, Forall_forall.
  intros [a b] H. apply filter_In in H as [H _]. apply in_combine_r in H. exact (proj1 (Forall_forall _ _) (upto_signs _) b H).
Qed.
Lemma at_signs l i : Forall (fun s => 0 <= s) l -> 0 <= at_ l i.
Proof. intros H. unfold at_. destruct (nth_in_or_default (Z.to_nat i) l 0) as [Hi|Hi]; [exact (proj1 (Forall_forall _ _) H _ Hi)|lia]. Qed.
Lemma copy_back_bytes : forall n d hist, is_bytes hist -> is_bytes (copy_back n d hist).
Proof.
  induction n as [|n IH]; intros d hist H; cbn [copy_back]; [constructor|].
  assert (is_byte (nth d hist 0)) by (destruct (nth_in_or_default d hist 0) as [Hi|Hi]; [exact (proj1 (Forall_forall _ _) H _ Hi)|rewrite Hi; unfold is_byte; lia]).
  constructor; [easy|]. apply IH. now constructor.
Qed.
Definition step_fine (r : res (bool * phase * bytes)) : Prop :=
  r <> Diverge /\ forall fin ph o, r = Ok (fin, ph, o) -> phase_fine ph /\ is_bytes o.
Lemma step_ok fin ph o : phase_fine ph -> is_bytes o -> step_fine (Ok (fin, ph, o)).
Proof. intros H1 H2. split; [easy|]. now intros ? ? ? [= <- <- <-]. Qed.
Lemma step_raise e : step_fine (Raise e).
Proof. now split. Qed.
Lemma next_clen_fine ch nlen ndist rlens fin : signs ch -> step_fine (let! ph := next_clen ch nlen ndist rlens in Ok (fin, ph, [])).
Proof.
  intros H. unfold next_clen. destruct (_ <? _); cbn [bind]; [apply step_ok; [now split|constructor]|].
  destruct (_ && _); cbn [bind]; [|apply step_raise]. apply step_ok; [|constructor]. cbn. split; [split|]; apply build_signs.
Qed.
Lemma match_out_fine hist n d fin ph : is_bytes hist -> phase_fine ph -> step_fine (let! o := match_out hist n d in Ok (fin, ph, o)).
Proof. intros H1 H2. unfold match_out. destruct (_ <? _); cbn [bind]; [apply step_raise|]. apply step_ok; [exact H2|now apply copy_back_bytes]. Qed.
Lemma arrive_fine g fin hist v : goal_fine g -> is_bytes hist -> step_fine (arrive g fin hist v).
Proof.
  intros Hg Hh. destruct g as [| |nlen ndist todo got|ch nlen ndist rlens sym|lit dist base|lit dist n base]; cbn [arrive].
  - assert (Hf : phase_fine (walk (WLit fixed_lit fixed_dist) fixed_lit)) by (split; [split|]; apply build_signs).
    destruct (v / 2) as [|[p|[p|p|]|]|p]; try apply step_raise; apply step_ok; try exact (Forall_nil _); [exact I|exact I|exact Hf].
  - destruct (_ || _); [apply step_raise|]. apply step_ok; [easy|constructor].
  - destruct (_ <? _); [apply step_ok; [easy|constructor]|]. destruct (usable _ _); [|apply step_raise]. apply next_clen_fine, build_signs.
  - now apply next_clen_fine.
  - apply step_ok; [|constructor]. split; [exact Hg|apply Hg].
  - apply match_out_fine; [exact Hh|]. split; [exact Hg|apply Hg].
Qed.
Lemma symbol_fine g fin hist s : wgoal_fine g -> is_bytes hist -> 0 <= s -> step_fine (symbol g fin hist s).
Proof.
  intros Hg Hh Hs. destruct g as [ch nlen ndist rlens|lit dist|lit dist n]; cbn [symbol].
  - destruct (_ <? _); [now apply next_clen_fine|]. destruct (_ && _); [apply step_raise|]. apply step_ok; [easy|constructor].
  - destruct (s <? 256) eqn:E; [apply step_ok; [split; [exact Hg|apply Hg]|constructor; [unfold is_byte; lia|constructor]]|]. destruct (_ =? _); [apply step_ok; [now destruct fin|constructor]|].
    clear E. destruct (_ <? _); [apply step_raise|]. destruct (at_ length_extra _); (apply step_ok; [|constructor]); [split; [exact Hg|apply Hg]|exact Hg|exact Hg].
  - destruct (_ <? _); [apply step_raise|]. destruct (at_ dist_extra _); [apply match_out_fine; [exact Hh|split; [exact Hg|apply Hg]]| |]; (apply step_ok; [easy|constructor]).
Qed.
Lemma bit_step_fine ph fin hist b : phase_fine ph -> is_bytes hist -> step_fine (bit_step ph fin hist b).
Proof.
  intros Hp Hh. destruct ph as [| |g need weight acc|g [|c counts] symbols code first index| | | |]; cbn [bit_step]; try apply step_raise.
  - destruct (_ <=? _); [now apply arrive_fine|]. apply step_ok; [exact Hp|constructor].
  - destruct Hp as [H1 H2]. destruct (_ <? _); [apply symbol_fine; [exact H1|exact Hh|now apply at_signs]|]. apply step_ok; [now split|constructor].
Qed.
Definition feed_fine (r : res (core * bytes)) : Prop := r <> Diverge /\ forall st o, r = Ok (st, o) -> core_fine st /\ is_bytes o.
Lemma with_out_fine st fin ph o : is_bytes (c_hist st) -> phase_fine ph -> is_bytes o -> core_fine (with_out st fin ph o).
Proof. intros H1 H2 H3. split; [exact H2|]. cbn [with_out c_hist]. rewrite rev_append_rev. apply Forall_app. split; [now apply Forall_rev|exact H1]. Qed.
Lemma bits_step_fine : forall bits st, core_fine st -> feed_fine (bits_step st bits).
Proof.
  induction bits as [|b bits IH]; intros st Hst; cbn [bits_step].
  - split; [easy|]. intros ? ? [= <- <-]. split; [exact Hst|constructor].
  - destruct (bitwise (c_ph st)); [|split; [easy|]; intros ? ? [= <- <-]; split; [exact Hst|constructor]].
    destruct Hst as [H1 H2]. destruct (bit_step_fine (c_ph st) (c_fin st) (c_hist st) b H1 H2) as (B1 & B2).
    destruct (bit_step (c_ph st) (c_fin st) (c_hist st) b) as [[[fin ph] o]| |]; cbn [bind]; [|easy|easy]. destruct (B2 _ _ _ eq_refl) as (B3 & B4).
    destruct (IH (with_out st fin ph o) (with_out_fine _ _ _ _ H2 B3 B4)) as (I1 & I2). destruct (bits_step (with_out st fin ph o) bits) as [[st2 o2]| |]; cbn [bind]; [|easy|easy].
    split; [easy|]. intros ? ? [= <- <-]. destruct (I2 _ _ eq_refl) as (A & B). split; [exact A|now apply Forall_app].
Qed.
Lemma feed_fine_ok st c : core_fine st -> is_byte c -> feed_fine (inflate_feed st c).
Proof.
  intros Hst Hc. pose proof Hst as [H1 H2]. unfold inflate_feed.
  assert (To : forall ph o, phase_fine ph -> is_bytes o -> feed_fine (Ok (with_out st (c_fin st) ph o, o))).
  { intros ph o Hp Ho. split; [easy|]. intros ? ? [= <- <-]. split; [now apply with_out_fine|exact Ho]. }
  assert (Stop : feed_fine (Raise ZlibError)) by now split.
  assert (Hn : phase_fine (next_block (c_fin st))) by now destruct (c_fin st).
  destruct (c_ph st) as [|cmf|g need weight acc|g counts symbols code first index|l|n|l|].
  - apply To; [easy|constructor].
  - destruct (_ && _); [|exact Stop]. apply To; [easy|constructor].
  - now apply bits_step_fine.
  - now apply bits_step_fine.
  - destruct l as [|a [|b [|d [|e l]]]]; try (apply To; [easy|constructor]). destruct (_ =? _); [|exact Stop]. apply To; [|constructor]. unfold after_bytes. now destruct (_ <? _).
  - apply To; [unfold after_bytes; now destruct (_ <? _)|]. constructor; [exact Hc|constructor].
  - destruct l as [|a [|b [|d [|e l]]]]; try (apply To; [easy|constructor]). destruct (beq _ _); [|exact Stop]. apply To; [easy|constructor].
  - exact Stop.
Qed.
Definition inflate_fine (st : astate core) : Prop := core_fine (a_core st) /\ is_bytes (a_pend st).
Lemma with_compressor_inflater comp : inflater (with_compressor comp) inflate_fine.
Proof.
  split; [split; [split; [easy|constructor]|constructor]|]. cbn [zs_decompress with_compressor]. intros st inp n [H1 H2] Hi Hn.
  destruct (a_go_ends core inflate_feed inflate_done inflate_direct core_fine feed_fine_ok inp (a_core st) (a_pend st) n H1 H2 Hi) as (G1 & G2); [lia|].
  unfold a_decompress. destruct (a_go core inflate_feed inflate_done inflate_direct (a_core st) (a_pend st) inp n) as [[[[c p] out] over]| |]; cbn [bind]; [|easy|easy]. split; [easy|].
  destruct (G2 _ _ _ _ eq_refl) as (A & B & C & D). intros ? ? [= <- <-]. split; [|now split]. destruct (inflate_done c); now split.
Qed.
Lemma deflate_inflater : inflater deflate inflate_fine.
Proof. exact (with_compressor_inflater (fun level d => if level =? 0 then s_compress d else fixed_compress d)). Qed.

Lemma s_feed_ends ph ab c : is_byte c -> s_feed ph ab c <> Diverge /\ forall ph' ab' o, s_feed ph ab c = Ok (ph', ab', o) -> is_bytes o /\ len o <= match ph with SCopy _ _ => 1 | _ => 0 end.
Proof.
  intros Hc. destruct ph as [[|a l]|[|a [|b [|d [|e [|g l]]]]]|fin n|[|a [|b [|d [|e l]]]]|]; cbn [s_feed];
    repeat match goal with |- context [if ?b then _ else _] => destruct b end; (split; [easy|]); intros ? ? ? H; try discriminate H; injection H as <- <- <-; (split; [|cbn; lia]); repeat constructor; exact Hc || apply Hc.
Qed.
Lemma s_fast_ends : forall inp ph ab n rout, is_bytes inp -> is_bytes rout -> 0 <= n ->
  s_fast ph ab inp n rout <> Diverge /\ forall ph' ab' out over, s_fast ph ab inp n rout = Ok (ph', ab', out, over) -> is_bytes out /\ len out <= len rout + n.
Proof.
  induction inp as [|c inp IH]; intros ph ab n rout Hi Hr Hn; cbn [s_fast].
  1: split; [easy|]; intros ? ? ? ? [= <- <- <- <-]; unfold rev'; rewrite <- rev_alt, len_rev; split; [now apply Forall_rev|lia].
  inversion Hi as [|? ? Hc Hi']; subst.
  assert (Stop : forall (ph ph' : sphase) (ab ab' : Z * Z) (out over over' : bytes), Ok (ph, ab, rev' rout, over') = Ok (ph', ab', out, over) -> is_bytes out /\ len out <= len rout + n).
  { intros ? ? ? ? ? ? ? [= <- <- <- <-]. unfold rev'. rewrite <- rev_alt, len_rev. split; [now apply Forall_rev|lia]. }
  assert (Go : match ph with SCopy _ _ => 1 | _ => 0 end <= n -> let r := (let! (ph, ab, o) := s_feed ph ab c in s_fast ph ab inp (n - len o) (rev_append o rout)) in
    r <> Diverge /\ forall ph' ab' out over, r = Ok (ph', ab', out, over) -> is_bytes out /\ len out <= len rout + n).
  { intros Hm. cbn zeta. destruct (s_feed_ends ph ab c Hc) as (F1 & F2). destruct (s_feed ph ab c) as [[[ph1 ab1] o]| |]; cbn [bind]; [|easy|easy]. destruct (F2 _ _ _ eq_refl) as (F3 & F4).
    destruct (IH ph1 ab1 (n - len o) (rev_append o rout) Hi') as (I1 & I2); [rewrite rev_append_rev; apply Forall_app; split; [now apply Forall_rev|exact Hr]|lia|].
    split; [exact I1|]. intros ? ? ? ? H. destruct (I2 _ _ _ _ H) as (A & B). split; [exact A|]. rewrite rev_append_rev, len_app, len_rev in B. lia. }
  destruct ph as [l|l|fin m|l|]; try (apply Go; lia).
  - destruct (n <=? 0) eqn:E; [split; [easy|intros; eapply Stop; eassumption]|apply Go; lia].
  - split; [easy|intros; eapply Stop; eassumption].
Qed.
Lemma stored_inflater : inflater stored (fun _ => True).
Proof.
  split; [easy|]. cbn [zs_decompress stored]. intros st inp n _ Hi Hn. unfold s_decompress.
  destruct (s_fast_ends inp (s_ph st) (s_ab st) n [] Hi) as (F1 & F2); [constructor|lia|].
  destruct (s_fast (s_ph st) (s_ab st) inp n []) as [[[[ph ab] out] over]| |]; cbn [bind]; [|easy|easy]. destruct (F2 _ _ _ _ eq_refl) as (A & B). change (len (@nil Z)) with 0 in B.
  split; [now destruct ph|]. intros out' st' H. split; [easy|]. destruct ph; injection H as <- <-; (split; [exact A|lia]).
Qed.
