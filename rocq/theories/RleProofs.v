From Coq Require Import ZifyBool ZifyNat.
From Verif Require Import Py PyFacts ZlibModel RleModel.
Ltac Zify.zify_post_hook ::= Z.div_mod_to_equations.

Lemma rl_at_nonempty ph z d : rl_at ph z d -> ph <> RDone -> z <> [].
Proof. induction 1 as [|z d|c z d|n b z d|n b z d Hb Hn H IH]; intros Hne; try easy; now apply IH. Qed.
Lemma emit_at ph z d room ph' o room' : rl_at ph z d -> 0 <= room -> emit ph room = (ph', o, room') ->
  exists d', d = o ++ d' /\ rl_at ph' z d' /\ 0 <= room' /\ room' = room - len o /\
    (forall n b, ph' = RRun n b -> room' = 0 /\ d' <> []) /\ (ph <> RDone -> ph' <> RDone).
Proof.
  intros H Hr E. destruct H as [|z d H|c z d Hc H|n b z d Hb Hn H|n b z d Hb Hn H]; cbn [emit] in E.
  1-4: injection E as <- <- <-; eexists; split; [reflexivity|]; split; [now constructor|]; split; [easy|]; split; [cbn; lia|easy].
  destruct (room <? n) eqn:El; injection E as <- <- <-.
  - exists (repeat b (Z.to_nat (n - room)) ++ d). split; [rewrite app_assoc, <- repeat_app; do 2 f_equal; lia|]. split; [constructor; [easy|lia|easy]|]. split; [lia|]. split; [rewrite len_repeat; lia|].
    split; [|easy]. intros n' b' [= <- <-]. split; [easy|]. destruct (Z.to_nat (n - room)) eqn:E; [lia|]. easy.
  - exists d. split; [easy|]. split; [easy|]. split; [lia|]. split; [rewrite len_repeat; lia|]. easy.
Qed.
Lemma go_at inp : forall ph zr dr room ph' out over, rl_at ph zr dr -> 0 <= room -> prefix inp zr \/ prefix zr inp -> rl_go ph inp room = (ph', out, over) ->
  exists zr' dr' used, inp = used ++ over /\ zr = used ++ zr' /\ dr = out ++ dr' /\ len out <= room /\ rl_at ph' zr' dr' /\
    (zr' <> [] -> over <> [] -> len out = room /\ dr' <> []).
Proof.
  induction inp as [|c inp IH]; intros ph zr dr room ph' out over Ha Hr Hp E; cbn [rl_go] in E; destruct (emit ph room) as [[ph1 o] room1] eqn:Ee;
    destruct (emit_at _ _ _ _ _ _ _ Ha Hr Ee) as (d1 & -> & Ha1 & H1 & H2 & H3 & H4).
  - assert (ph1 = ph' /\ o = out /\ over = []) as (-> & -> & ->) by (destruct ph1; injection E as <- <- <-; easy). exists zr, d1, []. repeat (split; [easy || lia|]). easy.
  - assert (Hstep : forall ph2, (forall n b, ph1 <> RRun n b) -> (forall z', zr = c :: z' -> rl_at ph2 z' d1) -> ph1 <> RDone ->
        (let '(ph, o', over) := rl_go ph2 inp room1 in (ph, o ++ o', over)) = (ph', out, over) ->
        exists zr' dr' used, c :: inp = used ++ over /\ zr = used ++ zr' /\ o ++ d1 = out ++ dr' /\ len out <= room /\ rl_at ph' zr' dr' /\ (zr' <> [] -> over <> [] -> len out = room /\ dr' <> [])).
    { intros ph2 Hnr Ha2 Hnd E2. destruct (rl_go ph2 inp room1) as [[ph3 o'] over'] eqn:Eg. injection E2 as <- <- <-. pose proof (rl_at_nonempty _ _ _ Ha1 Hnd) as Hz. destruct zr as [|c' z']; [easy|].
      assert (c' = c /\ (prefix inp z' \/ prefix z' inp)) as [-> Hp']. { destruct Hp as [(x & Hx)|(x & Hx)]; injection Hx as -> ->; split; try easy; [left|right]; now exists x. }
      destruct (IH ph2 z' d1 room1 ph3 o' over' (Ha2 z' eq_refl) H1 Hp' Eg) as (zr' & dr' & used & -> & -> & -> & Hl & Ha3 & Hl2).
      exists zr', dr', (c :: used). split; [easy|]. split; [easy|]. split; [now rewrite app_assoc|]. rewrite len_app. split; [lia|]. split; [easy|]. intros P Q. destruct (Hl2 P Q) as [P1 P2]. split; [lia|easy]. }
    destruct ph1 as [|n|n b|].
    + apply (Hstep (if c =? 0 then RDone else RByte c)); try easy. intros z' ->. inversion Ha1; subst; [easy|]. replace (c =? 0) with false by lia. easy.
    + apply (Hstep (RRun n c)); try easy. intros z' ->. now inversion Ha1; subst.
    + injection E as <- <- <-. destruct (H3 n b eq_refl) as [P1 P2]. exists zr, d1, []. do 5 (split; [easy || lia|]). intros _ _. split; [lia|easy].
    + injection E as <- <- <-. inversion Ha1; subst. exists [], [], []. do 4 (split; [easy || lia|]). split; [constructor|easy].
Qed.
Lemma rl_done ph z d : rl_at ph z d -> (z = [] <-> ph = RDone) /\ (z = [] -> d = []).
Proof. intros H. pose proof (rl_at_nonempty _ _ _ H) as Hn. destruct H; split; try split; try easy; intros ->; exfalso; now apply Hn. Qed.
Lemma rl_bytes ph z d : rl_at ph z d -> is_bytes z /\ is_bytes d.
Proof.
  induction 1 as [|z d _ [IH1 IH2]|c z d Hc _ [IH1 IH2]|n b z d Hb Hn _ [IH1 IH2]|n b z d Hb Hn _ [IH1 IH2]].
  - split; constructor.
  - split; [constructor; [easy|easy]|easy].
  - split; [constructor; [unfold is_byte; lia|easy]|easy].
  - split; [constructor; [easy|easy]|easy].
  - split; [easy|]. apply Forall_app. split; [|easy]. apply Forall_forall. intros x Hx. now apply repeat_spec in Hx as ->.
Qed.
Lemma rl_encode_at d : is_bytes d -> rl_at RCount (rl_encode d) d.
Proof.
  induction 1 as [|b d Hb _ IH]; [repeat constructor|]. cbn [rl_encode].
  assert (Hone : forall e, rl_at RCount e d -> rl_at RCount (1 :: b :: e) (b :: d)).
  { intros e He. constructor; [lia|]. constructor; [easy|lia|]. now apply (a_run 1 b e d Hb eq_refl). }
  destruct (rl_encode d) as [|n [|c t]] eqn:E; [now apply Hone..|]. destruct ((c =? b) && (n <? 255) && (0 <? n)) eqn:Eb; [|now apply Hone].
  assert (c = b) as -> by lia. inversion IH as [|? ? H1|? ? ? Hc H1|?|?]; subst; [inversion H1|]. inversion H1 as [| | |? ? ? ? Hb' Hn H2|]; subst. inversion H2 as [| | | |? ? ? d' _ _ H3]; subst.
  constructor; [lia|]. constructor; [easy|lia|]. replace (b :: repeat b (Z.to_nat n) ++ d') with (repeat b (Z.to_nat (n + 1)) ++ d') by (replace (Z.to_nat (n + 1)) with (S (Z.to_nat n)) by lia; reflexivity).
  constructor; [easy|lia|easy].
Qed.
Lemma rl_all chunks : forall c, zc_all rle c chunks = rl_encode (c ++ concat chunks).
Proof. induction chunks as [|d l IH]; intros c; cbn; [now rewrite app_nil_r|]. rewrite IH. now rewrite <- app_assoc. Qed.
Definition rle_laws : zlib_laws rle.
Proof.
  refine (mk_zlib_laws rle (rl_at RCount) (fun st zr dr => rl_at (rl_ph st) zr dr) _ _ _ _ _).
  - intros z d H. split; [now apply (rl_at_nonempty _ _ _ H)|]. now split.
  - intros st zr dr inp n Ha Hz Hn Hp. destruct (rl_go (rl_ph st) inp n) as [[ph out] over] eqn:E.
    destruct (go_at inp _ _ _ _ _ _ _ Ha (Z.lt_le_incl _ _ Hn) Hp E) as (zr' & dr' & used & H1 & H2 & H3 & H4 & H5 & H6). destruct (rl_done _ _ _ H5) as [D1 D2].
    exists zr', dr', out. eexists. split; [cbn; unfold rl_decompress; rewrite E; reflexivity|]. exists used, over. split; [easy|]. split; [easy|]. split; [easy|]. split; [easy|]. split; [|split].
    + destruct ph; exact H5.
    + intros Hne. assert (ph <> RDone) as Hnd by tauto. cbn. destruct ph; try easy; (split; [easy|]; split; [easy|now apply H6]).
    + intros Hne. rewrite (proj1 D1 Hne). cbn. split; [now apply D2|easy].
  - intros st inp n Ha Hn. inversion Ha as [E| | | |? ? ? ? ? ? E]; [|now apply rl_at_nonempty in E]. eexists. cbn. unfold rl_decompress. rewrite <- E.
    replace (rl_go RDone inp n) with (RDone, @nil Z, inp) by now destruct inp. split; [reflexivity|]. split; [constructor|]. easy.
  - intros z d H. now apply (rl_bytes RCount).
  - intros level chunks H. cbn [zc_new rle]. rewrite rl_all. cbn [app]. apply rl_encode_at. now apply Forall_concat.
Defined.
