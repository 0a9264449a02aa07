(** The files of a new pack are new files, and what they were given may be lost (C105). *)
From Coq Require Import ZifyBool ZifyNat Permutation.
From Verif Require Import Py PyFacts FunModel FunSpec IndexModel IndexSpec ZlibModel ReaderModel PackModel PackSpec OsModel OsProofs
  PackDbModel PackDbSpec PackDbProofs CreateModel CreateSpec CreateProofs CreateConc CreateRead DurableSpec DurableProofs ErrorSpec.

Section Young.
  Context (K : zlib) (sha1 : bytes -> bytes) (pagesize : Z) {R : Type} (oread : R -> Z -> res (bytes * R)) (fuel : nat).
  Context (O : os) (Hshort : may_fail O KShort = false) (base : path) (j : job R) (s0 : world) (Hw0 : wf s0).
  Notation made := (made K sha1 pagesize oread fuel base).
  Notation guar := (guar K sha1 pagesize oread fuel base).

  (** A file of the new pack is the old one, or complete. *)
  Definition old_or (s : world) (p : path) (d : bytes) : Prop := lookup s p = lookup s0 p \/ contents s p = Some d.
  Definition new_file (s : world) (p : path) : Prop := exists i, lookup s p = Some i /\ (w_next s0 <= i)%nat.
  (** Compared with s0: other files are new ones, old ones keep their data. *)
  Definition young (g : phase) (s : world) : Prop :=
    wf s /\ (w_next s0 <= w_next s)%nat /\
    (forall t fd, In (t, fd) (owned g) -> scratch base t /\ (w_next s0 <= fd)%nat) /\
    (forall i, (i < w_next s0)%nat -> w_data s i = w_data s0 i) /\
    (forall p i, lookup s0 p = Some i -> (forall pp ip pack idx, made j pp ip pack idx -> p <> pp /\ p <> ip) -> lookup s p = Some i) /\
    (forall pp ip pack idx, made j pp ip pack idx -> old_or s pp pack /\ old_or s ip idx /\
       match g with Packed _ _ => new_file s pp | Done => new_file s pp /\ new_file s ip | _ => True end).

  Lemma made_names pp ip pack idx : made j pp ip pack idx -> pp <> ip /\ (forall t, scratch base t -> t <> pp /\ t <> ip).
  Proof.
    intros Hm. destruct (made_scanned K sha1 pagesize oread fuel base _ _ _ _ _ Hm) as [H1 H2]. split; [exact (made_differ K sha1 pagesize oread fuel base _ _ _ _ _ _ _ _ _ _ Hm Hm)|].
    intros t Ht. split; intros ->; now apply (scratch_not_scanned base _ Ht).
  Qed.
  Lemma young_create g g' s t : young g s -> scratch base t -> path_exists s t = false ->
    (forall t' fd, In (t', fd) (owned g') -> In (t', fd) (owned g) \/ (t', fd) = (t, w_next s)) ->
    match g' with Packed _ _ | Done => False | _ => True end -> young g' (OsModel.create s t).
  Proof.
    intros (Hw & Hn & Ho & Hd & Hk & Hm) Ht Hex Hg Hg'.
    assert (Ht0 : lookup s t = None).
    { unfold path_exists in Hex. apply orb_false_iff in Hex as [Hex _]. unfold is_file in Hex. now destruct (lookup s t). }
    split; [now apply wf_create|]. split; [cbn; lia|]. split; [|split; [|split]].
    - intros t' fd' H. destruct (Hg _ _ H) as [H'|[= -> ->]]; [now apply Ho|now split].
    - intros i Hi. rewrite data_create. replace (Nat.eqb i (w_next s)) with false by lia. now apply Hd.
    - intros p i H H'. rewrite lookup_create. destruct (path_eq_dec p t) as [->|]; [|now apply Hk]. rewrite (Hk t i H H') in Ht0. discriminate.
    - intros pp ip pack idx M. destruct (made_names _ _ _ _ M) as (N1 & N2). destruct (N2 t Ht) as [N3 N4]. destruct (Hm pp ip pack idx M) as (A & B & _).
      assert (Hc : forall p d, t <> p -> old_or s p d -> old_or (OsModel.create s t) p d).
      { intros p d Hne [E|E]; unfold old_or, contents in *; rewrite lookup_create; (destruct (path_eq_dec p t) as [->|_]; [now elim Hne|]); [now left|right].
        destruct (lookup s p) as [i|] eqn:Ei; [|easy]. cbn [option_map] in *. rewrite data_create. pose proof (wf_next s Hw _ _ Ei). now replace (Nat.eqb i (w_next s)) with false by lia. }
      split; [now apply Hc|]. split; [now apply Hc|]. now destruct g'.
  Qed.
  Lemma young_step g e g' s s' : guar j g e g' s s' -> young g s -> young g' s'.
  Proof.
    intros Hs Hy. destruct Hs as [g s|s t Ht Hex|s t1 f1 t Ht Hex|g s t fd d Hin Hl|s t1 f1 t2 f2 pp ip pack idx M Hl Hdat|s t2 f2 pp ip pack idx M Hl Hdat].
    - exact Hy.
    - apply (young_create Start); auto. intros t' fd [H|[]]. now right.
    - apply (young_create (One t1 f1)); auto. intros t' fd [H|[H|[]]]; [left; now left|now right].
    - destruct Hy as (Hw & Hn & Ho & Hd & Hk & Hm). destruct (Ho t fd Hin) as [Hsc Hfd]. split; [now apply wf_set_data|]. split; [easy|]. split; [easy|]. split; [|split; [easy|]].
      + intros i Hi. rewrite data_set_data. replace (Nat.eqb i fd) with false by lia. now apply Hd.
      + intros pp ip pack idx M. destruct (made_names _ _ _ _ M) as (N1 & N2). destruct (N2 t Hsc) as [N3 N4]. destruct (Hm pp ip pack idx M) as (A & B & C).
        assert (Hc : forall p x, t <> p -> old_or s p x -> old_or (set_data s fd d) p x).
        { intros p x Hne [E|E]; unfold old_or, contents in *; rewrite lookup_set_data; [now left|right].
          destruct (lookup s p) as [i|] eqn:Ei; [|easy]. cbn [option_map] in *. rewrite data_set_data. destruct (Nat.eqb_spec i fd) as [->|]; [|easy].
          elim Hne. exact (wf_inj s Hw _ _ _ Hl Ei). }
        split; [now apply Hc|]. split; [now apply Hc|]. exact C.
    - destruct Hy as (Hw & Hn & Ho & Hd & Hk & Hm). destruct (Ho t1 f1 (or_introl eq_refl)) as [Hsc Hfd]. destruct (made_names _ _ _ _ M) as (N1 & N2). destruct (N2 t1 Hsc) as [N3 N4].
      split; [|split; [easy|split; [|split; [easy|split]]]].
      + apply wf_link; [now apply wf_unlink|exact (wf_next s Hw _ _ Hl)|]. intros p. rewrite lookup_unlink. destruct (path_eq_dec p t1); [easy|]. intros E. exfalso. apply n. eapply wf_inj; eauto.
      + intros t fd [[= <- <-]|[]]. apply Ho. right. now left.
      + intros p i H H'. rewrite lookup_link, lookup_unlink. destruct (path_eq_dec p pp) as [->|]; [elim (proj1 (H' _ _ _ _ M)); reflexivity|].
        pose proof (Hk p i H H') as E. destruct (path_eq_dec p t1) as [->|]; [|exact E]. rewrite Hl in E. injection E as ->. pose proof (wf_next s0 Hw0 _ _ H). lia.
      + intros pp' ip' pack' idx' M'. destruct (made_same K sha1 pagesize oread fuel base _ _ _ _ _ _ _ _ _ M M') as (<- & <- & <- & <-). destruct (Hm pp ip pack idx M) as (A & B & _).
        assert (E1 : lookup (link (unlink s t1) pp f1) pp = Some f1) by (rewrite lookup_link; now destruct (path_eq_dec pp pp)).
        assert (E2 : lookup (link (unlink s t1) pp f1) ip = lookup s ip).
        { rewrite lookup_link, lookup_unlink. destruct (path_eq_dec ip pp) as [->|]; [now elim N1|]. destruct (path_eq_dec ip t1) as [->|]; [now elim N4|easy]. }
        split; [right; unfold contents; rewrite E1; cbn [option_map]; now rewrite <- Hdat|]. split; [|now exists f1].
        destruct B as [B|B]; [left; congruence|right]. unfold contents in *. rewrite E2. exact B.
    - destruct Hy as (Hw & Hn & Ho & Hd & Hk & Hm). destruct (Ho t2 f2 (or_introl eq_refl)) as [Hsc Hfd]. destruct (made_names _ _ _ _ M) as (N1 & N2). destruct (N2 t2 Hsc) as [N3 N4].
      split; [|split; [easy|split; [easy|split; [easy|split]]]].
      + apply wf_link; [now apply wf_unlink|exact (wf_next s Hw _ _ Hl)|]. intros p. rewrite lookup_unlink. destruct (path_eq_dec p t2); [easy|]. intros E. exfalso. apply n. eapply wf_inj; eauto.
      + intros p i H H'. rewrite lookup_link, lookup_unlink. destruct (path_eq_dec p ip) as [->|]; [elim (proj2 (H' _ _ _ _ M)); reflexivity|].
        pose proof (Hk p i H H') as E. destruct (path_eq_dec p t2) as [->|]; [|exact E]. rewrite Hl in E. injection E as ->. pose proof (wf_next s0 Hw0 _ _ H). lia.
      + intros pp' ip' pack' idx' M'. destruct (made_same K sha1 pagesize oread fuel base _ _ _ _ _ _ _ _ _ M M') as (<- & <- & <- & <-). destruct (Hm pp ip pack idx M) as (A & B & C).
        assert (E1 : lookup (link (unlink s t2) ip f2) ip = Some f2) by (rewrite lookup_link; now destruct (path_eq_dec ip ip)).
        assert (E2 : lookup (link (unlink s t2) ip f2) pp = lookup s pp).
        { rewrite lookup_link, lookup_unlink. destruct (path_eq_dec pp ip) as [->|]; [now elim N1|]. destruct (path_eq_dec pp t2) as [->|]; [now elim N3|easy]. }
        split; [|split; [right; unfold contents; rewrite E1; cbn [option_map]; now rewrite <- Hdat|]].
        * destruct A as [A|A]; [left; congruence|right]. unfold contents in *. rewrite E2. exact A.
        * split; [|now exists f2]. destruct C as (i & C1 & C2). exists i. rewrite E2. easy.
  Qed.
  Lemma young_start : young Start s0.
  Proof. split; [easy|]. split; [easy|]. split; [easy|]. split; [easy|]. split; [easy|]. intros. split; [now left|]. split; [now left|easy]. Qed.

  Notation create := (create_pack K sha1 pagesize oread fuel base (j_level j) (j_objs j) (j_count j)).
  Lemma create_young p' s : steps O create s0 p' s -> exists g, wp O (others true) (guar j) p' g s (create_post K sha1 pagesize oread fuel O base true j s0) /\ young g s.
  Proof.
    intros H. apply (wp_steps O (others true) (guar j) (others_refl true) _ s0 p' s _ H Start (wp_create K sha1 pagesize oread fuel O Hshort base true j s0 s0 Hw0 ltac:(easy)) young).
    - intros g e g' a b. apply young_step.
    - exact young_start.
  Qed.

  (** Both files of a created pack may be empty after a power failure. *)
  Lemma create_lost pp s : runs O create s0 (Ok pp) s ->
    exists ip pack idx s2, made j pp ip pack idx /\ power_loss s0 s s2 /\ wf s2 /\ contents s2 pp = Some [] /\ contents s2 ip = Some [] /\
      forall p, p <> pp -> p <> ip -> contents s2 p = contents s0 p.
  Proof.
    intros Hr. destruct (create_young _ s Hr) as (g & Hp & Hw & Hn & _ & Hd & Hk & Hm). cbn [wp] in Hp. destruct Hp as [-> _].
    destruct (create_alone K sha1 pagesize oread O Hshort base fuel _ _ _ s0 pp s Hw0 Hr) as (ip & pack & idx & M & _ & _ & Hrest).
    destruct j as [level objs oc]. cbn [j_level j_objs j_count] in *. destruct (Hm pp ip pack idx M) as (_ & _ & (i & Hi & Hi') & k & Hk1 & Hk2).
    set (s2 := set_data (set_data s i []) k []).
    assert (Hdata : forall x, w_data s2 x = if Nat.eqb x k || Nat.eqb x i then [] else w_data s x).
    { intros x. unfold s2. rewrite !data_set_data. destruct (Nat.eqb x k); [reflexivity|]. now destruct (Nat.eqb x i). }
    exists ip, pack, idx, s2. split; [exact M|].
    assert (Hloss : power_loss s0 s s2).
    { split; [easy|]. split; [easy|]. split; [easy|]. intros x. rewrite Hdata. destruct (Nat.eqb x k || Nat.eqb x i) eqn:E.
      - split; [now exists (w_data s x)|]. intros Hx. lia.
      - split; [exists []; now rewrite app_nil_r|easy]. }
    split; [exact Hloss|]. split; [eapply loss_wf; eauto|].
    assert (Hl : forall p, lookup s2 p = lookup s p) by (intros p; exact (loss_contents _ _ _ p Hloss)).
    split; [unfold contents; rewrite Hl, Hi; cbn [option_map]; rewrite Hdata, Nat.eqb_refl, orb_true_r; reflexivity|].
    split; [unfold contents; rewrite Hl, Hk1; cbn [option_map]; rewrite Hdata, Nat.eqb_refl; reflexivity|].
    intros p Hp1 Hp2. rewrite <- (Hrest p Hp1 Hp2). unfold contents. rewrite Hl. destruct (lookup s p) as [x|] eqn:Ex; [|easy]. cbn [option_map]. f_equal. rewrite Hdata.
    destruct (Nat.eqb_spec x k) as [->|]; [elim Hp2; exact (wf_inj s Hw _ _ _ Ex Hk1)|]. destruct (Nat.eqb_spec x i) as [->|]; [elim Hp1; exact (wf_inj s Hw _ _ _ Ex Hi)|easy].
  Qed.

  (** Whatever happens, the other files are unharmed, and a file of the new pack is as before or
      has a first part of what it should have. *)
  Lemma create_left s s2 : stops O create s0 s -> power_loss s0 s s2 -> forall p, contents s2 p = contents s0 p \/ (scratch base p /\ contents s0 p = None) \/
    exists pp ip pack idx z, made j pp ip pack idx /\ contents s2 p = Some z /\ ((p = pp /\ prefix z pack) \/ (p = ip /\ prefix z idx)).
  Proof.
    intros (p' & Hst) Hloss p. destruct (create_young _ s Hst) as (g & _ & Hw & Hn & _ & Hd & Hk & Hm).
    assert (Hpre : forall x, contents s p = Some x -> exists z, contents s2 p = Some z /\ prefix z x).
    { intros x E. unfold contents in *. rewrite (loss_contents _ _ _ _ Hloss). destruct (lookup s p) as [i|]; [|easy]. cbn [option_map] in *. injection E as <-.
      exists (w_data s2 i). split; [easy|]. apply Hloss. }
    assert (Hold : lookup s p = lookup s0 p -> contents s2 p = contents s0 p).
    { intros E. unfold contents. rewrite (loss_contents _ _ _ _ Hloss), E. destruct (lookup s0 p) as [i|] eqn:Ei; [|easy]. cbn [option_map]. f_equal.
      pose proof (wf_next s0 Hw0 _ _ Ei) as Hi. rewrite <- (Hd i Hi). destruct Hloss as (_ & _ & _ & Hloss). now apply Hloss; [|apply Hd]. }
    destruct (creators K sha1 pagesize oread fuel O Hshort base [j] s0 [p'] s Hw0 (steps_interleaved _ _ _ _ _ _ Hst)) as (Hc & _).
    assert (Hmade : forall pp ip pack idx, made j pp ip pack idx -> p = pp \/ p = ip ->
      contents s2 p = contents s0 p \/ exists pp ip pack idx z, made j pp ip pack idx /\ contents s2 p = Some z /\ ((p = pp /\ prefix z pack) \/ (p = ip /\ prefix z idx))).
    { intros pp ip pack idx M Hp. destruct (Hm pp ip pack idx M) as (A & B & _). destruct Hp as [-> | ->].
      - destruct A as [A|A]; [left; now apply Hold|right]. destruct (Hpre _ A) as (z & H1 & H2). exists pp, ip, pack, idx, z. auto.
      - destruct B as [B|B]; [left; now apply Hold|right]. destruct (Hpre _ B) as (z & H1 & H2). exists pp, ip, pack, idx, z. auto. }
    assert (Hdec : (exists pp ip pack idx, made j pp ip pack idx /\ (p = pp \/ p = ip)) \/ (forall pp ip pack idx, made j pp ip pack idx -> p <> pp /\ p <> ip)).
    { destruct (write_pack K sha1 pagesize oread fuel (j_level j) (j_objs j) (j_count j)) as [[[[pack psha] idx] isha]|e|] eqn:E.
      - set (pp := base ++ [new_name psha str_dot_pack]). set (ip := base ++ [new_name psha str_dot_idx]).
        assert (M : made j pp ip pack idx) by (exists psha, isha, (new_name psha str_dot_pack), (new_name psha str_dot_idx); split; [exact E|]; split; [apply new_names|easy]).
        destruct (path_eq_dec p pp) as [->|H1]; [left; exists pp, ip, pack, idx; auto|]. destruct (path_eq_dec p ip) as [->|H2]; [left; exists pp, ip, pack, idx; auto|].
        right. intros pp' ip' pack' idx' M'. destruct (made_same K sha1 pagesize oread fuel base _ _ _ _ _ _ _ _ _ M M') as (<- & <- & _). easy.
      - right. intros pp ip pack idx (psha & isha & name & iname & E' & _). congruence.
      - right. intros pp ip pack idx (psha & isha & name & iname & E' & _). congruence. }
    destruct Hdec as [(pp & ip & pack & idx & M & Hp)|Hno]; [destruct (Hmade _ _ _ _ M Hp); auto|].
    destruct (Hc p) as [E|[E|[E|E]]].
    - left. destruct (lookup s0 p) as [i|] eqn:Ei; [apply Hold; pose proof (Hk p i Ei Hno); congruence|]. unfold contents in *. rewrite (loss_contents _ _ _ _ Hloss). rewrite Ei in *. now destruct (lookup s p).
    - now right; left.
    - destruct E as (j' & ip' & pack' & idx' & [<-|[]] & M & _). now elim (proj1 (Hno _ _ _ _ M)).
    - destruct E as (j' & pp' & pack' & idx' & [<-|[]] & M & _). now elim (proj2 (Hno _ _ _ _ M)).
  Qed.
End Young.
