(** How ReferenceDB reads the alternates file, compared with git. *)
From Coq Require Import ZifyBool ZifyNat Relations.
From Verif Require Import Py PyFacts FunModel FunSpec IndexSpec ZlibModel ReaderModel PackModel OsModel LooseModel PackDbModel CompoundModel GitModel GitSpec GitProofs AltSpec.
Ltac Zify.zify_post_hook ::= Z.div_mod_to_equations.

Lemma line_not_odd text p : line_of text p -> ~ odd_path p.
Proof.
  intros (a & line & b & w & w' & _ & _ & _ & Hf & -> & _ & _ & _ & H1 & H2) [(c & p' & -> & Hc)|[(c & p' & -> & Hc)|(c & Hi & Hc)]].
  - now apply (H1 c p').
  - now apply (H2 c p').
  - rewrite Forall_forall in Hf. apply (Hf c); [|exact Hc]. apply in_or_app. right. apply in_or_app. now left.
Qed.
(** The line feed that ends what is before [l] is the last one: a text in which [l] is between
    breaks lies in one line of git's. *)
Lemma to_nl_before a : exists a1 a2, a = a1 ++ a2 /\ (a1 = [] \/ exists a', a1 = a' ++ [10]) /\ ~ In 10 a2.
Proof.
  induction a as [|c a (a1 & a2 & -> & Ha & Hn)] using rev_ind.
  - exists [], []. split; [easy|]. split; [now left|easy].
  - destruct (Z.eq_dec c 10) as [-> |Hc].
    + exists ((a1 ++ a2) ++ [10]), []. rewrite app_nil_r. split; [easy|]. split; [right; now eexists|easy].
    + exists a1, (a2 ++ [c]). rewrite app_assoc. split; [easy|]. split; [exact Ha|]. intros H. apply in_app_or in H as [H|[H|[]]]; [now apply Hn|now apply Hc].
Qed.
Lemma to_nl_after b : exists b1 b2, b = b1 ++ b2 /\ (b2 = [] \/ exists b', b2 = 10 :: b') /\ ~ In 10 b1.
Proof.
  induction b as [|c b (b1 & b2 & -> & Hb & Hn)].
  - exists [], []. split; [easy|]. split; [now left|easy].
  - destruct (Z.eq_dec c 10) as [-> |Hc].
    + exists [], (10 :: b1 ++ b2). split; [easy|]. split; [right; now eexists|easy].
    + exists (c :: b1), b2. split; [easy|]. split; [exact Hb|]. intros [H|H]; [now apply Hc|now apply Hn].
Qed.
Lemma line_in_nl text p : line_of text p -> exists a w w' b, nl_line text (a ++ w ++ p ++ w' ++ b) /\
  (a = [] \/ exists a' c, a = a' ++ [c] /\ line_break c) /\ (b = [] \/ exists c b', b = c :: b' /\ line_break c) /\ Forall white w /\ Forall white w'.
Proof.
  intros (a & line & b & w & w' & -> & Ha & Hb & Hf & -> & Hw & Hw' & _ & _ & _).
  destruct (to_nl_before a) as (a1 & a2 & -> & Ha1 & Ha2). destruct (to_nl_after b) as (b1 & b2 & -> & Hb2 & Hb1).
  exists a2, w, w', b1. split; [|split; [|split; [|now split]]].
  - exists a1, b2. split; [now rewrite <- !app_assoc|]. split; [exact Ha1|]. split; [exact Hb2|]. intros H. apply in_app_or in H as [H|H]; [easy|].
    rewrite !app_assoc in H. apply in_app_or in H as [H|H]; [|easy]. rewrite <- app_assoc in H. rewrite Forall_forall in Hf. apply (Hf 10); [exact H|now left].
  - destruct a2 as [|c a2] using rev_ind; [now left|]. right. exists a2, c. split; [easy|].
    destruct Ha as [Ha|(a' & c' & Ha & Hc')]; [now apply app_eq_nil in Ha as [_ Ha]; apply app_eq_nil in Ha as [_ Ha]|].
    rewrite app_assoc in Ha. apply app_inj_tail in Ha as [_ ->]. exact Hc'.
  - destruct b1 as [|c b1]; [now left|]. right. exists c, b1. split; [easy|].
    destruct Hb as [Hb|(c' & b' & Hb & Hc')]; [discriminate|]. cbn [app] in Hb. now injection Hb as -> _.
Qed.
Lemma own_line text p : nl_line text p -> p <> [] -> ~ odd_path p -> line_of text p.
Proof.
  intros Hl Hne Hodd. destruct Hl as (a & b & E & Ha & Hb & _). exists a, p, b, [], [].
  split; [exact E|]. split; [destruct Ha as [Ha|(a' & Ha)]; [now left|right; exists a', 10; split; [exact Ha|now left]]|].
  split; [destruct Hb as [Hb|(b' & Hb)]; [now left|right; exists 10, b'; split; [exact Hb|now left]]|].
  split; [apply Forall_forall; intros c Hc Hbr; apply Hodd; right; right; now exists c|]. split; [now rewrite app_nil_r|]. split; [constructor|]. split; [constructor|].
  split; [exact Hne|]. split; intros c p' -> Hc; apply Hodd; [left|right; left]; now exists c, p'.
Qed.
(** In a file of plain lines every line that is not empty is one of ReferenceDB's, and these are
    all. *)
Lemma plain_lines text : (forall line, nl_line text line -> plain_line line) ->
  forall p, line_of text p <-> nl_line text p /\ p <> [].
Proof.
  intros Hpl p. split.
  - intros H. pose proof H as (_ & _ & _ & _ & _ & _ & _ & _ & _ & _ & _ & _ & Hne & _). apply line_in_nl in H as (a & w & w' & b & Hl & Ha & Hb & Hw & Hw').
    split; [|exact Hne]. destruct (Hpl _ Hl) as [E|[Hodd _]].
    { exfalso. apply Hne. apply app_eq_nil in E as [_ E]. apply app_eq_nil in E as [_ E]. now apply app_eq_nil in E as [E _]. }
    assert (a = []) as ->.
    { destruct Ha as [Ha|(a' & c & -> & Hc)]; [exact Ha|]. exfalso. apply Hodd. right. right. exists c. split; [|exact Hc]. apply in_or_app. left. apply in_or_app. right. now left. }
    assert (b = []) as ->.
    { destruct Hb as [Hb|(c & b' & -> & Hc)]; [exact Hb|]. exfalso. apply Hodd. right. right. exists c. split; [|exact Hc]. rewrite !app_assoc. apply in_or_app. right. now left. }
    assert (w = []) as ->.
    { destruct w as [|c w]; [easy|]. exfalso. apply Hodd. left. exists c, (w ++ p ++ w' ++ []). split; [easy|now inversion Hw]. }
    assert (w' = []) as ->.
    { destruct w' as [|c w'] using rev_ind; [easy|]. exfalso. apply Hodd. right. left. exists c, (p ++ w'). split; [now rewrite app_nil_r; cbn [app]; rewrite app_assoc|].
      apply Forall_app in Hw' as [_ Hw']. now inversion Hw'. }
    cbn [app] in Hl. now rewrite app_nil_r in Hl.
  - intros [Hl Hne]. destruct (Hpl p Hl) as [E|[Hodd _]]; [contradiction|]. now apply own_line.
Qed.
Lemma plain_entry line p : plain_line line -> (forall l, line <> 35 :: l) -> git_entry line p <-> p = line /\ line <> [].
Proof.
  intros Hp Hn. split.
  - intros H. inversion H; subst; [now split|]. exfalso. destruct Hp as [Hp|[_ Hp]]; [discriminate|]. now apply (Hp (q ++ [34])).
  - intros [-> Hne]. destruct line as [|c l]; [contradiction|]. constructor; [intros ->; now apply (Hn l)|intros ->]. destruct Hp as [Hp|[_ Hp]]; [discriminate|now apply (Hp l)].
Qed.
(** Where the files are plain and no directory is called like a comment, ReferenceDB follows git. *)
Section Plain.
  Context (F : fs) (r : list Z).
  Hypothesis Hno : forall p, usable F (35 :: p) -> False.
  Definition all_plain : Prop := forall R text line, f_repo F r = Some R -> r_alt R = Some (Ok text) -> nl_line text line -> plain_line line.
  Lemma next_same : all_plain -> forall p, alternate F r p <-> git_next F r p.
  Proof.
    intros Hpl p. split; intros ((R & text & HR & Ha & Hl) & Hu); (split; [|exact Hu]); exists R, text; (split; [exact HR|]); (split; [exact Ha|]).
    - apply (plain_lines text (fun line => Hpl R text line HR Ha)) in Hl as [Hl Hne]. exists p. split; [exact Hl|]. apply plain_entry; [exact (Hpl R text p HR Ha Hl)| |now split].
      intros l ->. exact (Hno l Hu).
    - destruct Hl as (line & Hl & He). pose proof (Hpl R text line HR Ha Hl) as Hp. apply (plain_lines text (fun line => Hpl R text line HR Ha)).
      destruct line as [|c l]; [inversion He|]. destruct (Z.eq_dec c 35) as [-> |Hc]; [inversion He; contradiction|].
      apply (plain_entry _ _ Hp) in He as [-> Hne]; [now split|]. intros l' E. now injection E.
  Qed.
End Plain.
Lemma reaches_same F r : (forall p, usable F (35 :: p) -> False) -> (forall r', git_reaches F r r' -> all_plain F r') ->
  forall r', reaches F r r' <-> git_reaches F r r'.
Proof.
  intros Hno Hpl r'. split; intros H.
  - unfold reaches in H. apply clos_rt_rtn1 in H. induction H as [|y z Hy _ IH]; [apply rt_refl|]. apply rt_trans with y; [exact IH|]. apply rt_step. now apply (next_same F y Hno (Hpl y IH)).
  - unfold git_reaches in H. apply clos_rt_rtn1 in H. induction H as [|y z Hy Hr IH]; [apply rt_refl|]. apply rt_trans with y; [exact IH|]. apply rt_step. apply (next_same F y Hno); [|exact Hy].
    apply Hpl. now apply clos_rtn1_rt.
Qed.
(** Paths with odd characters are never used. *)
Lemma odd_never F x p : odd_path p -> ~ alternate F x p.
Proof. intros Ho ((R & text & _ & _ & Hl) & _). now apply line_not_odd in Hl. Qed.
Lemma odd_unreached F r p : odd_path p -> reaches F r p -> p = r.
Proof. intros Ho H. apply clos_rt_rtn1 in H. inversion H as [|y z Hy _]; [easy|]. subst. now apply odd_never in Hy. Qed.
(** If the names of the lines are no directories, there is nothing but the repository itself. *)
Lemma none_found F U r sha : (forall R text p, f_repo F r = Some R -> r_alt R = Some (Ok text) -> line_of text p -> ~ usable F p) -> found F U r sha <-> repo_has F U r sha.
Proof.
  intros Hn. split.
  - intros (r' & Hr & H). apply clos_rt_rt1n in Hr. inversion Hr as [|y z Hy _]; [now subst|]. subst. destruct Hy as ((R & text & HR & Ha & Hl) & Hu). now apply (Hn R text y HR Ha Hl) in Hu.
  - intros H. exists r. split; [apply rt_refl|exact H].
Qed.
(** The lines of a file of quoted paths, as ReferenceDB reads them, begin with the quote. *)
Lemma quoted_lines text : (forall line, nl_line text line -> line = [] \/ (hd 0 line = 34 /\ forall c, In c line -> ~ line_break c)) ->
  forall p, line_of text p -> hd 0 p = 34.
Proof.
  intros Hq p H. pose proof H as (_ & _ & _ & _ & _ & _ & _ & _ & _ & _ & _ & _ & Hne & _). apply line_in_nl in H as (a & w & w' & b & Hl & Ha & Hb & Hw & Hw').
  destruct (Hq _ Hl) as [E|[Hh Hbr]].
  { exfalso. apply Hne. apply app_eq_nil in E as [_ E]. apply app_eq_nil in E as [_ E]. now apply app_eq_nil in E as [E _]. }
  assert (a = []) as ->.
  { destruct Ha as [Ha|(a' & c & -> & Hc)]; [exact Ha|]. exfalso. apply (Hbr c); [|exact Hc]. apply in_or_app. left. apply in_or_app. right. now left. }
  destruct w as [|c w]; [destruct p as [|c p]; [contradiction|exact Hh]|]. exfalso. cbn [app hd] in Hh. subst c. inversion Hw as [|? ? Hc _]. unfold white in Hc. cbn [In] in Hc. lia.
Qed.
