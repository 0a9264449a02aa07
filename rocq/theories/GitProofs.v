(** Proofs about GitModel: the alternates file and how a ReferenceDB follows it. *)
From Coq Require Import ZifyBool ZifyNat Permutation Relations Sorting.Sorted.
From Verif Require Import Py PyFacts FunModel FunSpec IndexModel IndexSpec ZlibModel ReaderModel PackModel PackSpec OsModel LooseModel PackDbModel PackDbSpec PackDbProofs
  MemModel MemProofs CompoundModel CompoundSpec CompoundProofs GitModel GitSpec.
Ltac Zify.zify_post_hook ::= Z.div_mod_to_equations.

(** ** Lines *)
Lemma existsb_in c l : existsb (Z.eqb c) l = true <-> In c l.
Proof. rewrite existsb_exists. split; [intros (x & H & E); apply Z.eqb_eq in E; now subst|intros H; exists c; split; [easy|apply Z.eqb_refl]]. Qed.
Lemma break_iff c : is_break c = true <-> line_break c.
Proof. apply existsb_in. Qed.
Lemma space_iff c : is_space c = true <-> white c.
Proof. unfold is_space, white. rewrite orb_true_iff, existsb_in. cbn [In]. lia. Qed.

Definition segment (text l : list Z) : Prop :=
  exists a b, text = a ++ l ++ b /\ (a = [] \/ exists a' c, a = a' ++ [c] /\ line_break c) /\
    (b = [] \/ exists c b', b = c :: b' /\ line_break c) /\ Forall (fun c => ~ line_break c) l.
Lemma segment_after a c text l : line_break c -> segment text l -> segment (a ++ c :: text) l.
Proof.
  intros Hc (a1 & b & -> & H1 & H2 & H3). exists (a ++ c :: a1), b. split; [now rewrite <- !app_assoc|]. split; [|easy]. right. destruct H1 as [-> |(a2 & c2 & -> & H1)].
  - now exists a, c.
  - exists (a ++ c :: a2), c2. split; [now rewrite <- app_assoc|easy].
Qed.
Lemma segment_split line c text l : line_break c -> Forall (fun c => ~ line_break c) line -> l <> [] ->
  segment (line ++ c :: text) l -> l = line \/ segment text l.
Proof.
  intros Hc Hline Hl (a & b & E & H1 & H2 & H3). destruct H1 as [-> |(a' & x & -> & Hx)].
  - left. cbn [app] in E. revert l b E Hl H2 H3. induction Hline as [|y line Hy Hline IH]; intros l b E Hl H2 H3.
    + destruct l as [|z l]; [easy|]. injection E as E1 E2. subst z. inversion H3; subst. contradiction.
    + destruct l as [|z l]; [easy|]. cbn [app] in E. injection E as E1 E2. subst z. f_equal. inversion H3 as [|? ? Hz H3']; subst.
      destruct l as [|z l]; [|now apply (IH (z :: l) b)]. cbn [app] in E2. destruct H2 as [-> |(z & b' & -> & Hz')]; [now destruct line|].
      destruct line as [|z' line]; [easy|]. injection E2 as E2 _. subst z'. inversion Hline; subst. contradiction.
  - rewrite <- app_assoc in E. cbn [app] in E.
    assert (exists a2, a' ++ [x] = line ++ c :: a2 /\ text = a2 ++ l ++ b) as (a2 & Ea & Et).
    { clear - E Hline Hx Hc. revert a' E. induction Hline as [|y line Hy Hline IH]; intros a' E.
      - destruct a' as [|z a']; cbn [app] in *; injection E as E1 E2; subst.
        + exists []. split; easy.
        + exists (a' ++ [x]). split; [easy|]. rewrite <- app_assoc. easy.
      - destruct a' as [|z a']; cbn [app] in *; injection E as E1 E2; subst; [contradiction|].
        destruct (IH a' E2) as (a2 & E3 & E4). exists a2. rewrite E3. now split. }
    right. exists a2, b. split; [easy|]. split; [|easy]. destruct a2 as [|z a2] using rev_ind; [now left|]. right. exists a2, z. split; [easy|].
    rewrite app_comm_cons, app_assoc in Ea. apply app_inj_tail in Ea as [_ ->]. easy.
Qed.
Lemma split_in l : l <> [] -> forall n text line, (length text <= n)%nat -> Forall (fun c => ~ line_break c) line ->
  In l (split_from line text) <-> segment (line ++ text) l.
Proof.
  intros Hl. induction n as [|n IH]; intros text line Hn Hline.
  - destruct text; [|cbn in Hn; lia]. rewrite app_nil_r. split.
    + intros H. assert (l = line) as ->. { destruct line; [easy|]. now destruct H as [<- |[]]. } exists [], []. rewrite app_nil_r. split; [easy|]. split; [now left|]. split; [now left|easy].
    + intros (a & b & E & H1 & H2 & H3). assert (a = []) as ->.
      { destruct H1 as [-> |(a' & c & -> & Hc)]; [easy|]. exfalso. rewrite Forall_forall in Hline. apply (Hline c); [|easy]. rewrite E, !in_app_iff. cbn. tauto. }
      assert (b = []) as ->.
      { destruct H2 as [-> |(c & b' & -> & Hc)]; [easy|]. exfalso. rewrite Forall_forall in Hline. apply (Hline c); [|easy]. rewrite E, !in_app_iff. cbn. tauto. }
      rewrite app_nil_r in E. cbn [app] in E. subst line. destruct l; [easy|]. now left.
  - destruct text as [|c text]; [apply (IH [] line); [cbn; lia|easy]|]. cbn [length] in Hn. cbn [split_from]. destruct (is_break c) eqn:Ec.
    + apply break_iff in Ec.
      assert (Hnext : In l (match text with c' :: text'' => if (c =? 13) && (c' =? 10) then split_from [] text'' else split_from [] text | [] => [] end) <-> segment text l).
      { destruct text as [|c' text'].
        - split; [easy|]. intros (a & b & E & _). destruct a; [|easy]. destruct l; easy.
        - destruct ((c =? 13) && (c' =? 10)) eqn:Ecr.
          + rewrite (IH text' []); [|cbn [length] in Hn; lia|constructor]. assert (c' = 10) by lia. subst c'. split; intros H.
            * apply (segment_after []); [cbn; tauto|easy].
            * apply (segment_split [] 10) in H; [|cbn; tauto|constructor|easy]. destruct H; [contradiction|easy].
          + apply (IH (c' :: text') []); [lia|constructor]. }
      cbn [In]. rewrite Hnext. split.
      * intros [<- |H]; [|now apply segment_after]. exists [], (c :: text). split; [easy|]. split; [now left|]. split; [right; now exists c, text|easy].
      * intros H. apply segment_split in H; try easy. destruct H; [now left|now right].
    + rewrite (IH text (line ++ [c])); [now rewrite <- app_assoc|lia|]. apply Forall_app. split; [easy|]. constructor; [|constructor]. rewrite <- break_iff. congruence.
Qed.

Lemma lstrip_spec l : exists w, l = w ++ lstrip l /\ Forall white w /\ forall c p, lstrip l = c :: p -> ~ white c.
Proof.
  induction l as [|c l (w & E & Hw & Hn)]; cbn [lstrip]; [exists []; split; [easy|]; split; [constructor|easy]|].
  destruct (is_space c) eqn:Ec.
  - exists (c :: w). split; [cbn; now rewrite <- E|]. split; [constructor; [now apply space_iff|easy]|easy].
  - exists []. split; [easy|]. split; [constructor|]. intros c' p H. injection H as -> _. rewrite <- space_iff. congruence.
Qed.
Lemma lstrip_skip w l : Forall white w -> lstrip (w ++ l) = lstrip l.
Proof. induction 1 as [|c w Hc _ IH]; [easy|]. cbn [app lstrip]. apply space_iff in Hc. now rewrite Hc. Qed.
Lemma lstrip_id l : (forall c p, l = c :: p -> ~ white c) -> lstrip l = l.
Proof. intros H. destruct l as [|c l]; [easy|]. cbn [lstrip]. destruct (is_space c) eqn:E; [|easy]. apply space_iff in E. now apply (H c l) in E. Qed.
Lemma strip_iff l p : p <> [] -> strip l = p <->
  exists w w', l = w ++ p ++ w' /\ Forall white w /\ Forall white w' /\ (forall c p', p = c :: p' -> ~ white c) /\ (forall c p', p = p' ++ [c] -> ~ white c).
Proof.
  intros Hp. split.
  - intros <-. unfold strip in *. destruct (lstrip_spec l) as (w & E & Hw & Hn). destruct (lstrip_spec (rev (lstrip l))) as (w' & E' & Hw' & Hn').
    set (x := lstrip l) in *. set (y := lstrip (rev x)) in *. exists w, (rev w').
    assert (Ex : x = rev y ++ rev w') by (rewrite <- (rev_involutive x), E', rev_app_distr; easy).
    split; [now rewrite <- Ex|]. split; [easy|]. split; [apply Forall_rev; easy|]. split.
    + intros c p' Ey. apply (Hn c (p' ++ rev w')). rewrite Ex, Ey. easy.
    + intros c p' Ey. apply (Hn' c (rev p')). rewrite <- (rev_involutive y), Ey, rev_app_distr. easy.
  - intros (w & w' & -> & Hw & Hw' & H1 & H2). unfold strip. rewrite lstrip_skip by easy.
    rewrite (lstrip_id (p ++ w')); [|intros c q E; destruct p as [|c0 p0]; [easy|]; injection E as E _; subst c0; now apply (H1 c p0)].
    rewrite rev_app_distr, lstrip_skip by now apply Forall_rev. rewrite lstrip_id; [apply rev_involutive|].
    intros c q E. apply (H2 c (rev q)). rewrite <- (rev_involutive p), E. easy.
Qed.
Lemma lines_iff text p : p <> [] -> In p (map strip (splitlines text)) <-> line_of text p.
Proof.
  intros Hp. rewrite in_map_iff. unfold splitlines. split.
  - intros (l & Hs & Hl). assert (l <> []) as Hne by (intros ->; unfold strip in Hs; cbn in Hs; congruence).
    apply (split_in l Hne (length text) text []) in Hl; [|easy|constructor]. destruct Hl as (a & b & E & H1 & H2 & H3).
    apply strip_iff in Hs; [|easy]. destruct Hs as (w & w' & -> & Hs). exists a, (w ++ p ++ w'), b, w, w'. tauto.
  - intros (a & line & b & w & w' & E & H1 & H2 & H3 & El & Hw & Hw' & _ & Hs1 & Hs2). exists line. split.
    + apply strip_iff; [easy|]. now exists w, w'.
    + assert (line <> []) as Hne by (subst line; intros H; apply app_eq_nil in H as [_ H]; apply app_eq_nil in H as [H _]; contradiction).
      apply (split_in line Hne (length text) text []); [easy|constructor|]. now exists a, b.
Qed.

(** ** Following the file *)
Lemma usable_iff F p : is_usable F p = true <-> usable F p.
Proof.
  unfold is_usable, usable. destruct p as [|c p]; [split; [easy|intros [H _]; contradiction]|]. destruct (f_repo F (c :: p)) as [r|].
  - split; [intros _; split; [easy|now exists r]|easy].
  - split; [easy|]. now intros (_ & r & H).
Qed.
Lemma beq_sym a b : beq a b = beq b a.
Proof. destruct (beq a b) eqn:E1, (beq b a) eqn:E2; try easy; [apply beq_eq in E1; subst; now rewrite (proj2 (beq_eq _ _) eq_refl) in E2|apply beq_eq in E2; subst; now rewrite (proj2 (beq_eq _ _) eq_refl) in E1]. Qed.
Lemma filter_filter A (f g : A -> bool) l : filter f (filter g l) = filter (fun x => g x && f x) l.
Proof. induction l as [|x l IH]; [easy|]. cbn [filter]. destruct (g x); cbn [filter andb]; now rewrite IH. Qed.
Lemma filter_all A (f : A -> bool) l : (forall x, In x l -> f x = true) -> filter f l = l.
Proof. induction l as [|x l IH]; intros H; [easy|]. cbn [filter]. rewrite (H x (or_introl eq_refl)), IH; [easy|]. intros y Hy. apply H. now right. Qed.
Lemma remove_at_app A (a : list A) x b : remove_at (length a) (a ++ x :: b) = Some (a ++ b).
Proof. induction a as [|y a IH]; [easy|]. cbn [length app remove_at]. now rewrite IH. Qed.

Lemma del_none p copy : forall i l, ~ In p (map db_root copy) -> del_loop p i copy l = (Ok tt, l).
Proof.
  induction copy as [|d copy IH]; intros i l H; [easy|]. cbn [del_loop]. cbn [map In] in H. destruct (beq (db_root d) p) eqn:E; [apply beq_eq in E; tauto|].
  apply IH. tauto.
Qed.
Lemma none_filter p l : ~ In p (map db_root l) -> filter (fun d => negb (beq (db_root d) p)) l = l.
Proof. intros H. apply filter_all. intros d Hd. destruct (beq (db_root d) p) eqn:E; [|easy]. apply beq_eq in E. subst p. exfalso. apply H. now apply in_map. Qed.
Lemma del_ok p copy : forall pre, NoDup (map db_root copy) ->
  del_loop p (length pre) copy (pre ++ copy) = (Ok tt, pre ++ filter (fun d => negb (beq (db_root d) p)) copy).
Proof.
  induction copy as [|d copy IH]; intros pre H; [easy|]. cbn [del_loop filter]. cbn [map] in H. apply NoDup_cons_iff in H as [Hd H]. destruct (beq (db_root d) p) eqn:E; cbn [negb].
  - apply beq_eq in E. subst p. rewrite remove_at_app, del_none by easy. now rewrite none_filter.
  - specialize (IH (pre ++ [d]) H). rewrite app_length, Nat.add_1_r in IH. rewrite <- !app_assoc in IH. exact IH.
Qed.
Lemma nodup_filter_roots f l : NoDup (map db_root l) -> NoDup (map db_root (filter f l)).
Proof.
  induction l as [|d l IH]; intros H; [easy|]. cbn [map filter] in *. apply NoDup_cons_iff in H as [H1 H2]. destruct (f d); [|now apply IH]. cbn [map]. constructor; [|now apply IH].
  intros H. apply H1. apply in_map_iff in H as (x & E & Hx). apply filter_In in Hx as [Hx _]. rewrite <- E. now apply in_map.
Qed.
Lemma remove_dbs_ok gone : forall l, NoDup (map db_root l) -> remove_dbs gone l = (Ok tt, filter (fun d => negb (mem (db_root d) gone)) l).
Proof.
  induction gone as [|p gone IH]; intros l H; cbn [remove_dbs].
  - f_equal. symmetry. now apply filter_all.
  - pose proof (del_ok p l [] H) as E. cbn [length app] in E. rewrite E, IH by now apply nodup_filter_roots. f_equal. rewrite filter_filter. apply filter_ext. intros d.
    unfold mem. cbn [existsb]. now rewrite negb_orb.
Qed.

(** Sorting by first place *)
Definition before (paths : list (list Z)) (p q : list Z) : Prop := place p paths < place q paths.
Lemma place_nonneg p l : 0 <= place p l.
Proof. induction l as [|q l IH]; cbn [place]; [lia|]. destruct (beq q p); lia. Qed.
Lemma sorted_filter A (R : A -> A -> Prop) f l : StronglySorted R l -> StronglySorted R (filter f l).
Proof.
  induction 1 as [|x l Hl IH Hx]; [constructor|]. cbn [filter]. destruct (f x); [|easy]. constructor; [easy|]. rewrite Forall_forall in *. intros y Hy. apply filter_In in Hy as [Hy _]. now apply Hx.
Qed.
Lemma sorted_impl A (R S : A -> A -> Prop) l : (forall x y, In x l -> In y l -> R x y -> S x y) -> StronglySorted R l -> StronglySorted S l.
Proof.
  intros H Hl. induction Hl as [|x l Hl IH Hx]; [constructor|]. constructor; [apply IH; intros y z Hy Hz; apply H; now right|].
  rewrite Forall_forall in *. intros y Hy. apply H; [now left|now right|now apply Hx].
Qed.
Lemma once_in p l : In p (once l) <-> In p l.
Proof.
  induction l as [|q l IH]; [easy|]. cbn [once In]. rewrite filter_In, IH. destruct (beq p q) eqn:E; cbn [negb]; [apply beq_eq in E; subst; tauto|].
  split; [tauto|]. intros [-> |H]; [left; easy|right; now split].
Qed.
Lemma once_sorted paths : StronglySorted (before paths) (once paths).
Proof.
  induction paths as [|p l IH]; cbn [once]; [constructor|]. constructor.
  - apply (sorted_impl _ (before l)); [|now apply sorted_filter]. intros x y Hx Hy. apply filter_In in Hx as [_ Hx], Hy as [_ Hy].
    unfold before. cbn [place]. rewrite (beq_sym p x), (beq_sym p y). destruct (beq x p); [easy|]. destruct (beq y p); [easy|]. lia.
  - apply Forall_forall. intros q Hq. apply filter_In in Hq as [_ Hq]. unfold before. cbn [place]. rewrite (proj2 (beq_eq p p) eq_refl), (beq_sym p q).
    destruct (beq q p); [easy|]. pose proof (place_nonneg q l). lia.
Qed.
Lemma sorted_nodup A (R : A -> A -> Prop) l : (forall x, ~ R x x) -> StronglySorted R l -> NoDup l.
Proof. intros Hi. induction 1 as [|x l Hl IH Hx]; constructor; [|easy]. intros H. rewrite Forall_forall in Hx. apply (Hi x). now apply Hx. Qed.
Lemma once_nodup l : NoDup (once l).
Proof. apply (sorted_nodup _ (before l)); [unfold before; lia|apply once_sorted]. Qed.
Lemma sorted_unique A (R : A -> A -> Prop) l : (forall x y, R x y -> ~ R y x) -> StronglySorted R l -> forall l', StronglySorted R l' -> Permutation l l' -> l = l'.
Proof.
  intros Ha. induction 1 as [|x l Hl IH Hx]; intros l' Hl' Hp; [now apply Permutation_nil in Hp|].
  destruct l' as [|y l']; [apply Permutation_sym, Permutation_nil in Hp; discriminate|]. inversion Hl' as [|? ? Hl2 Hy]; subst. rewrite Forall_forall in Hx, Hy.
  assert (x = y) as ->.
  { pose proof (Permutation_in x Hp (or_introl eq_refl)) as [H1|H1]; [easy|]. pose proof (Permutation_in y (Permutation_sym Hp) (or_introl eq_refl)) as [H2|H2]; [easy|].
    exfalso. apply (Ha x y); [now apply Hx|now apply Hy]. }
  f_equal. apply IH; [easy|]. now apply Permutation_cons_inv in Hp.
Qed.
Lemma insert_perm_path paths p l : Permutation (insert_path paths p l) (p :: l).
Proof. induction l as [|q l IH]; [easy|]. cbn [insert_path]. destruct (_ <=? _); [easy|]. rewrite IH. apply perm_swap. Qed.
Lemma sort_perm_path paths l : Permutation (sort_paths paths l) l.
Proof. induction l as [|p l IH]; [easy|]. cbn [sort_paths]. rewrite insert_perm_path. now constructor. Qed.
Lemma insert_sorted paths p l : ~ In p l -> (forall q, In q l -> place q paths <> place p paths) -> StronglySorted (before paths) l -> StronglySorted (before paths) (insert_path paths p l).
Proof.
  intros Hp Hne H. induction H as [|q l Hl IH Hq]; cbn [insert_path]; [constructor; [constructor|constructor]|].
  assert (Hpq : place q paths <> place p paths) by (apply Hne; now left).
  destruct (place p paths <=? place q paths) eqn:E.
  - constructor; [now constructor|]. rewrite Forall_forall in Hq. apply Forall_forall. intros x [<- |Hx]; unfold before; [lia|]. specialize (Hq x Hx). unfold before in Hq. lia.
  - constructor; [apply IH; [intros Hx; apply Hp; now right|intros x Hx; apply Hne; now right]|].
    apply Forall_forall. intros x Hx. apply (Permutation_in _ (insert_perm_path paths p l)) in Hx. destruct Hx as [<- |Hx]; [unfold before; lia|]. rewrite Forall_forall in Hq. now apply Hq.
Qed.
Lemma place_inj p q paths : In p paths -> In q paths -> place p paths = place q paths -> p = q.
Proof.
  induction paths as [|x l IH]; [easy|]. cbn [In place]. intros Hp Hq. pose proof (place_nonneg p l). pose proof (place_nonneg q l).
  destruct (beq x p) eqn:E1, (beq x q) eqn:E2; intros H1; try lia.
  - apply beq_eq in E1, E2. congruence.
  - apply beq_neq in E1, E2. apply IH; [tauto|tauto|lia].
Qed.
Lemma sort_sorted paths l : NoDup l -> (forall p, In p l -> In p paths) -> StronglySorted (before paths) (sort_paths paths l).
Proof.
  induction 1 as [|p l Hp Hl IH]; intros H; cbn [sort_paths]; [constructor|].
  assert (Hin : forall q, In q (sort_paths paths l) <-> In q l) by (intros q; split; apply Permutation_in; [|apply Permutation_sym]; apply sort_perm_path).
  apply insert_sorted; [now rewrite Hin| |apply IH; intros q Hq; apply H; now right]. intros q Hq E. rewrite Hin in Hq.
  apply place_inj in E; [subst q; contradiction|apply H; now right|apply H; now left].
Qed.

Definition new_git (F : fs) (p : list Z) : db := Git p (Some (mk_compound (git_members F p) [])).
Lemma git_load_ok F p : usable F p -> git_load F p = (Ok tt, git_members F p).
Proof.
  intros [Hp (r & Hr)]. unfold git_load, git_members. rewrite Hr. destruct p as [|c p]; [easy|]. destruct (r_pack r), (r_alt r); reflexivity.
Qed.
Lemma git_load_bad F p : ~ usable F p -> exists x l, git_load F p = (Raise x, l).
Proof.
  intros H. unfold git_load, git_members. destruct (f_repo F p) as [r|] eqn:Er; [|now eexists _, _].
  destruct p as [|c p]; [|exfalso; apply H; split; [easy|now exists r]]. cbn [app]. destruct (r_pack r), (r_alt r); cbn [app existsb is_loose orb]; now eexists _, _.
Qed.
Lemma add_dbs_ok F new : forall l, add_dbs F new l = l ++ map (new_git F) (filter (is_usable F) new).
Proof.
  induction new as [|p new IH]; intros l; cbn [add_dbs filter map]; [now rewrite app_nil_r|]. destruct (is_usable F p) eqn:E.
  - apply usable_iff in E. rewrite git_load_ok by easy. rewrite IH, <- app_assoc. easy.
  - destruct (git_load_bad F p) as (x & l' & ->); [rewrite <- usable_iff; congruence|]. apply IH.
Qed.
Lemma ref_refresh_ok F paths l : (forall x, Permutation (f_order F x) x) -> NoDup (map db_root l) ->
  ref_refresh F paths l = (Ok tt, filter (fun d => mem (db_root d) paths) l ++
    map (new_git F) (filter (fun p => negb (mem p (map db_root l)) && is_usable F p) (once paths))).
Proof.
  intros Ho Hl. unfold ref_refresh. rewrite remove_dbs_ok by easy.
  assert (Hm : forall p x, mem p (dedup x) = mem p x).
  { intros p x. destruct (mem p x) eqn:E; [apply mem_in in E; apply mem_in; now apply dedup_in|apply mem_out in E; apply mem_out; now rewrite dedup_in]. }
  rewrite add_dbs_ok. f_equal. f_equal.
  - apply filter_ext_in. intros d Hd. destruct (mem (db_root d) paths) eqn:E.
    + apply mem_in in E. apply negb_true_iff, mem_out. intros H. apply (Permutation_in _ (Ho _)) in H. apply filter_In in H as [_ H]. rewrite Hm in H. apply negb_true_iff, mem_out in H. contradiction.
    + apply negb_false_iff, mem_in. apply (Permutation_in _ (Permutation_sym (Ho _))). apply filter_In. rewrite Hm, E, dedup_in. split; [now apply in_map|easy].
  - f_equal. rewrite <- filter_filter. f_equal. apply (sorted_unique _ (before paths)).
    + unfold before. intros x y H1 H2. lia.
    + apply sort_sorted.
      * apply (Permutation_NoDup (Permutation_sym (Ho _))). apply NoDup_filter. apply dedup_nodup.
      * intros p Hp. apply (Permutation_in _ (Ho _)) in Hp. apply filter_In in Hp as [Hp _]. apply (proj1 (dedup_in _ _)) in Hp. exact Hp.
    + apply sorted_filter, once_sorted.
    + rewrite sort_perm_path, Ho. apply NoDup_Permutation; [apply NoDup_filter, dedup_nodup|apply NoDup_filter, once_nodup|].
      intros p. rewrite !filter_In, dedup_in, once_in, Hm. easy.
Qed.
