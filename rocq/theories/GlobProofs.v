(** Proofs about finding packs by pattern. *)
From Coq Require Import ZifyBool ZifyNat.
From Verif Require Import Py PyFacts FunModel IndexModel ZlibModel ReaderModel PackModel PackDbModel PackDbSpec PackDbProofs GlobModel GlobSpec.
Ltac Zify.zify_post_hook ::= Z.div_mod_to_equations.

(** ** Paths *)
Lemma no_last_slash t : ~ In slash t -> at_last_slash t = ([], t).
Proof.
  induction t as [|c t IH]; intros H; [easy|]. cbn [at_last_slash]. rewrite IH by (intros Hi; apply H; now right).
  replace (c =? slash) with false; [easy|]. symmetry. apply Z.eqb_neq. intros ->. apply H. now left.
Qed.
Lemma last_slash h t : ~ In slash t -> at_last_slash (h ++ slash :: t) = (h ++ [slash], t).
Proof.
  intros H. induction h as [|c h IH]; cbn [app at_last_slash].
  - now rewrite no_last_slash.
  - rewrite IH. now destruct h.
Qed.
(** "/", "//" …, or not ending in a slash *)
Definition tidy (root : str) : Prop := forallb (Z.eqb slash) root = true \/ last root 0 <> slash.
Lemma last_app_one (h : str) c : last (h ++ [c]) 0 = c.
Proof. apply last_last. Qed.
Lemma split_join root b : tidy root -> ~ In slash b -> b <> [] -> path_split (path_join root b) = (root, b).
Proof.
  intros Ht Hb Hn. destruct b as [|c b]; [easy|]. assert (c =? slash = false) as Hc by (apply Z.eqb_neq; intros ->; apply Hb; now left).
  unfold path_join. rewrite Hc. destruct root as [|r root]; [unfold path_split; now rewrite no_last_slash|].
  assert (Hcase : (exists h, r :: root = h ++ [slash]) \/ last (r :: root) 0 <> slash).
  { destruct (Z.eq_dec (last (r :: root) 0) slash) as [E|E]; [|now right]. left. exists (removelast (r :: root)). rewrite <- E. now apply app_removelast_last. }
  unfold path_split. destruct Hcase as [(h & Eh)|Hl].
  - rewrite Eh, last_app_one. replace (slash =? slash) with true by reflexivity. rewrite <- app_assoc. change ([slash] ++ c :: b) with (slash :: c :: b).
    rewrite last_slash by easy. rewrite <- Eh. destruct Ht as [Ht|Ht]; [now rewrite Ht|]. rewrite Eh, last_app_one in Ht. easy.
  - replace (last (r :: root) 0 =? slash) with false by (symmetry; now apply Z.eqb_neq). rewrite last_slash by easy.
    destruct (forallb (Z.eqb slash) ((r :: root) ++ [slash])) eqn:E.
    + exfalso. apply Hl. rewrite forallb_app in E. apply andb_true_iff in E as [E _].
      rewrite forallb_forall in E. assert (In (last (r :: root) 0) (r :: root)) as Hi.
      { clear. revert r. induction root as [|x root IH]; intros r; [now left|]. right. apply IH. }
      specialize (E _ Hi). lia.
    + f_equal. rewrite rev_app_distr. change (rev [slash]) with [slash]. cbn [app drop_slashes]. rewrite Z.eqb_refl.
      assert (drop_slashes (rev (r :: root)) = rev (r :: root)) as ->; [|now rewrite rev_involutive].
      destruct (rev (r :: root)) as [|x l] eqn:Er; [easy|]. cbn [drop_slashes].
      assert (last (r :: root) 0 = x) as Hx. { rewrite <- (rev_involutive (r :: root)), Er. cbn [rev]. apply last_app_one. }
      rewrite Hx in Hl. now replace (x =? slash) with false by lia.
Qed.
Lemma join_app root b : b <> [] -> ~ In slash b -> exists h, path_join root b = h ++ b.
Proof.
  intros Hn Hb. destruct b as [|c b]; [easy|]. unfold path_join. replace (c =? slash) with false by (symmetry; apply Z.eqb_neq; intros ->; apply Hb; now left).
  destruct root as [|r root]; [now exists []|]. destruct (last (r :: root) 0 =? slash); [now eexists|].
  exists ((r :: root) ++ [slash]). now rewrite <- app_assoc.
Qed.

(** ** Matching *)
Lemma matches_lits a ts s : matches (map Lit a ++ ts) s = true <-> exists r, s = a ++ r /\ matches ts r = true.
Proof.
  revert s. induction a as [|c a IH]; intros s; cbn [map app].
  - split; [intros H; now exists s|]. now intros (r & -> & H).
  - cbn [matches]. destruct s as [|x s]; [split; [easy|now intros (r & Hr & _)]|]. rewrite andb_true_iff. cbn [matches_one]. rewrite Z.eqb_eq, IH. split.
    + intros [-> (r & -> & H)]. now exists r.
    + intros (r & Hr & H). injection Hr as -> ->. split; [easy|]. now exists r.
Qed.
Lemma matches_star ts s : matches (Star :: ts) s = true <-> exists a r, s = a ++ r /\ matches ts r = true.
Proof.
  cbn [matches]. induction s as [|c s IH].
  - rewrite orb_false_r. split; [intros H; now exists [], []|]. intros (a & r & E & H). destruct a; [|easy]. cbn in E. now subst r.
  - rewrite orb_true_iff, IH. split.
    + intros [H|(a & r & -> & H)]; [now exists [], (c :: s)|now exists (c :: a), r].
    + intros (a & r & E & H). destruct a as [|x a]; cbn [app] in E; [left; now subst r|]. injection E as -> ->. right. now exists a, r.
Qed.
Lemma matches_nil s : matches [] s = true <-> s = [].
Proof. destruct s; now split. Qed.
Lemma matches_lits_only a s : matches (map Lit a) s = true <-> s = a.
Proof.
  rewrite <- (app_nil_r (map Lit a)), matches_lits. split.
  - intros (r & -> & H). apply matches_nil in H as ->. now rewrite app_nil_r.
  - intros ->. exists []. now rewrite app_nil_r.
Qed.

(** no character special to glob *)
Definition plain (p : str) : Prop := Forall (fun c => c <> 42 /\ c <> 63 /\ c <> 91) p.
Lemma plain_magic p : plain p -> has_magic p = false.
Proof.
  unfold plain, has_magic. induction 1 as [|c p H Hp IH]; [easy|]. cbn [existsb]. rewrite IH. lia.
Qed.
Lemma not_magic p : has_magic p = false -> plain p.
Proof.
  unfold plain, has_magic. induction p as [|c p IH]; intros H; [easy|]. cbn [existsb] in H. apply orb_false_iff in H as [H1 H2]. constructor; [lia|now apply IH].
Qed.
Lemma translate_plain a fuel p : plain a -> (length a <= fuel)%nat -> translate fuel (a ++ p) = map Lit a ++ translate (fuel - length a) p.
Proof.
  intros H. revert fuel. induction H as [|c a Hc Ha IH]; intros fuel Hf; [now rewrite Nat.sub_0_r|].
  destruct fuel as [|f]; [cbn in Hf; lia|]. cbn [app translate map length Nat.sub].
  replace (c =? 42) with false by lia. replace (c =? 63) with false by lia. replace (c =? 91) with false by lia.
  rewrite IH by (cbn in Hf; lia). easy.
Qed.
Lemma translate_nil f : translate f [] = [].
Proof. now destruct f. Qed.

Lemma translate_all a fuel : plain a -> (length a <= fuel)%nat -> translate fuel a = map Lit a.
Proof. intros H Hf. rewrite <- (app_nil_r a) at 1. now rewrite translate_plain, translate_nil, app_nil_r. Qed.

Lemma pack_pattern_matches n : fnmatch n pack_pattern = is_pack_name n.
Proof.
  apply eq_true_iff_eq. rewrite pack_name_iff. unfold fnmatch.
  change (translate (length pack_pattern) pack_pattern) with (map Lit [112; 97; 99; 107; 45] ++ Star :: map Lit [46; 112; 97; 99; 107]).
  rewrite matches_lits. unfold pack_and_index. split.
  - intros (r & -> & H). apply matches_star in H as (x & y & -> & H). apply matches_lits_only in H as ->. now exists ([112; 97; 99; 107; 45] ++ x ++ [46; 105; 100; 120]), x.
  - intros (idx & x & -> & _). eexists. split; [reflexivity|]. apply matches_star. exists x, [46; 112; 97; 99; 107]. split; [easy|]. now apply matches_lits_only.
Qed.
Lemma pack_not_hidden n : is_pack_name n = true -> is_hidden n = false.
Proof. intros H. apply pack_name_iff in H as (idx & x & -> & _). reflexivity. Qed.
Lemma pack_glob1 T d : glob1 T d pack_pattern false = filter is_pack_name (match t_list T d with Some l => map fst l | None => [] end).
Proof.
  unfold glob1, entries. change (is_hidden pack_pattern) with false. destruct (t_list T d) as [l|]; [|reflexivity].
  replace (map fst (filter (fun e : str * bool => negb false || snd e) l)) with (map fst l).
  2:{ f_equal. clear. induction l as [|x l IH]; [easy|]. cbn [filter negb orb]. f_equal. exact IH. }
  generalize (map fst l). clear. intros l. induction l as [|n l IH]; [easy|]. cbn [filter]. change (false || negb (is_hidden n)) with (negb (is_hidden n)). rewrite <- (pack_pattern_matches n). destruct (is_hidden n) eqn:E; cbn [negb filter].
  - rewrite IH. destruct (fnmatch n pack_pattern) eqn:F; [|easy]. rewrite pack_pattern_matches in F. apply pack_not_hidden in F. congruence.
  - now rewrite IH.
Qed.
Lemma slash_pattern : ~ In slash pack_pattern.
Proof. unfold slash. cbn. intuition discriminate. Qed.
Lemma join_magic root : has_magic (path_join root pack_pattern) = true.
Proof.
  destruct (join_app root pack_pattern) as (h & ->); [easy|exact slash_pattern|]. unfold has_magic. rewrite existsb_app. rewrite orb_true_iff. now right.
Qed.
Lemma join_longer root : beq root (path_join root pack_pattern) = false.
Proof.
  destruct (beq root _) eqn:E; [|easy]. apply beq_eq in E. exfalso.
  assert (length root = length (path_join root pack_pattern)) as H by congruence.
  unfold path_join, pack_pattern in H. change (112 =? slash) with false in H. destruct root as [|r root]; [easy|].
  destruct (last (r :: root) 0 =? slash); rewrite app_length in H; cbn in H; lia.
Qed.

(** ** What is found *)
Definition names_in (T : tree) (d : str) : list str := match t_list T d with Some l => map fst l | None => [] end.
Lemma glob_unfold T root : tidy root -> pack_files T root =
  flat_map (fun d => map (path_join d) (filter is_pack_name (names_in T d)))
    (if has_magic root then iglob (length (path_join root pack_pattern)) T root true else [root]).
Proof.
  intros Ht. unfold pack_files, glob. cbn [iglob]. rewrite split_join by (easy || exact slash_pattern).
  rewrite join_magic. cbn [negb]. rewrite join_longer. cbn [negb andb]. change (has_magic pack_pattern) with true. cbn iota.
  destruct root as [|r root].
  - change (has_magic []) with false. cbn [flat_map]. rewrite app_nil_r, pack_glob1. fold (names_in T []).
    transitivity (map (fun n : str => n) (filter is_pack_name (names_in T []))); [now rewrite map_id|]. apply map_ext_in. intros n Hn. apply filter_In in Hn as [_ Hn]. apply pack_name_iff in Hn as (idx & x & -> & _). reflexivity.
  - apply flat_map_ext. intros d. now rewrite pack_glob1.
Qed.
Lemma plain_glob T root : tidy root -> plain root -> pack_files T root = map (path_join root) (filter is_pack_name (names_in T root)).
Proof. intros Ht Hp. rewrite glob_unfold, plain_magic by easy. cbn [flat_map]. now rewrite app_nil_r. Qed.

(** the directories of a pattern in the last component *)
Lemma last_component T parent comp fuel : tidy parent -> plain parent -> parent <> [] -> ~ In slash comp -> has_magic comp = true -> (0 < fuel)%nat ->
  iglob fuel T (path_join parent comp) true = map (path_join parent) (glob1 T parent comp true).
Proof.
  intros Ht Hp Hne Hs Hm Hf. destruct fuel as [|f]; [lia|]. cbn [iglob]. assert (comp <> []) as Hn by now intros ->.
  rewrite split_join by easy. assert (has_magic (path_join parent comp) = true) as ->.
  { destruct (join_app parent comp Hn Hs) as (h & ->). unfold has_magic in *. rewrite existsb_app, Hm. now rewrite orb_true_r. }
  cbn [negb]. rewrite (plain_magic parent) by easy. rewrite andb_false_r, Hm. cbn [flat_map]. rewrite app_nil_r.
  now destruct parent as [|r parent].
Qed.
Lemma tidy_join parent comp : ~ In slash comp -> comp <> [] -> tidy (path_join parent comp).
Proof.
  intros Hs Hn. right. destruct (join_app parent comp Hn Hs) as (h & ->). destruct (exists_last Hn) as (l & x & ->). rewrite app_assoc, last_app_one.
  intros ->. apply Hs. apply in_or_app. right. now left.
Qed.
Definition subdir (T : tree) (d m : str) : Prop := exists l, t_list T d = Some l /\ In (m, true) l.
Lemma in_glob1 T d comp m : In m (glob1 T d comp true) <-> subdir T d m /\ (is_hidden comp = true \/ is_hidden m = false) /\ fnmatch m comp = true.
Proof.
  unfold glob1, entries, subdir. rewrite !filter_In, orb_true_iff, negb_true_iff. assert (In m match t_list T d with Some l => map fst (filter (fun e : str * bool => negb true || snd e) l) | None => [] end <-> exists l, t_list T d = Some l /\ In (m, true) l) as ->; [|tauto].
  destruct (t_list T d) as [l|]; [|split; [easy|now intros (l & H & _)]]. rewrite in_map_iff. split.
  - intros ([x b] & Hx & H). apply filter_In in H as [H1 H2]. cbn in *. subst. now exists l.
  - intros (l' & H1 & H2). injection H1 as <-. exists (m, true). split; [easy|]. apply filter_In. now split.
Qed.
Lemma in_component T parent comp p : tidy parent -> plain parent -> parent <> [] -> ~ In slash comp -> has_magic comp = true ->
  In p (pack_files T (path_join parent comp)) <->
  exists m n, p = path_join (path_join parent m) n /\ subdir T parent m /\ (is_hidden comp = true \/ is_hidden m = false) /\ fnmatch m comp = true /\
    In n (names_in T (path_join parent m)) /\ exists idx, pack_and_index n idx.
Proof.
  intros Ht Hp Hne Hs Hm. assert (comp <> []) as Hn by now intros ->. rewrite glob_unfold by now apply tidy_join.
  assert (has_magic (path_join parent comp) = true) as ->.
  { destruct (join_app parent comp Hn Hs) as (h & ->). unfold has_magic in *. rewrite existsb_app, Hm. now rewrite orb_true_r. }
  rewrite last_component; try easy.
  2:{ destruct (join_app (path_join parent comp) pack_pattern) as (h & ->); [easy|exact slash_pattern|]. rewrite app_length. cbn. lia. }
  rewrite in_flat_map. split.
  - intros (d & Hd & Hi). apply in_map_iff in Hd as (m & <- & Hm'). apply in_glob1 in Hm' as (H1 & H2 & H3). apply in_map_iff in Hi as (n & <- & Hi). apply filter_In in Hi as [H4 H5]. apply pack_name_iff in H5. now exists m, n.
  - intros (m & n & -> & H1 & H2 & H3 & H4 & H5). exists (path_join parent m). split; [apply in_map; now apply in_glob1|]. apply in_map. apply filter_In. split; [easy|]. now apply pack_name_iff.
Qed.

Lemma translate_bracket f x post : x <> 33 -> x <> 93 -> translate (S f) ([91; x; 93] ++ post) = Class false [(x, x)] :: translate f post.
Proof.
  intros Hx1 Hx2. cbn [translate app]. change (91 =? 42) with false. change (91 =? 63) with false. change (91 =? 91) with true. cbn iota.
  assert (bracket (x :: 93 :: post) = Some ([x], post)) as ->.
  { unfold bracket, skip_char. replace (x =? 33) with false by lia. replace (x =? 93) with false by lia. cbn [until_bracket]. replace (x =? 93) with false by lia. reflexivity. }
  unfold char_class. replace (x =? 33) with false by lia. reflexivity.
Qed.
(** "pre[x]post" matches the one name "prexpost". *)
Lemma bracket_matches pre x post m : plain pre -> plain post -> x <> 33 -> x <> 93 ->
  fnmatch m (pre ++ [91; x; 93] ++ post) = true <-> m = pre ++ [x] ++ post.
Proof.
  intros H1 H2 Hx1 Hx2. unfold fnmatch. rewrite translate_plain by (easy || (rewrite app_length; lia)). rewrite matches_lits.
  rewrite app_length. replace (length pre + length ([91; x; 93]%Z ++ post) - length pre)%nat with (S (S (S (length post)))) by (cbn [app length]; lia).
  rewrite translate_bracket by easy.
  rewrite translate_all by (easy || lia).
  split.
  - intros (r & -> & H). destruct r as [|y r]; [easy|]. cbn [matches] in H. apply andb_true_iff in H as [Hy H]. apply matches_lits_only in H as ->.
    cbn [matches_one existsb fst snd] in Hy. f_equal. cbn [app]. f_equal. lia.
  - intros ->. eexists. split; [reflexivity|]. cbn [app matches matches_one existsb fst snd]. rewrite Z.leb_refl. cbn. now apply matches_lits_only.
Qed.
(** "pre*post" *)
Lemma star_matches pre post m : plain pre -> plain post -> fnmatch m (pre ++ 42 :: post) = true <-> exists y, m = pre ++ y ++ post.
Proof.
  intros H1 H2. unfold fnmatch. rewrite translate_plain by (easy || (rewrite app_length; lia)). rewrite matches_lits.
  rewrite app_length. replace (length pre + length (42%Z :: post) - length pre)%nat with (S (length post)) by (cbn [length]; lia).
  change (translate (S (length post)) (42 :: post)) with (Star :: translate (length post) post).
  rewrite translate_all by (easy || lia). split.
  - intros (r & -> & H). apply matches_star in H as (y & z & -> & H). apply matches_lits_only in H as ->. now exists y.
  - intros (y & ->). eexists. split; [reflexivity|]. apply matches_star. exists y, post. split; [easy|]. now apply matches_lits_only.
Qed.

(** ** The names of the two files *)
Lemma find_from_skip c a l i : ~ In c a -> find_from c (a ++ c :: l) i = i + len a.
Proof.
  revert i. induction a as [|x a IH]; intros i H; cbn [app find_from].
  - rewrite Z.eqb_refl, len_nil. lia.
  - replace (x =? c) with false by (symmetry; apply Z.eqb_neq; intros ->; apply H; now left). rewrite IH by (intros Hi; apply H; now right). rewrite len_cons. lia.
Qed.
Lemma rfind_app c a b : ~ In c b -> rfind c (a ++ c :: b) = len a.
Proof.
  intros H. unfold rfind, find. rewrite rev_app_distr. cbn [rev]. rewrite <- app_assoc. cbn [app]. rewrite find_from_skip by now rewrite <- in_rev.
  assert (len (rev b) = len b) as -> by (unfold len; now rewrite rev_length). pose proof (len_nonneg _ b). replace (0 + len b <? 0) with false by lia. rewrite len_app, len_cons. lia.
Qed.
Lemma find_from_low c l i : 0 <= i -> -1 <= find_from c l i /\ (find_from c l i < 0 -> ~ In c l).
Proof.
  revert i. induction l as [|x l IH]; intros i Hi; cbn [find_from]; [split; [lia|easy]|]. destruct (x =? c) eqn:E; [split; lia|].
  destruct (IH (i + 1)) as [H1 H2]; [lia|]. split; [easy|]. intros H [->|H']; [lia|now apply H2].
Qed.
Lemma rfind_tail c a b : ~ In c b -> rfind c (a ++ b) < len a.
Proof.
  intros H. pose proof (len_nonneg _ a). unfold rfind. destruct (find c (rev (a ++ b)) <? 0) eqn:E; [lia|].
  rewrite rev_app_distr in *. assert (Hb : ~ In c (rev b)) by now rewrite <- in_rev.
  assert (len b <= find c (rev b ++ rev a)); [|rewrite len_app; lia].
  assert (len (rev b) = len b) as <- by (unfold len; now rewrite rev_length).
  unfold find in *. assert (forall i, 0 <= i -> ~ find_from c (rev b ++ rev a) i < 0 -> i + len (rev b) <= find_from c (rev b ++ rev a) i) as Hgo; [|specialize (Hgo 0); lia].
  clear E. revert Hb. generalize (rev b) (rev a). clear. intros l k Hl. induction l as [|x l IH]; intros i Hi H; cbn [app find_from] in *.
  - rewrite len_nil. revert i Hi H. induction k as [|x k IH]; intros i Hi H; cbn [find_from] in *; [lia|]. destruct (x =? c); [lia|]. specialize (IH (i + 1)). lia.
  - assert (x =? c = false) as E by (apply Z.eqb_neq; intros ->; apply Hl; now left). rewrite E in *. rewrite len_cons. specialize (IH (fun h => Hl (or_intror h)) (i + 1)). lia.
Qed.
Lemma entity_files_ok root n idx : pack_and_index n idx -> ~ In slash n -> entity_files (path_join root n) = (path_join root idx, path_join root n).
Proof.
  intros (x & -> & ->) Hs. assert (exists h, forall y, path_join root ([112; 97; 99; 107; 45] ++ y) = h ++ [112; 97; 99; 107; 45] ++ y) as (h & Hh).
  { unfold path_join. cbn [app]. change (112 =? slash) with false. cbn iota. destruct root as [|r root]; [now exists []|]. destruct (last (r :: root) 0 =? slash); [now exists (r :: root)|]. exists ((r :: root) ++ [slash]). intros y. now rewrite <- app_assoc. }
  rewrite !Hh. unfold entity_files, splitext.
  set (base := h ++ [112; 97; 99; 107; 45] ++ x).
  replace (h ++ [112; 97; 99; 107; 45] ++ x ++ [46; 112; 97; 99; 107]) with (base ++ [46; 112; 97; 99; 107]) by (unfold base; now rewrite <- !app_assoc).
  replace (h ++ [112; 97; 99; 107; 45] ++ x ++ [46; 105; 100; 120]) with (base ++ [46; 105; 100; 120]) by (unfold base; now rewrite <- !app_assoc).
  assert (rfind dot (base ++ [46; 112; 97; 99; 107]) = len base) as -> by (apply rfind_app; unfold dot; cbn; intuition discriminate).
  assert (rfind slash (base ++ [46; 112; 97; 99; 107]) < len h) as Hsep.
  { unfold base. rewrite <- app_assoc. apply rfind_tail. rewrite <- app_assoc. exact Hs. }
  assert (-1 <= rfind slash (base ++ [46; 112; 97; 99; 107])) as Hlow.
  { unfold rfind. destruct (find slash (rev (base ++ [46; 112; 97; 99; 107])) <? 0) eqn:E; [lia|].
    pose proof (find_from_low slash (rev (base ++ [46; 112; 97; 99; 107])) 0).
    assert (forall l i, find_from slash l i < i + len l \/ find_from slash l i < 0) as Hup.
    { clear. induction l as [|y l IH]; intros i; cbn [find_from]; [right; lia|]. rewrite len_cons. pose proof (len_nonneg _ l). destruct (y =? slash); [lia|]. specialize (IH (i + 1)). lia. }
    specialize (Hup (rev (base ++ [46; 112; 97; 99; 107])) 0). unfold find in *.
    assert (len (rev (base ++ [46; 112; 97; 99; 107])) = len (base ++ [46; 112; 97; 99; 107])) as Hr by (unfold len; now rewrite rev_length). lia. }
  revert Hsep Hlow. generalize (rfind slash (base ++ [46; 112; 97; 99; 107])). intros sep Hsep Hlow.
  assert (len h + 5 <= len base) as Hb. { unfold base. rewrite !len_app. pose proof (len_nonneg _ x). change (len [112; 97; 99; 107; 45]) with 5. lia. }
  pose proof (len_nonneg _ h).
  replace (sep <? len base) with true by lia. cbn [andb].
  assert (existsb (fun c => negb (c =? dot)) (slice (base ++ [46; 112; 97; 99; 107]) (sep + 1) (len base)) = true) as ->.
  { apply existsb_exists. exists 112. split; [|reflexivity]. unfold slice, norm_idx. replace (sep + 1 <? 0) with false by lia. replace (len base <? 0) with false by lia.
    rewrite !len_app. change (len [46; 112; 97; 99; 107]) with 5. rewrite !Z.min_l by lia.
    unfold base. rewrite <- app_assoc, skipn_app. replace (Z.to_nat (sep + 1) - length h)%nat with 0%nat by (unfold len in *; lia). cbn [skipn].
    rewrite firstn_app. apply in_or_app. right. rewrite skipn_length.
    fold base. remember (Z.to_nat (len base - (sep + 1)) - (length h - Z.to_nat (sep + 1)))%nat as k. destruct k; [unfold len in *; lia|]. now left. }
  unfold slice_to, norm_idx. replace (len base <? 0) with false by lia. rewrite len_app. change (len [46; 112; 97; 99; 107]) with 5. rewrite Z.min_l by lia.
  cbn [fst]. replace (Z.to_nat (len base)) with (length base) by (unfold len; lia). rewrite firstn_app, Nat.sub_diag, firstn_all. cbn [firstn]. now rewrite app_nil_r.
Qed.

(** ** Patterns in general *)
Lemma range_first_dec s : range_first s \/ ~ range_first s.
Proof.
  destruct s as [|a [|m [|b s]]]; try (right; now intros (? & ? & ? & ?)). destruct (Z.eq_dec m 45) as [->|H]; [left; now exists a, b, s|].
  right. intros (a' & b' & t & E). congruence.
Qed.
Lemma ranges_range a b s : ranges (a :: 45 :: b :: s) = (a, b) :: ranges s.
Proof. reflexivity. Qed.
Lemma ranges_char a s : ~ range_first (a :: s) -> ranges (a :: s) = (a, a) :: ranges s.
Proof.
  intros H. destruct s as [|m [|b s]]; [easy|easy|]. cbn [ranges]. destruct (m =? 45) eqn:E; [|easy]. elim H. apply Z.eqb_eq in E as ->. now exists a, b, s.
Qed.
Lemma ranges_ok c : forall n s, (length s <= n)%nat -> existsb (fun r => (fst r <=? c) && (c <=? snd r)) (ranges s) = true <-> in_set c s.
Proof.
  induction n as [|n IH]; intros s Hn; [destruct s; [|cbn in Hn; lia]; cbn; split; [easy|now inversion 1]|].
  destruct s as [|a s]; [cbn; split; [easy|now inversion 1]|]. destruct (range_first_dec (a :: s)) as [(a' & b & t & E)|H].
  - injection E as -> ->. cbn [length] in Hn. rewrite ranges_range. cbn [existsb fst snd]. rewrite orb_true_iff, IH by lia. split.
    + intros [H|H]; [apply set_range; lia|now apply set_range_later].
    + inversion 1; subst; [left; lia|now right| |]; exfalso; match goal with H : ~ range_first _ |- _ => apply H end; repeat eexists.
  - cbn [length] in Hn. rewrite ranges_char by easy. cbn [existsb fst snd]. rewrite orb_true_iff, IH by lia. split.
    + intros [H'|H']; [|now apply set_char_later]. assert (c = a) as -> by lia. now apply set_char.
    + inversion 1; subst; [exfalso; apply H; repeat eexists|exfalso; apply H; repeat eexists|left; lia|now right].
Qed.
Lemma until_ok p s p2 : until_bracket p = Some (s, p2) <-> ~ In 93 s /\ p = s ++ 93 :: p2.
Proof.
  revert s p2. induction p as [|c p IH]; intros s p2; cbn [until_bracket].
  - split; [easy|]. intros [_ H]. now destruct s.
  - destruct (c =? 93) eqn:E.
    + apply Z.eqb_eq in E as ->. split; [intros [= <- <-]; now split|]. intros [H1 H2]. destruct s as [|x s]; [now injection H2 as ->|]. injection H2 as <- _. elim H1. now left.
    + apply Z.eqb_neq in E. destruct (until_bracket p) as [[q r]|] eqn:Eq; cbn [option_map fst snd].
      * specialize (proj1 (IH q r) eq_refl) as [H1 H2]. split.
        -- intros [= <- <-]. split; [|now rewrite H2]. intros [H|H]; congruence.
        -- intros [H3 H4]. destruct s as [|x s]; [injection H4 as -> _; easy|]. injection H4 as -> H4. assert (Hs : Some (q, r) = Some (s, p2)); [|now injection Hs as -> ->].
           apply IH. split; [|easy]. intros H. apply H3. now right.
      * split; [easy|]. intros [H3 H4]. destruct s as [|x s]; [injection H4 as -> _; easy|]. injection H4 as -> H4. assert (Hs : None = Some (s, p2)); [|easy].
        apply IH. split; [|easy]. intros H. apply H3. now right.
Qed.
Lemma skip_93 p s p2 : skip_char 93 until_bracket p = Some (s, p2) <-> exists f rest, s = f :: rest /\ ~ In 93 rest /\ p = f :: rest ++ 93 :: p2.
Proof.
  unfold skip_char. destruct p as [|x p].
  - cbn. split; [easy|]. now intros (f & rest & _ & _ & H).
  - destruct (x =? 93) eqn:E.
    + apply Z.eqb_eq in E as ->. destruct (until_bracket p) as [[q r]|] eqn:Eq; cbn [option_map fst snd].
      * pose proof (proj1 (until_ok _ _ _) Eq) as [H1 H2]. split; [intros [= <- <-]; exists 93, q; now rewrite H2|].
        intros (f & rest & -> & H3 & H4). injection H4 as <- H4. assert (Hs : until_bracket p = Some (rest, p2)) by now apply until_ok. now rewrite Eq in Hs; injection Hs as -> ->.
      * split; [easy|]. intros (f & rest & -> & H3 & H4). injection H4 as <- H4. assert (Hs : until_bracket p = Some (rest, p2)) by now apply until_ok. congruence.
    + apply Z.eqb_neq in E. rewrite until_ok. split.
      * intros [H1 H2]. destruct s as [|f rest]; [injection H2 as -> _; easy|]. injection H2 as -> ->. exists f, rest. split; [easy|]. split; [|easy]. intros H. apply H1. now right.
      * intros (f & rest & -> & H1 & H2). injection H2 as <- ->. split; [|easy]. intros [H|H]; congruence.
Qed.
Lemma bracket_ok p s p2 : bracket p = Some (s, p2) <-> exists neg f rest, set_body neg f rest /\ s = bang neg ++ f :: rest /\ p = bang neg ++ f :: rest ++ 93 :: p2.
Proof.
  unfold bracket. unfold skip_char at 1. destruct p as [|x p].
  - split; [easy|]. intros (neg & f & rest & _ & _ & H). now destruct neg.
  - destruct (x =? 33) eqn:E.
    + apply Z.eqb_eq in E as ->. destruct (skip_char 93 until_bracket p) as [[q r]|] eqn:Eq; cbn [option_map fst snd].
      * pose proof (proj1 (skip_93 _ _ _) Eq) as (f & rest & -> & H1 & H2). split.
        -- intros [= <- <-]. exists true, f, rest. split; [now split|]. split; [easy|]. now rewrite H2.
        -- intros (neg & f' & rest' & [H3 H4] & -> & H5). destruct neg; [|injection H5 as <- _; now elim H3]. injection H5 as H5.
           assert (Hs : skip_char 93 until_bracket p = Some (f' :: rest', p2)) by (apply skip_93; now exists f', rest'). rewrite Eq in Hs. now injection Hs as -> -> ->.
      * split; [easy|]. intros (neg & f' & rest' & [H3 H4] & -> & H5). destruct neg; [|injection H5 as <- _; now elim H3]. injection H5 as H5.
        assert (Hs : skip_char 93 until_bracket p = Some (f' :: rest', p2)) by (apply skip_93; now exists f', rest'). congruence.
    + apply Z.eqb_neq in E. rewrite skip_93. split.
      * intros (f & rest & -> & H1 & H2). injection H2 as -> ->. exists false, f, rest. now split.
      * intros (neg & f & rest & [H1 H2] & -> & H3). destruct neg; [now injection H3|]. exists f, rest. now split.
Qed.
Lemma class_ok neg f rest c : set_body neg f rest -> matches_one (char_class (bang neg ++ f :: rest)) c = true <-> (in_set c (f :: rest) <-> neg = false).
Proof.
  intros [H1 H2]. pose proof (ranges_ok c (length (f :: rest)) (f :: rest) (le_n _)) as Hr. destruct neg.
  - cbn [bang app char_class matches_one]. change (33 =? 33) with true. cbn iota. cbn [matches_one]. rewrite xorb_true_l, negb_true_iff, <- not_true_iff_false, Hr. intuition congruence.
  - specialize (H1 eq_refl). cbn [bang app char_class]. replace (f =? 33) with false by lia. cbn [matches_one]. rewrite xorb_false_l, Hr. intuition congruence.
Qed.
Lemma matches_step t ts s : t <> Star -> matches (t :: ts) s = true <-> exists c s', s = c :: s' /\ matches_one t c = true /\ matches ts s' = true.
Proof.
  intros Ht. destruct t; [easy|..]; cbn [matches]; (destruct s as [|y s]; [split; [easy|now intros (? & ? & ? & _)]|]); rewrite andb_true_iff;
    (split; [intros [H1 H2]; now exists y, s|intros (? & ? & [= -> ->] & H); exact H]).
Qed.
Lemma class_not_star s : char_class s <> Star.
Proof. unfold char_class. destruct s as [|c s]; [easy|]. now destruct (c =? 33). Qed.
Lemma shell_iff : forall fuel p s, (length p <= fuel)%nat -> matches (translate fuel p) s = true <-> shell p s.
Proof.
  induction fuel as [|n IH]; intros p s Hn.
  - destruct p; [|cbn in Hn; lia]. cbn [translate]. rewrite matches_nil. split; [intros ->; constructor|now inversion 1].
  - destruct p as [|c p]; [cbn [translate]; rewrite matches_nil; split; [intros ->; constructor|now inversion 1]|]. cbn [length] in Hn. cbn [translate].
    destruct (c =? 42) eqn:E1.
    { apply Z.eqb_eq in E1 as ->. rewrite matches_star. split.
      - intros (a & r & -> & H). constructor. apply IH; [lia|easy].
      - inversion 1; subst; try easy. exists x, s0. split; [easy|]. apply IH; [lia|easy]. }
    apply Z.eqb_neq in E1. destruct (c =? 63) eqn:E2.
    { apply Z.eqb_eq in E2 as ->. rewrite matches_step by easy. split.
      - intros (a & r & -> & _ & H). constructor. apply IH; [lia|easy].
      - inversion 1; subst; try easy. exists c, s0. split; [easy|]. split; [easy|]. apply IH; [lia|easy]. }
    apply Z.eqb_neq in E2. destruct (c =? 91) eqn:E3.
    { apply Z.eqb_eq in E3 as ->. destruct (bracket p) as [[b p2]|] eqn:Eb.
      - pose proof (proj1 (bracket_ok _ _ _) Eb) as (neg & f & rest & Hb & -> & Hp). rewrite matches_step by apply class_not_star.
        assert (length p2 <= n)%nat. { rewrite Hp, app_length in Hn. cbn [length] in Hn. rewrite app_length in Hn. cbn [length] in Hn. lia. }
        split.
        + intros (c & r & -> & H1 & H2). rewrite Hp. apply shell_set; [easy|now apply class_ok|now apply IH].
        + inversion 1 as [| | |neg' f' rest' p' c s0 Hb' Hc Hs E E'|p' s0 Hu Hs|]; subst; [| |easy].
          * assert (Hs2 : bracket (bang neg' ++ f' :: rest' ++ 93 :: p') = Some (bang neg' ++ f' :: rest', p')) by (apply bracket_ok; now exists neg', f', rest').
            rewrite E, Eb in Hs2. injection Hs2 as Hs2 Hs3. subst p'. assert (E4 : neg = neg' /\ f = f' /\ rest = rest').
            { destruct Hb as [Hb1 _], Hb' as [Hb2 _]. destruct neg, neg'; cbn [bang app] in Hs2; [now injection Hs2 as -> ->| | |now injection Hs2 as -> ->].
              - injection Hs2 as <- _. now elim Hb2.
              - injection Hs2 as -> _. now elim Hb1. }
            destruct E4 as (-> & -> & ->). exists c, s0. split; [easy|]. split; [now apply class_ok|now apply IH].
          * now elim (Hu neg f rest p2 Hb).
      - rewrite matches_step by easy. cbn [matches_one]. assert (Hu : unclosed p).
        { intros neg f rest p' Hb E. assert (Hs2 : bracket p = Some (bang neg ++ f :: rest, p')) by (apply bracket_ok; now exists neg, f, rest). congruence. }
        split.
        + intros (c & r & -> & H1 & H2). apply Z.eqb_eq in H1 as ->. apply shell_unclosed; [easy|]. apply IH; [lia|easy].
        + inversion 1 as [| | |neg' f' rest' p' c s0 Hb' Hc Hs E E'|p' s0 Hu' Hs|]; subst; [now elim (Hu neg' f' rest' p' Hb')| |easy].
          exists 91, s0. split; [easy|]. split; [easy|]. apply IH; [lia|easy]. }
    apply Z.eqb_neq in E3. rewrite matches_step by easy. cbn [matches_one]. split.
    + intros (x & r & -> & H1 & H2). apply Z.eqb_eq in H1 as ->. apply shell_char; try easy. apply IH; [lia|easy].
    + inversion 1; subst; try easy. exists c, s0. split; [easy|]. split; [apply Z.eqb_refl|]. apply IH; [lia|easy].
Qed.
Lemma fnmatch_iff s p : fnmatch s p = true <-> shell p s.
Proof. apply shell_iff, le_n. Qed.

(** ** Other paths *)
Lemma find_none c l : ~ In c l -> forall i, find_from c l i = -1.
Proof.
  induction l as [|x l IH]; intros H i; cbn [find_from]; [easy|].
  destruct (x =? c) eqn:E; [exfalso; apply H; left; lia|]. apply IH. intros Hi. apply H. now right.
Qed.
Lemma rfind_none c l : ~ In c l -> rfind c l = -1.
Proof. intros H. unfold rfind, find. rewrite find_none; [easy|]. now rewrite <- in_rev. Qed.
Lemma splitext_ext h stem ext : (h = [] \/ last h 0 = slash) -> ~ In slash (stem ++ ext) -> ~ In dot ext ->
  splitext (h ++ stem ++ dot :: ext) = if existsb (fun c => negb (c =? dot)) stem then (h ++ stem, dot :: ext) else (h ++ stem ++ dot :: ext, []).
Proof.
  intros Hh Hs He. unfold splitext. assert (rfind dot (h ++ stem ++ dot :: ext) = len (h ++ stem)) as -> by (rewrite app_assoc; now apply rfind_app).
  assert (rfind slash (h ++ stem ++ dot :: ext) = len h - 1) as ->.
  { destruct Hh as [-> |Hh]; [rewrite rfind_none|]; [easy| |].
    - cbn [app]. rewrite in_app_iff in *. cbn [In]. unfold dot, slash in *. intuition discriminate.
    - destruct (exists_last (l := h)) as (h' & x & ->); [intros ->; discriminate Hh|]. rewrite last_last in Hh. subst x. rewrite <- app_assoc. cbn [app]. rewrite rfind_app; [rewrite len_app; cbn; lia|].
      rewrite in_app_iff in *. cbn [In]. unfold dot, slash in *. intuition discriminate. }
  pose proof (len_nonneg _ h). pose proof (len_nonneg _ stem). rewrite len_app. replace (len h - 1 + 1) with (len h) by lia. rewrite slice_mid by easy.
  replace (len h - 1 <? len h + len stem) with true by lia. cbn [andb]. destruct (existsb _ stem); [|easy].
  rewrite app_assoc, slice_to_app, slice_from_app by (rewrite len_app; lia). easy.
Qed.
Lemma splitext_plain h name : (h = [] \/ last h 0 = slash) -> ~ In slash name -> ~ In dot name -> splitext (h ++ name) = (h ++ name, []).
Proof.
  intros Hh Hs Hd. unfold splitext. assert (rfind slash (h ++ name) = len h - 1) as ->.
  { destruct Hh as [-> |Hh]; [now rewrite rfind_none|]. destruct (exists_last (l := h)) as (h' & x & ->); [intros ->; discriminate Hh|]. rewrite last_last in Hh. subst x. rewrite <- app_assoc. cbn [app]. rewrite rfind_app by easy. rewrite len_app. cbn. lia. }
  assert (rfind dot (h ++ name) < len h) as H by now apply rfind_tail. replace (len h - 1 <? rfind dot (h ++ name)) with false by lia. easy.
Qed.
