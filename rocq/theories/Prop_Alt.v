(** C104: the alternates file is read as git reads it. *)
From Coq Require Import ZifyBool ZifyNat Permutation Relations.
From Verif Require Import Py PyFacts FunModel FunSpec IndexModel IndexSpec ZlibModel ReaderModel PackModel PackSpec Prop_Index Prop_Pack
  OsModel LooseModel PackDbModel PackDbSpec PackDbProofs PackDbTop Prop_PackDb MemModel CompoundModel CompoundSpec GitModel GitSpec GitProofs GitMain Prop_Git AltSpec AltProofs.

(** What C53 says about has_object after a history of calls. *)
Lemma run_snoc F K fuel o : forall ops d, fst (g_run F K fuel (ops ++ [o]) d) = fst (g_run F K fuel ops d) ++ [fst (g_do F K fuel o (snd (g_run F K fuel ops d)))].
Proof.
  induction ops as [|o' ops IH]; intros d; cbn [app g_run].
  - cbn [fst snd app]. destruct (g_do F K fuel o d) as [a d']. reflexivity.
  - destruct (g_do F K fuel o' d) as [a d']. specialize (IH d'). destruct (g_run F K fuel (ops ++ [o]) d') as [l1 d1]. destruct (g_run F K fuel ops d') as [l2 d2]. cbn [fst snd] in *. now rewrite IH.
Qed.
Lemma has_says F U K r : proper_from F U r -> finite_acyclic F r ->
  exists N, forall fuel ops sha, (N <= fuel)%nat -> Forall g_proper ops -> sha_ok sha ->
  exists b, fst (db_has F fuel sha (snd (g_run F K fuel ops (gitdb r)))) = Ok b /\ (b = true <-> found F U r sha).
Proof.
  intros Hp Hac. destruct (C53_alternates F U K r 0 Hp Hac) as (N & HN). exists N. intros fuel ops sha Hf Hops Hsha.
  assert (Forall2 (g_right F U K 0 r) (ops ++ [GHas sha]) (fst (g_run F K fuel (ops ++ [GHas sha]) (gitdb r)))) as H.
  { destruct (g_run F K fuel (ops ++ [GHas sha]) (gitdb r)) as [l d] eqn:E. apply (HN fuel _ l d Hf); [|exact E]. apply Forall_app. split; [exact Hops|]. constructor; [exact Hsha|constructor]. }
  rewrite run_snoc in H. apply Forall2_app_inv_l in H as (l1 & l2 & _ & H & E). inversion H as [|o a ? ? Ha Hn]; subst. inversion Hn; subst.
  apply app_inj_tail in E as [_ E]. cbn [g_do] in E. destruct (db_has F fuel sha (snd (g_run F K fuel ops (gitdb r)))) as [x d]. cbn [fst] in *. subst a. exact Ha.
Qed.
Lemma has_false F U K r sha : proper_from F U r -> finite_acyclic F r -> ~ found F U r sha -> sha_ok sha ->
  exists N, forall fuel ops, (N <= fuel)%nat -> Forall g_proper ops -> fst (db_has F fuel sha (snd (g_run F K fuel ops (gitdb r)))) = Ok false.
Proof.
  intros Hp Hac Hn Hsha. destruct (has_says F U K r Hp Hac) as (N & HN). exists N. intros fuel ops Hf Hops. destruct (HN fuel ops sha Hf Hops Hsha) as (b & -> & Hb).
  destruct b; [|reflexivity]. exfalso. apply Hn. now apply Hb.
Qed.

(** ** Example: a repository /a with an alternates file, and another one with one object *)
Definition al_fs (text name : list Z) : fs :=
  mk_fs (fun p => if beq p p_a then Some (mk_repo None [] (Some (Ok text))) else if beq p name then Some (mk_repo None [(n1, Ok loose_hi)] None) else None) (fun l => l).
Definition al_U (r : list Z) : bytes -> option pack := fun _ => None.
Lemma al_repo text name p R : f_repo (al_fs text name) p = Some R ->
  (p = p_a /\ R = mk_repo None [] (Some (Ok text))) \/ (p = name /\ R = mk_repo None [(n1, Ok loose_hi)] None).
Proof.
  cbn [al_fs f_repo]. destruct (beq p p_a) eqn:E1; [intros H; injection H as <-; apply beq_eq in E1; now left|]. destruct (beq p name) eqn:E2; [|discriminate].
  intros H. injection H as <-. apply beq_eq in E2. now right.
Qed.
Lemma al_name text name : name <> p_a -> f_repo (al_fs text name) name = Some (mk_repo None [(n1, Ok loose_hi)] None).
Proof.
  intros H. cbn [al_fs f_repo]. destruct (beq name p_a) eqn:E1; [apply beq_eq in E1; contradiction|]. now rewrite (proj2 (beq_eq name name) eq_refl).
Qed.
Lemma al_proper text name : proper_from (al_fs text name) al_U p_a.
Proof.
  split; [intros l; apply Permutation_refl|]. split; [split; [discriminate|now eexists]|]. intros r' _ R HR.
  apply al_repo in HR as [[_ ->]|[_ ->]]; cbn; (split; [intros d H; discriminate|]); (split; [repeat constructor; easy|]); intros t H; [injection H as <-; left; now eexists|discriminate].
Qed.
Lemma al_alternate text name x y : ~ line_of text p_a -> alternate (al_fs text name) x y -> x = p_a /\ y = name /\ name <> p_a.
Proof.
  intros Hn ((R & t & HR & Ha & Hl) & (_ & R' & HR')). apply al_repo in HR as [[-> ->]|[_ ->]]; [|discriminate]. injection Ha as <-.
  assert (y <> p_a) as Hy by (intros ->; contradiction). apply al_repo in HR' as [[-> _]|[-> _]]; [contradiction|easy].
Qed.
Lemma al_acyclic text name : ~ line_of text p_a -> finite_acyclic (al_fs text name) p_a.
Proof.
  intros Hn. split.
  - exists [p_a; name]. intros r' H. apply clos_rt_rtn1 in H. inversion H as [|y z Hy _]; [now left|]. subst. apply (al_alternate _ _ _ _ Hn) in Hy as (_ & -> & _). right; now left.
  - intros r' _ H. apply clos_trans_tn1 in H. assert (exists y, alternate (al_fs text name) y r' /\ (y = r' \/ clos_trans _ (alternate (al_fs text name)) r' y)) as (y & Hy & H').
    { inversion H as [Hz|y z Hz Hr]; subst; [exists r'; auto|exists y; split; [exact Hz|right; now apply clos_tn1_trans]]. }
    apply (al_alternate _ _ _ _ Hn) in Hy as (-> & E & Hne). destruct H' as [H'|H']; [congruence|]. apply clos_trans_t1n in H'. subst r'.
    inversion H' as [y Hz|y z Hz _]; subst; apply (al_alternate _ _ _ _ Hn) in Hz as (Hz & _); contradiction.
Qed.
Lemma al_has text name : name <> p_a -> repo_has (al_fs text name) al_U name n1.
Proof. intros H. right. exists (mk_repo None [(n1, Ok loose_hi)] None), (Ok loose_hi). split; [now apply al_name|now left]. Qed.
Lemma al_only text name q sha : repo_has (al_fs text name) al_U q sha -> q = name.
Proof.
  intros [(R & d & n & k & HR & Hd & _)|(R & c & HR & Hi)]; apply al_repo in HR as [[-> ->]|[-> ->]]; try discriminate; [destruct Hi|reflexivity].
Qed.
Lemma al_lines text p : line_of text p <-> p <> [] /\ In p (map strip (splitlines text)).
Proof. split; [intros H; split; [now apply (line_nonempty text)|now apply line_in]|intros [H1 H2]; now apply lines_iff]. Qed.
(** The lines of a given text. *)
Fixpoint nl_from (cur text : list Z) : list (list Z) :=
  match text with [] => [cur] | c :: t => if c =? 10 then cur :: nl_from [] t else nl_from (cur ++ [c]) t end.
Lemma nl_in line : forall text cur, ~ In 10 cur -> nl_line (cur ++ text) line -> In line (nl_from cur text).
Proof.
  induction text as [|c t IH]; intros cur Hc (a & b & E & Ha & Hb & Hl); cbn [nl_from].
  - rewrite app_nil_r in E. left. destruct Ha as [-> |(a' & ->)]; [|exfalso; apply Hc; rewrite E; apply in_or_app; left; apply in_or_app; right; now left].
    destruct Hb as [-> |(b' & ->)]; [now rewrite app_nil_r in E|]. exfalso. apply Hc. rewrite E. apply in_or_app. right. apply in_or_app. right. now left.
  - destruct (Z.eqb_spec c 10) as [-> |Hne].
    + destruct Ha as [-> |(a' & ->)].
      * left. cbn [app] in E. apply app_eq_app in E as (z & [[-> E]|[-> E]]).
        -- destruct z as [|d z]; [now rewrite app_nil_r|]. destruct Hb as [-> |(b' & ->)]; [discriminate|]. injection E as E1 _. subst d. exfalso. apply Hc. apply in_or_app. right. now left.
        -- destruct z as [|d z]; [now rewrite app_nil_r|]. injection E as E1 _. subst d. exfalso. apply Hl. apply in_or_app. right. now left.
      * right. apply IH; [easy|]. cbn [app]. rewrite <- app_assoc in E. cbn [app] in E. apply app_eq_app in E as (z & [[-> E]|[-> E]]).
        -- destruct z as [|d z]; [|injection E as E1 _; subst d; exfalso; apply Hc; apply in_or_app; right; now left]. injection E as <-. exists [], b. split; [easy|]. split; [now left|now split].
        -- destruct z as [|d z]; [injection E as ->; exists [], b; split; [easy|]; split; [now left|now split]|]. injection E as E1 ->. subst d. exists (z ++ [10]), b. rewrite <- app_assoc. split; [easy|]. split; [right; now exists z|now split].
    + apply IH; [|exists a, b; rewrite <- app_assoc; now repeat split]. intros H. apply in_app_or in H as [H|[H|[]]]; [now apply Hc|now apply Hne].
Qed.
Lemma nl_is a line b : ~ In 10 line -> nl_line (a ++ 10 :: line ++ 10 :: b) line /\ nl_line (line ++ 10 :: b) line.
Proof.
  intros H. split; [exists (a ++ [10]), (10 :: b); rewrite <- app_assoc; split; [easy|]; split; [right; now exists a|]|exists [], (10 :: b); split; [easy|]; split; [now left|]]; (split; [right; now exists b|exact H]).
Qed.
Definition odd_char (c : Z) : bool := is_space c || is_break c.
Lemma not_odd p : existsb odd_char p = false -> ~ odd_path p.
Proof.
  intros H. assert (forall c, In c p -> is_space c = false /\ is_break c = false) as Hc.
  { intros c Hi. assert (odd_char c = false) as E by (destruct (odd_char c) eqn:E; [|easy]; rewrite <- H; symmetry; apply existsb_exists; now exists c). now apply orb_false_elim in E. }
  intros [(c & p' & -> & Hw)|[(c & p' & -> & Hw)|(c & Hi & Hb)]].
  - apply space_iff in Hw. destruct (Hc c) as [E _]; [now left|congruence].
  - apply space_iff in Hw. destruct (Hc c) as [E _]; [apply in_or_app; right; now left|congruence].
  - apply break_iff in Hb. destruct (Hc c Hi) as [_ E]. congruence.
Qed.
Lemma n1_ok : sha_ok n1.
Proof. split; [reflexivity|repeat constructor; lia]. Qed.
(** ** C104 *)
(** Full statement: the repositories that a GitDB searches are those git would search, the paths
    listed in the alternates file.  It holds if every line is a path or a comment without white
    space around it, without other characters that Python takes for the end of a line, and without
    quotes, and if there is no directory with a name that begins with #. *)
Theorem C104_plain_files_partial : forall (F : fs) (U : list Z -> bytes -> option pack) (K : zlib) (r : list Z),
  proper_from F U r -> finite_acyclic F r -> (forall p, ~ usable F (35 :: p)) ->
  (forall r' R text line, git_reaches F r r' -> f_repo F r' = Some R -> r_alt R = Some (Ok text) -> nl_line text line -> plain_line line) ->
  (forall r', reaches F r r' <-> git_reaches F r r') /\
  exists N, forall fuel ops sha, (N <= fuel)%nat -> Forall g_proper ops -> sha_ok sha ->
    exists b, fst (db_has F fuel sha (snd (g_run F K fuel ops (gitdb r)))) = Ok b /\ (b = true <-> exists r', git_reaches F r r' /\ repo_has F U r' sha).
Proof.
  intros F U K r Hp Hac Hno Hpl.
  assert (Hs : forall r', reaches F r r' <-> git_reaches F r r') by (apply reaches_same; [exact Hno|intros r' Hr R text line; exact (Hpl r' R text line Hr)]).
  split; [exact Hs|]. destruct (has_says F U K r Hp Hac) as (N & HN). exists N. intros fuel ops sha Hf Hops Hsha. destruct (HN fuel ops sha Hf Hops Hsha) as (b & E & Hb).
  exists b. split; [exact E|]. rewrite Hb. split; intros (r' & Hr & H); exists r'; (split; [now apply Hs|exact H]).
Qed.
Print Assumptions C104_plain_files_partial.
(** "#x\n/b\n" *)
Example C104_plain_example : let F := al_fs [35; 120; 10; 47; 98; 10] p_b in
  proper_from F al_U p_a /\ finite_acyclic F p_a /\ (forall p, ~ usable F (35 :: p)) /\
  (forall r' R text line, git_reaches F p_a r' -> f_repo F r' = Some R -> r_alt R = Some (Ok text) -> nl_line text line -> plain_line line) /\
  git_reaches F p_a p_b /\ fst (db_has F 9 n1 (gitdb p_a)) = Ok true.
Proof.
  cbv zeta. split; [apply al_proper|]. split; [apply al_acyclic; rewrite al_lines; intros [_ H]; vm_compute in H; intuition discriminate|].
  split; [intros p (_ & R & HR); apply al_repo in HR as [[HR _]|[HR _]]; discriminate|]. split; [|split].
  - intros r' R text line _ HR Ha Hl. apply al_repo in HR as [[_ ->]|[_ ->]]; [|discriminate]. injection Ha as <-. apply (nl_in line _ []) in Hl; [|easy].
    vm_compute in Hl. destruct Hl as [<- |[<- |[<- |[]]]]; [right|right|now left]; (split; [apply not_odd; reflexivity|discriminate]).
  - apply rt_step. split; [|split; [discriminate|now eexists]]. eexists _, _. split; [reflexivity|]. split; [reflexivity|]. exists p_b. split; [|now constructor].
    apply (nl_is [35; 120] p_b []). unfold p_b. cbn. intuition discriminate.
  - vm_compute. reflexivity.
Qed.
(** False for paths with white space at their ends, or with a character like a form feed or U+2028:
    ReferenceDB never uses them, so that objects which are only there are not found. *)
Theorem C104_odd_path_refuted : forall (F : fs) (U : list Z -> bytes -> option pack) (K : zlib) (r p : list Z) (sha : bytes),
  proper_from F U r -> finite_acyclic F r -> git_next F r p -> odd_path p -> p <> r -> sha_ok sha ->
  repo_has F U p sha -> (forall q, repo_has F U q sha -> q = p) ->
  exists N, forall fuel ops, (N <= fuel)%nat -> Forall g_proper ops -> fst (db_has F fuel sha (snd (g_run F K fuel ops (gitdb r)))) = Ok false.
Proof.
  intros F U K r p sha Hp Hac _ Ho Hne Hsha _ Honly. apply (has_false F U K r sha Hp Hac); [|exact Hsha]. intros (r' & Hr & H). apply Honly in H. subst r'. now apply odd_unreached in Hr.
Qed.
Print Assumptions C104_odd_path_refuted.
(** "/b \n", a directory whose name ends with a space *)
Example C104_odd_example : let F := al_fs [47; 98; 32; 10] [47; 98; 32] in
  proper_from F al_U p_a /\ finite_acyclic F p_a /\ git_next F p_a [47; 98; 32] /\ odd_path [47; 98; 32] /\
  repo_has F al_U [47; 98; 32] n1 /\ (forall q, repo_has F al_U q n1 -> q = [47; 98; 32]) /\ sha_ok n1 /\ fst (db_has F 9 n1 (gitdb p_a)) = Ok false.
Proof.
  cbv zeta. split; [apply al_proper|]. split; [apply al_acyclic; rewrite al_lines; intros [_ H]; vm_compute in H; intuition discriminate|]. split.
  { split; [|split; [discriminate|now eexists]]. eexists _, _. split; [reflexivity|]. split; [reflexivity|]. exists [47; 98; 32]. split; [|now constructor].
    apply (nl_is [] [47; 98; 32] []). cbn. intuition discriminate. }
  split; [right; left; exists 32, [47; 98]; split; [easy|right; left; lia]|]. split; [now apply al_has|]. split; [intros q; apply al_only|]. split; [exact n1_ok|vm_compute; reflexivity].
Qed.
(** False for quoted paths: if all lines of the file are quoted, and there are no directories whose
    names begin with a quote, only the objects of the repository itself are found. *)
Theorem C104_quoted_refuted : forall (F : fs) (U : list Z -> bytes -> option pack) (K : zlib) (r : list Z) (R : repo) (text : list Z),
  proper_from F U r -> finite_acyclic F r -> f_repo F r = Some R -> r_alt R = Some (Ok text) ->
  (forall line, nl_line text line -> line = [] \/ (hd 0 line = 34 /\ forall c, In c line -> ~ line_break c)) -> (forall p, ~ usable F (34 :: p)) ->
  exists N, forall fuel ops sha, (N <= fuel)%nat -> Forall g_proper ops -> sha_ok sha ->
    exists b, fst (db_has F fuel sha (snd (g_run F K fuel ops (gitdb r)))) = Ok b /\ (b = true <-> repo_has F U r sha).
Proof.
  intros F U K r R text Hp Hac HR Ha Hq Hno. destruct (has_says F U K r Hp Hac) as (N & HN). exists N. intros fuel ops sha Hf Hops Hsha.
  destruct (HN fuel ops sha Hf Hops Hsha) as (b & E & Hb). exists b. split; [exact E|]. rewrite Hb. apply none_found. intros R' text' p HR' Ha' Hl Hu.
  assert (R' = R) as -> by congruence. assert (text' = text) as -> by congruence. apply (quoted_lines text Hq) in Hl.
  destruct p as [|c p]; [discriminate|]. cbn [hd] in Hl. subst c. now apply (Hno p).
Qed.
Print Assumptions C104_quoted_refuted.
(** A file with the line "/b" in quotes *)
Example C104_quoted_example : let F := al_fs [34; 47; 98; 34; 10] p_b in
  proper_from F al_U p_a /\ finite_acyclic F p_a /\ git_next F p_a p_b /\
  (forall line, nl_line [34; 47; 98; 34; 10] line -> line = [] \/ (hd 0 line = 34 /\ forall c, In c line -> ~ line_break c)) /\ (forall p, ~ usable F (34 :: p)) /\
  repo_has F al_U p_b n1 /\ fst (db_has F 9 n1 (gitdb p_a)) = Ok false.
Proof.
  cbv zeta. split; [apply al_proper|]. split; [apply al_acyclic; rewrite al_lines; intros [_ H]; vm_compute in H; intuition discriminate|]. split.
  { split; [|split; [discriminate|now eexists]]. eexists _, _. split; [reflexivity|]. split; [reflexivity|]. exists [34; 47; 98; 34].
    split; [apply (nl_is [] [34; 47; 98; 34] []); cbn; intuition discriminate|]. apply (ge_quoted [47; 98] p_b). repeat (constructor; [discriminate|discriminate|]). constructor. }
  split; [|split; [intros p (_ & R & HR); apply al_repo in HR as [[HR _]|[HR _]]; discriminate|split; [now apply al_has|vm_compute; reflexivity]]].
  intros line Hl. apply (nl_in line _ []) in Hl; [|easy]. vm_compute in Hl. destruct Hl as [<- |[<- |[]]]; [right|now left]. split; [reflexivity|].
  intros c Hc Hb. apply break_iff in Hb. cbn [In] in Hc. destruct Hc as [<- |[<- |[<- |[<- |[]]]]]; discriminate.
Qed.
(** False for comments: a directory with the name of the comment is used. *)
Theorem C104_comment_refuted : forall (F : fs) (U : list Z -> bytes -> option pack) (K : zlib) (r l : list Z) (R : repo) (text : list Z) (sha : bytes),
  proper_from F U r -> finite_acyclic F r -> f_repo F r = Some R -> r_alt R = Some (Ok text) ->
  nl_line text (35 :: l) -> ~ odd_path (35 :: l) -> usable F (35 :: l) -> repo_has F U (35 :: l) sha -> sha_ok sha ->
  exists N, forall fuel ops, (N <= fuel)%nat -> Forall g_proper ops -> fst (db_has F fuel sha (snd (g_run F K fuel ops (gitdb r)))) = Ok true.
Proof.
  intros F U K r l R text sha Hp Hac HR Ha Hl Ho Hu Hh Hsha. destruct (has_says F U K r Hp Hac) as (N & HN). exists N. intros fuel ops Hf Hops.
  destruct (HN fuel ops sha Hf Hops Hsha) as (b & -> & Hb). f_equal. apply Hb. exists (35 :: l). split; [|exact Hh]. apply rt_step. split; [|exact Hu]. exists R, text. split; [exact HR|]. split; [exact Ha|].
  now apply (own_line text (35 :: l)).
Qed.
Print Assumptions C104_comment_refuted.
(** "#x\n" and a directory #x *)
Example C104_comment_example : let F := al_fs [35; 120; 10] [35; 120] in
  proper_from F al_U p_a /\ finite_acyclic F p_a /\ nl_line [35; 120; 10] [35; 120] /\ ~ odd_path [35; 120] /\ usable F [35; 120] /\
  repo_has F al_U [35; 120] n1 /\ fst (db_has F 9 n1 (gitdb p_a)) = Ok true.
Proof.
  cbv zeta. split; [apply al_proper|]. split; [apply al_acyclic; rewrite al_lines; intros [_ H]; vm_compute in H; intuition discriminate|].
  split; [apply (nl_is [] [35; 120] []); cbn; intuition discriminate|]. split; [apply not_odd; reflexivity|]. split; [split; [discriminate|now eexists]|]. split; [now apply al_has|vm_compute; reflexivity].
Qed.
