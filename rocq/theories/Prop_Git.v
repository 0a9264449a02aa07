(** Properties of CompoundDB, GitDB and ReferenceDB: C50 to C55 and C76 to C79. *)
From Coq Require Import ZifyBool ZifyNat Permutation Relations Sorting.Sorted.
From Verif Require Import Py PyFacts FunModel FunSpec FunProofs IndexModel IndexSpec IndexProofs ZlibModel ZlibProofs ReaderModel PackModel PackSpec Prop_Index Prop_Pack
  OsModel LooseModel PackDbModel PackDbSpec PackDbProofs PackDbTop Prop_PackDb
  MemModel MemProofs CompoundModel CompoundSpec CompoundProofs GitModel GitSpec GitProofs GitTop GitBare GitMain GitGrow GitRoots GitFinal.

(** ** Example: repositories /a, /b and /c *)
Definition p_a : list Z := [47; 97].
Definition p_b : list Z := [47; 98].
Definition p_c : list Z := [47; 99].
Definition p_x : list Z := [47; 120].
Definition n1 : bytes := repeat 13 20.
Definition n2 : bytes := repeat 9 20.
Definition loose_hi : bytes := s_compress ([98; 108; 111; 98; 32; 54; 0] ++ ex_hi).
Definition dir_a : dir := mk_dir 5 (files_of 97 pk_a).
Definition dir_c : dir := mk_dir 7 (files_of 99 pk_c).
(** "/b\n /c \r\n\n/x\n/b" *)
Definition text_a : list Z := [47; 98; 10; 32; 47; 99; 32; 13; 10; 10; 47; 120; 10; 47; 98].
(** "/c\n" *)
Definition text_b : list Z := [47; 99; 10].
Definition repo_a : repo := mk_repo (Some dir_a) [(n1, Ok loose_hi)] (Some (Ok text_a)).
Definition repo_b : repo := mk_repo None [(n2, Raise PermissionError)] (Some (Ok text_b)).
Definition repo_c : repo := mk_repo (Some dir_c) [(n1, Ok loose_hi)] None.
Definition ex_fs (a b c : option repo) : fs :=
  mk_fs (fun p => if beq p p_a then a else if beq p p_b then b else if beq p p_c then c else None) (@rev bytes).
Definition ex_F : fs := ex_fs (Some repo_a) (Some repo_b) (Some repo_c).
Definition ex_V (r : list Z) : bytes -> option pack := ex_U.

Lemma ex_fs_repo a b c p R : f_repo (ex_fs a b c) p = Some R -> p = p_a /\ a = Some R \/ p = p_b /\ b = Some R \/ p = p_c /\ c = Some R.
Proof. unfold ex_fs. cbn [f_repo]. destruct (beq p p_a) eqn:Ea; [apply beq_eq in Ea; now left|]. destruct (beq p p_b) eqn:Eb; [apply beq_eq in Eb; right; now left|]. destruct (beq p p_c) eqn:Ec; [apply beq_eq in Ec; right; now right|easy]. Qed.
Lemma line_nonempty text p : line_of text p -> p <> [].
Proof. now intros (a & l & b & w & w' & _ & _ & _ & _ & _ & _ & _ & H & _). Qed.
Lemma line_in text p : line_of text p -> In p (map strip (splitlines text)).
Proof. intros H. apply lines_iff; [now apply (line_nonempty text)|easy]. Qed.
Lemma alt_of F r p : alternate F r p -> exists R text, f_repo F r = Some R /\ r_alt R = Some (Ok text) /\ In p (map strip (splitlines text)) /\ is_usable F p = true.
Proof. intros ((R & text & HR & Ha & Hl) & Hu). exists R, text. repeat (split; [easy|]). split; [now apply line_in|now apply usable_iff]. Qed.
Lemma alt_is F r p R text : f_repo F r = Some R -> r_alt R = Some (Ok text) -> p <> [] -> In p (map strip (splitlines text)) -> is_usable F p = true -> alternate F r p.
Proof. intros HR Ha Hne Hl Hu. split; [|now apply usable_iff]. exists R, text. repeat (split; [easy|]). now apply lines_iff. Qed.
Lemma ex_alternate r p : alternate ex_F r p -> r = p_a /\ (p = p_b \/ p = p_c) \/ r = p_b /\ p = p_c.
Proof.
  intros H. apply alt_of in H as (R & text & HR & Ha & Hl & Hu). apply ex_fs_repo in HR as [[-> HR]|[[-> HR]|[-> HR]]]; injection HR as <-; try discriminate; injection Ha as <-.
  - left. split; [easy|]. change (map strip (splitlines text_a)) with [p_b; p_c; []; p_x; p_b] in Hl. cbn [In] in Hl. destruct Hl as [<- |[<- |[<- |[<- |[<- |[]]]]]]; auto; discriminate.
  - right. split; [easy|]. change (map strip (splitlines text_b)) with [p_c] in Hl. cbn [In] in Hl. destruct Hl as [<- |[]]; auto.
Qed.
Lemma rt_inv A (R : A -> A -> Prop) (P : A -> Prop) x y : P x -> (forall x y, P x -> R x y -> P y) -> clos_refl_trans _ R x y -> P y.
Proof. intros H1 H2 H. apply clos_rt_rtn1 in H. induction H as [|y z Hy _ IH]; [easy|]. now apply (H2 y). Qed.
Lemma ex_reach r : reaches ex_F p_a r -> In r [p_a; p_b; p_c].
Proof.
  apply (rt_inv _ _ (fun r => In r [p_a; p_b; p_c])); [now left|]. intros x y _ H. apply ex_alternate in H as [[_ [-> | ->]]|[_ ->]]; cbn [In]; auto.
Qed.
Lemma dir_there d c k : glob_packs d = [ex_name c] -> d_files d = files_of c k -> ex_U (ex_name c) = Some k -> good_pack k -> dedup (map fst (d_files d)) = map fst (d_files d) ->
  NoDup (map fst (d_files d)) /\ forall n, packs_in d n -> there ex_U d n.
Proof.
  intros Hg Hf HU Hk Hd. split; [rewrite <- Hd; apply dedup_nodup|]. intros n Hn. apply glob_in in Hn. rewrite Hg in Hn. destruct Hn as [<- |[]].
  apply (ex_there _ _ k); [easy|easy|rewrite Hf; now left|rewrite Hf; right; now left].
Qed.
Lemma dir_a_ok : NoDup (map fst (d_files dir_a)) /\ forall n, packs_in dir_a n -> there ex_U dir_a n.
Proof. apply (dir_there _ 97 pk_a); [vm_compute; reflexivity|reflexivity|vm_compute; reflexivity|apply good_a|vm_compute; reflexivity]. Qed.
Lemma dir_c_ok : NoDup (map fst (d_files dir_c)) /\ forall n, packs_in dir_c n -> there ex_U dir_c n.
Proof. apply (dir_there _ 99 pk_c); [vm_compute; reflexivity|reflexivity|vm_compute; reflexivity|apply good_c|vm_compute; reflexivity]. Qed.
Definition fine (R : repo) : Prop :=
  (r_pack R = None \/ r_pack R = Some dir_a \/ r_pack R = Some dir_c) /\ (length (r_loose R) <= 1)%nat /\ (r_alt R = None \/ exists text, r_alt R = Some (Ok text)).
Lemma fine_proper a b c : (forall R, a = Some R \/ b = Some R \/ c = Some R -> fine R) -> forall r, proper_repo (ex_fs a b c) ex_V r.
Proof.
  intros H r R HR. destruct (H R) as (Hp & Hl & Ha); [apply ex_fs_repo in HR; tauto|]. split; [|split].
  - intros d Hd. rewrite Hd in Hp. destruct Hp as [Hp|[Hp|Hp]]; [discriminate|injection Hp as ->; exact dir_a_ok|injection Hp as ->; exact dir_c_ok].
  - destruct (r_loose R) as [|x [|y l]]; cbn [length map] in *; [constructor|constructor; [easy|constructor]|lia].
  - intros t Ht. rewrite Ht in Ha. destruct Ha as [Ha|(text & Ha)]; [discriminate|]. injection Ha as ->. left. now exists text.
Qed.
Lemma rev_order (l : list bytes) : Permutation (rev l) l.
Proof. apply Permutation_sym, Permutation_rev. Qed.
Ltac is_fine := repeat (split; [(now left) || (right; now left) || (right; now right)|]); cbn; try lia; repeat split; eauto; try lia.
Lemma fine_abc : fine repo_a /\ fine repo_b /\ fine repo_c.
Proof. unfold fine. repeat split; cbn; eauto; lia. Qed.
Lemma ex_F_proper : proper_from ex_F ex_V p_a.
Proof.
  split; [apply rev_order|]. split; [split; [easy|now exists repo_a]|]. intros r _. destruct fine_abc as (Ha & Hb & Hc). apply fine_proper.
  intros R [E|[E|E]]; injection E as <-; easy.
Qed.
Lemma rank_acyclic A (R : A -> A -> Prop) (rank : A -> Z) : (forall x y, R x y -> rank y < rank x) -> forall x, ~ clos_trans _ R x x.
Proof.
  intros H. assert (H' : forall x y, clos_trans _ R x y -> rank y < rank x) by (induction 1; [now apply H|lia]). intros x Hx. apply H' in Hx. lia.
Qed.
Lemma ex_F_acyclic : finite_acyclic ex_F p_a.
Proof.
  split; [exists [p_a; p_b; p_c]; exact ex_reach|]. intros r _. apply (rank_acyclic _ _ (fun p => if beq p p_a then 2 else if beq p p_b then 1 else 0)).
  intros x y H. apply ex_alternate in H as [[-> [-> | ->]]|[-> ->]]; reflexivity.
Qed.

(** ** C50 *)
Theorem C50_compound : forall (M A : Type) (f : methods M A) (R : contents A -> M -> Prop) (ds : list (contents A)) (ms : list M) (ops : list cop) l c,
  faithful f R -> Forall2 R ds ms -> Forall c_proper ops -> c_run f ops (mk_compound ms []) = (l, c) -> Forall2 (c_right ds) ops l.
Proof.
  intros M A f R ds ms ops l c HR Hm Hops E. destruct (c_run_ok f R HR ds ops (mk_compound ms []) Hops) as (l' & c' & E' & Hl & _).
  - split; [exact Hm|]. intros sha i _ H. discriminate.
  - rewrite E in E'. now injection E' as <- <-.
Qed.
Print Assumptions C50_compound.
(** The members of the GitDB at /a: a PackedDB, a LooseObjectDB, a ReferenceDB. *)
Definition ex_c_ops : list cop := [CHas ex_s2; CAsk n1; CIter; CHas n1; CSize; CAsk (repeat 1 20); CUpdate false; CHas ex_s2; CHas (repeat 1 20)].
Example C50_example : fst (c_run (git_methods ex_F stored 9) ex_c_ops (mk_compound (git_members ex_F p_a) [])) =
  [KHas (Ok true); KAsk (Ok (mk_oinfo n1 (PBytes [98; 108; 111; 98]) 6)); KIter (Ok [ex_s1; ex_s3; n1; n2; ex_s2; n1; ex_s2; n1]); KHas (Ok true); KSize (Ok 8);
   KAsk (Raise BadObject); KUpdate (Ok false); KHas (Ok true); KHas (Ok false)].
Proof. by_vm. Qed.
Example C50_example_hypotheses : exists n R ds, faithful (git_methods ex_F stored n) R /\ Forall2 R ds (git_members ex_F p_a) /\ Forall c_proper ex_c_ops.
Proof.
  destruct (from_enough ex_F ex_V p_a ex_F_proper 0 ex_F_acyclic) as (N & HN). specialize (HN (S N) (Nat.le_succ_diag_r N)).
  pose proof (from_order ex_F ex_V p_a ex_F_proper) as Ho. pose proof (from_scope ex_F ex_V p_a ex_F_proper) as Hs. pose proof (from_closed ex_F p_a) as Hc.
  exists N, (goes_with ex_F ex_V stored (reaches ex_F p_a) 0 N), (map (contents_of ex_F ex_V stored 0) (kinds ex_F p_a)).
  split; [now apply git_faithful|]. split.
  - assert (Hg : Forall2 (good ex_F ex_V (reaches ex_F p_a)) (kinds ex_F p_a) (git_members ex_F p_a)) by (apply members_good; [apply rt_refl|apply ex_F_proper]).
    assert (He : forall k, In k (kinds ex_F p_a) -> enough ex_F 0 N k) by (inversion HN as [| |? ? H0|]; subst; exact H0).
    revert He. induction Hg as [|k d ks l Hk _ IH]; intros He; cbn [map]; constructor; [|apply IH; intros k' Hk'; apply He; now right].
    exists k. split; [easy|]. split; [easy|apply He; now left].
  - assert (sha_ok n1 /\ sha_ok (repeat 1 20)) as [Hn1 Hn2] by (split; split; [reflexivity|repeat constructor; lia|reflexivity|repeat constructor; lia]).
    destruct ex_shas_ok as (_ & H2 & _). repeat (constructor; [exact I || easy|]). constructor.
Qed.

(** ** C51 *)
(** Full statement: if an object moves from one member to another, info and stream still find
    it.  False: the object was loose, then it is packed; the LooseObjectDB is asked. *)
Definition repo_l : repo := mk_repo (Some dir_a) [(ex_s2, Ok loose_hi)] None.
Definition repo_p : repo := mk_repo (Some dir_c) [] None.
Definition ex_L : fs := ex_fs (Some repo_l) None None.
Definition ex_P : fs := ex_fs (Some repo_p) None None.
Theorem C51_repacked_refuted :
  proper_from ex_L ex_V p_a /\ proper_from ex_P ex_V p_a /\ repo_has ex_L ex_V p_a ex_s2 /\ repo_has ex_P ex_V p_a ex_s2 /\
  let d := snd (g_run ex_L stored 9 [GHas ex_s2] (gitdb p_a)) in
  fst (g_run ex_P stored 9 [GHas ex_s2; GInfo ex_s2; GInfo ex_s2] d) = [HHas (Ok true); HInfo (Raise BadObject); HInfo (Raise BadObject)].
Proof.
  assert (fine repo_l /\ fine repo_p) as [H1 H2] by (unfold fine; repeat split; cbn; eauto; lia).
  split; [|split; [|split; [|split]]].
  - split; [apply rev_order|]. split; [split; [easy|now exists repo_l]|]. intros r _. apply fine_proper. intros R [E|[E|E]]; try discriminate. now injection E as <-.
  - split; [apply rev_order|]. split; [split; [easy|now exists repo_p]|]. intros r _. apply fine_proper. intros R [E|[E|E]]; try discriminate. now injection E as <-.
  - right. exists repo_l, (Ok loose_hi). split; [easy|now left].
  - left. exists repo_p, dir_c, (ex_name 99), pk_c. split; [easy|]. split; [easy|]. split; [apply glob_in; vm_compute; now left|]. split; [easy|now left].
  - cbv zeta. by_vm.
Qed.
Print Assumptions C51_repacked_refuted.
(** Moved to another repository, the object is not found even after update_cache(force=True):
    LooseObjectDB.has_object answers from its own cache. *)
Definition repo_e : repo := mk_repo None [] (Some (Ok text_b)).
Definition repo_f : repo := mk_repo None [(n1, Ok loose_hi)] (Some (Ok text_b)).
Definition repo_g : repo := mk_repo None [(n1, Ok loose_hi)] None.
Definition repo_h : repo := mk_repo None [] None.
Theorem C51_moved_refuted :
  let F := ex_fs (Some repo_f) None (Some repo_h) in let F' := ex_fs (Some repo_e) None (Some repo_g) in
  proper_from F ex_V p_a /\ proper_from F' ex_V p_a /\ found F' ex_V p_a n1 /\
  let d := snd (g_run F stored 9 [GHas n1] (gitdb p_a)) in
  fst (g_run F' stored 9 [GUpdate true; GInfo n1; GUpdate true; GInfo n1] d) = [HUpdate (Ok false); HInfo (Raise BadObject); HUpdate (Ok false); HInfo (Raise BadObject)] /\
  fst (g_run F' stored 9 [GInfo n1] (gitdb p_a)) = [HInfo (Ok (mk_oinfo n1 (PBytes [98; 108; 111; 98]) 6))].
Proof.
  assert (fine repo_e /\ fine repo_f /\ fine repo_g /\ fine repo_h) as (H1 & H2 & H3 & H4) by (unfold fine; repeat split; cbn; eauto; lia).
  cbv zeta. split; [|split; [|split; [|split]]].
  - split; [apply rev_order|]. split; [split; [easy|now exists repo_f]|]. intros r _. apply fine_proper. intros R [E|[E|E]]; try discriminate; now injection E as <-.
  - split; [apply rev_order|]. split; [split; [easy|now exists repo_e]|]. intros r _. apply fine_proper. intros R [E|[E|E]]; try discriminate; now injection E as <-.
  - exists p_c. split; [|right; exists repo_g, (Ok loose_hi); split; [easy|now left]].
    apply rt_step. apply (alt_is _ p_a p_c repo_e text_b); try easy. now left.
  - by_vm.
  - by_vm.
Qed.
Print Assumptions C51_moved_refuted.
(** For all members and histories: once has_object has been asked, info goes to the member the
    object was in first, and raises what that raises, wherever the object is now and though
    has_object says true. *)
Theorem C51_every_move_refuted : forall (M A : Type) (f : methods M A) (R : contents A -> M -> Prop) (ds : list (contents A)) (ms : list M) (ops : list cop) (sha : bytes) (i : nat) (D : contents A),
  faithful f R -> Forall2 R ds ms -> Forall c_proper ops -> sha_ok sha -> first (fun d => d_has d sha) ds i D ->
  forall (f' : methods M A) (ms' : list M) (m' : M) (x : exn), nth_error ms' i = Some m' -> fst (m_ask f' sha m') = Raise x ->
  fst (c_run f' [CHas sha; CAsk sha] (mk_compound ms' (c_cache (snd (c_run f (ops ++ [CHas sha]) (mk_compound ms [])))))) = [KHas (Ok true); KAsk (Raise x)].
Proof. intros M A f R ds ms ops sha i D HR Hm Hops Hs Hi. exact (stale f R HR ds ms ops sha i D Hm Hops Hs Hi). Qed.
Print Assumptions C51_every_move_refuted.
(** Members that are lists of names, asked for the name itself; n1 goes from the second to the
    first or the third. *)
Definition list_methods : methods (list bytes) bytes :=
  mk_methods (fun s m => (Ok (mem s m), m)) (fun s m => (if mem s m then Ok s else Raise BadObject, m)) (fun m => (Ok (len m), m)) (fun m => (Ok m, m)) (fun _ m => (Ok true, m)).
Definition list_contents (m : list bytes) : contents bytes :=
  mk_contents (fun s => In s m) (fun s r => r = if mem s m then Ok s else Raise BadObject) (fun l => l = m) (fun n => n = len m).
Example C51_every_example :
  faithful list_methods (fun d m => d = list_contents m) /\ Forall2 (fun d m => d = list_contents m) (map list_contents [[n2]; [n1]; []]) [[n2]; [n1]; []] /\
  Forall c_proper [CAsk n1; CSize; CHas n2] /\ sha_ok n1 /\ first (fun d => d_has d n1) (map list_contents [[n2]; [n1]; []]) 1 (list_contents [n1]) /\
  forall ms', ms' = [[n2]; []; [n1]] \/ ms' = [[n2; n1]; []; []] -> nth_error ms' 1 = Some [] /\ fst (m_ask list_methods n1 []) = Raise BadObject /\
    fst (c_run list_methods [CHas n1; CAsk n1] (mk_compound ms' (c_cache (snd (c_run list_methods [CAsk n1; CSize; CHas n2; CHas n1] (mk_compound [[n2]; [n1]; []] [])))))) = [KHas (Ok true); KAsk (Raise BadObject)] /\
    fst (c_run list_methods [CHas n1; CAsk n1] (mk_compound ms' [])) = [KHas (Ok true); KAsk (Ok n1)].
Proof.
  split; [|split; [|split; [|split; [|split]]]].
  - intros d m ->. split; [|split; [|split; [|split]]].
    + intros sha _. exists (mem sha m), m. split; [easy|]. split; [apply mem_in|easy].
    + intros sha _. eexists _, m. now split.
    + now exists (len m), m.
    + now exists m, m.
    + intros force. now exists true, m.
  - now repeat constructor.
  - assert (sha_ok n1 /\ sha_ok n2) as [H1 H2] by (split; split; [reflexivity|repeat constructor; lia|reflexivity|repeat constructor; lia]). repeat constructor; easy.
  - split; [reflexivity|repeat constructor; lia].
  - split; [easy|]. split; [now left|]. intros [|[|j]] k' Hj Hk; [|lia|lia]. injection Hk as <-. cbn. intros [H|[]]. discriminate.
  - intros ms' [-> | ->]; repeat split; vm_compute; reflexivity.
Qed.
(** What holds: whatever the cache was, after update_cache the answers are right again for
    members that answer faithfully themselves. *)
Theorem C51_updated_partial : forall (M A : Type) (f : methods M A) (R : contents A -> M -> Prop) (ds : list (contents A)) (ms : list M) (cache : list (bytes * nat)) (force : bool) (ops : list cop) l c,
  faithful f R -> Forall2 R ds ms -> Forall c_proper ops -> c_run f (CUpdate force :: ops) (mk_compound ms cache) = (l, c) -> Forall2 (c_right ds) (CUpdate force :: ops) l.
Proof. intros M A f R ds ms cache force ops l c HR Hm Hops E. apply (C50_compound M A f R ds ms (CUpdate force :: ops) l c HR Hm); [now constructor|exact E]. Qed.
Print Assumptions C51_updated_partial.
(** The members of the GitDB at /a, with a cache that is wrong. *)
Example C51_example : fst (c_run (git_methods ex_F stored 9) [CHas (repeat 1 20); CAsk n1; CUpdate false; CHas (repeat 1 20); CAsk n1] (mk_compound (git_members ex_F p_a) [(repeat 1 20, 0%nat); (n1, 0%nat)])) =
  [KHas (Ok true); KAsk (Raise BadObject); KUpdate (Ok true); KHas (Ok false); KAsk (Ok (mk_oinfo n1 (PBytes [98; 108; 111; 98]) 6))].
Proof. by_vm. Qed.

(** ** C52 *)
(** Full statement: for every tree of databases.  False: a MemoryDB or a StreamCopy-only
    database has no method to complete a name. *)
Theorem C52_no_method_refuted : forall f g, c_partial (Node [Leaf (mk_completer None None); Leaf (mk_completer f g)]) [97; 98] = Raise AttributeError.
Proof. reflexivity. Qed.
Print Assumptions C52_no_method_refuted.
Theorem C52_complete_partial : forall (t : tree completer) (digits padded : bytes), hex_to_bin (pad_even digits) = Ok padded ->
  (forall m, below m t -> exists r, member_says digits padded m r /\ good_answer r) ->
  match c_partial t digits with
  | Ok s => s <> [] /\ (exists m, below m t /\ member_says digits padded m (Ok s)) /\
            (forall m r, below m t -> member_says digits padded m r -> r = Ok s \/ r = Raise BadObject)
  | Raise AmbiguousObjectName => (exists m, below m t /\ member_says digits padded m (Raise AmbiguousObjectName)) \/
      exists m m' s s', below m t /\ below m' t /\ member_says digits padded m (Ok s) /\ member_says digits padded m' (Ok s') /\ s <> s'
  | Raise BadObject => forall m r, below m t -> member_says digits padded m r -> r = Raise BadObject
  | _ => False
  end.
Proof. exact partial_ok. Qed.
Print Assumptions C52_complete_partial.
(** Three databases, one below another CompoundDB. *)
Definition ex_says (r : res bytes) : completer := mk_completer (Some (fun _ => r)) None.
Definition ex_bin (r : res bytes) : completer := mk_completer None (Some (fun b n => if (n =? 3) && beq b [171; 192] then r else Raise NameError)).
Definition ex_tree (r1 r2 r3 : res bytes) : tree completer := Node [Node [Leaf (ex_bin r1)]; Leaf (ex_says r2); Leaf (ex_bin r3)].
Example C52_example :
  c_partial (ex_tree (Ok n1) (Raise BadObject) (Ok n1)) [97; 98; 99] = Ok n1 /\ c_partial (ex_tree (Ok n1) (Raise BadObject) (Ok n2)) [97; 98; 99] = Raise AmbiguousObjectName /\
  c_partial (ex_tree (Raise BadObject) (Raise BadObject) (Raise BadObject)) [97; 98; 99] = Raise BadObject /\
  c_partial (ex_tree (Raise AmbiguousObjectName) (Ok n1) (Raise BadObject)) [97; 98; 99] = Raise AmbiguousObjectName.
Proof. repeat split. Qed.
Example C52_example_hypotheses r1 r2 r3 : good_answer r1 -> good_answer r2 -> good_answer r3 -> hex_to_bin (pad_even [97; 98; 99]) = Ok [171; 192] /\
  forall m, below m (ex_tree r1 r2 r3) -> exists r, member_says [97; 98; 99] [171; 192] m r /\ good_answer r.
Proof.
  intros H1 H2 H3. split; [reflexivity|]. intros m H. apply databases_in in H. destruct H as [<- |[<- |[<- |[]]]]; [exists r2|exists r3|exists r1]; now split.
Qed.

(** ** C53 *)
(** On acyclic alternates all methods return, with the right answers, in any history of calls. *)
Theorem C53_alternates : forall (F : fs) (U : list Z -> bytes -> option pack) (K : zlib) (r : list Z) (m : nat),
  proper_from F U r -> finite_acyclic F r ->
  exists N, forall fuel ops l d, (N <= fuel)%nat -> Forall g_proper ops -> g_run F K fuel ops (gitdb r) = (l, d) -> Forall2 (g_right F U K m r) ops l.
Proof. intros F U K r m H Hac. exact (acyclic_graph F U K r H m Hac). Qed.
Print Assumptions C53_alternates.
Definition ex_g_ops : list gop := [GHas ex_s2; GInfo n1; GIter; GUpdate true; GHas n2; GInfo n2; GHas (repeat 1 20); GSize; GInfo (repeat 1 20)].
Example C53_example : proper_from ex_F ex_V p_a /\ finite_acyclic ex_F p_a /\ Forall g_proper ex_g_ops /\
  fst (g_run ex_F stored 9 ex_g_ops (gitdb p_a)) =
  [HHas (Ok true); HInfo (Ok (mk_oinfo n1 (PBytes [98; 108; 111; 98]) 6)); HIter (Ok [ex_s1; ex_s3; n1; n2; ex_s2; n1; ex_s2; n1]); HUpdate (Ok true);
   HHas (Ok true); HInfo (Raise BadObject); HHas (Ok false); HSize (Ok 8); HInfo (Raise BadObject)].
Proof.
  split; [exact ex_F_proper|]. split; [exact ex_F_acyclic|]. split; [|by_vm].
  assert (sha_ok n1 /\ sha_ok n2 /\ sha_ok (repeat 1 20)) as (Hn1 & Hn2 & Hn3) by (repeat split; try reflexivity; repeat constructor; lia).
  destruct ex_shas_ok as (_ & H2 & _). repeat (constructor; [exact I || easy|]). constructor.
Qed.
(** On any alternates, what is returned is right. *)
Theorem C53_any_graph : forall (F : fs) (U : list Z -> bytes -> option pack) (K : zlib) (r : list Z), proper_from F U r ->
  forall fuel ops l d, Forall g_proper ops -> g_run F K fuel ops (gitdb r) = (l, d) -> Forall2 (fun o a => g_right F U K 0 r o a \/ never_returns a) ops l.
Proof. intros F U K r H. exact (any_graph F U K r H). Qed.
Print Assumptions C53_any_graph.

(** ** C54 *)
(** Full statement: looking up a missing object terminates even if alternates form a cycle.
    False for every cycle that is reached: no number of nested calls is enough. *)
Theorem C54_cycles_refuted : forall (F : fs) (U : list Z -> bytes -> option pack) (K : zlib) (r : list Z), proper_from F U r ->
  forall fuel0 ops r', reaches F r r' -> clos_trans _ (alternate F) r' r' -> Forall g_proper ops ->
  forall fuel sha, sha_ok sha -> ~ found F U r sha ->
  fst (db_has F fuel sha (snd (g_run F K fuel0 ops (gitdb r)))) = Diverge /\ fst (db_info K F fuel sha (snd (g_run F K fuel0 ops (gitdb r)))) = Diverge.
Proof. intros F U K r H fuel0 ops r' Hr Hc Hops fuel. exact (proj1 (cycles F U K r H fuel0 ops r' Hr Hc Hops fuel)). Qed.
Print Assumptions C54_cycles_refuted.
(** /c refers to /a. *)
Definition repo_back : repo := mk_repo (Some dir_c) [(n1, Ok loose_hi)] (Some (Ok [47; 97])).
Definition ex_Y : fs := ex_fs (Some repo_a) (Some repo_b) (Some repo_back).
Lemma ex_Y_proper : proper_from ex_Y ex_V p_a.
Proof.
  split; [apply rev_order|]. split; [split; [easy|now exists repo_a]|]. intros r _. destruct fine_abc as (Ha & Hb & _). assert (fine repo_back) as Hc by (unfold fine; repeat split; cbn; eauto; lia).
  apply fine_proper. intros R [E|[E|E]]; injection E as <-; easy.
Qed.
Lemma ex_Y_loose r sha : is_loose_in ex_Y r sha -> sha = n1 \/ sha = n2.
Proof. intros (R & c & HR & Hin). apply ex_fs_repo in HR as [[_ E]|[[_ E]|[_ E]]]; injection E as <-; destruct Hin as [E|[]]; injection E; auto. Qed.
Lemma ex_Y_packs r sha : in_packs ex_Y ex_V r sha -> In sha [ex_s1; ex_s2; ex_s3].
Proof.
  intros (R & d & n & k & HR & Hd & _ & Hk & Hin). unfold ex_V, ex_U in Hk. destruct (beq n (ex_name 97)); [|destruct (beq n (ex_name 98)); [|destruct (beq n (ex_name 99))]]; try discriminate;
    injection Hk as <-; cbn [k_shas pk_a pk_b pk_c ex_pack In] in *; tauto.
Qed.
Example C54_example : proper_from ex_Y ex_V p_a /\ reaches ex_Y p_a p_a /\ clos_trans _ (alternate ex_Y) p_a p_a /\ sha_ok (repeat 1 20) /\ ~ found ex_Y ex_V p_a (repeat 1 20) /\
  fst (g_run ex_Y stored 99 [GHas ex_s3; GHas ex_s2; GHas (repeat 1 20); GHas n2] (gitdb p_a)) = [HHas (Ok true); HHas (Ok true); HHas Diverge; HHas (Ok true)].
Proof.
  split; [exact ex_Y_proper|]. split; [apply rt_refl|]. split; [|split; [split; [reflexivity|repeat constructor; lia]|split]].
  - apply t_trans with p_c; apply t_step; [apply (alt_is _ p_a p_c repo_a text_a)|apply (alt_is _ p_c p_a repo_back [47; 97])]; try easy; [right; now left|now left].
  - intros (r' & _ & [H|H]); [apply ex_Y_packs in H|apply ex_Y_loose in H]; [destruct H as [H|[H|[H|[]]]]|destruct H as [H|H]]; discriminate.
  - by_vm.
Qed.
(** What holds: objects in the repository itself are found in any case; and C53_any_graph. *)
Theorem C54_own_objects_partial : forall (F : fs) (U : list Z -> bytes -> option pack) (K : zlib) (r : list Z), proper_from F U r ->
  forall fuel fuel0 ops sha, Forall g_proper ops -> sha_ok sha -> repo_has F U r sha -> fst (db_has F (S fuel) sha (snd (g_run F K fuel0 ops (gitdb r)))) = Ok true.
Proof. intros F U K r H. exact (has_own F U K r H). Qed.
Print Assumptions C54_own_objects_partial.

(** ** C55 *)
(** Lines of the file. *)
Theorem C55_lines : forall (F : fs) (root : list Z) (R : repo) (text : list Z), f_repo F root = Some R -> r_alt R = Some (Ok text) ->
  exists paths, ref_paths F root = Ok paths /\ forall p, p <> [] -> In p paths <-> line_of text p.
Proof. intros F root R text HR Ha. exists (map strip (splitlines text)). unfold ref_paths. rewrite HR, Ha. split; [easy|]. intros p Hp. now apply lines_iff. Qed.
Print Assumptions C55_lines.
(** In every state, an update gives the databases still listed, then the new ones in the order
    of the file, each once; and then calls update_cache of each. *)
Theorem C55_update_partial : forall (F : fs) (root : list Z) (d : db) (paths : list (list Z)) (fuel : nat) (force : bool),
  (forall l, Permutation (f_order F l) l) -> ref_state root d -> ref_paths F root = Ok paths ->
  exists x d' kept new, db_update F (S fuel) force d = (x, d') /\
    kept = filter (fun m => mem (db_root m) paths) (members d) /\
    new = filter (fun p => negb (mem p (map db_root (members d))) && is_usable F p) (once paths) /\
    Forall2 (fun m m' => m' = m \/ m' = snd (db_update F fuel force m)) (kept ++ map (fun p => Git p (Some (mk_compound (git_members F p) []))) new) (members d') /\
    map db_root (members d') = map db_root kept ++ new /\ NoDup (map db_root (members d')).
Proof.
  intros F root d paths fuel force Ho Hs Hp. apply ref_state_inv in Hs. pose proof Hs as (dbs & -> & Hn).
  destruct (refresh_update F Ho fuel force root dbs paths Hs Hp) as (x & c & E & H). exists x, (Ref root (Some c)). eexists _, _. split; [exact E|]. split; [reflexivity|]. split; [reflexivity|].
  split; [exact H|]. cbn [members]. assert (map db_root (c_dbs c) = map db_root (after F paths (members (Ref root dbs)))) as ->.
  { clear - H. induction H as [|m m' l l' Hm _ IH]; [easy|]. cbn [map]. rewrite IH. f_equal. destruct Hm as [-> | ->]; [easy|apply update_root]. }
  split; [|now apply after_nodup]. rewrite after_roots, <- roots_filter. reflexivity.
Qed.
Print Assumptions C55_update_partial.
Theorem C55_undecodable : forall (F : fs) (root : list Z) (d : db) (e : exn) (fuel : nat) (force : bool),
  ref_state root d -> ref_paths F root = Raise e -> db_update F (S fuel) force d = (Raise e, d).
Proof. intros F root d e fuel force Hs He. apply ref_state_inv in Hs as (dbs & -> & _). cbn [db_update]. now rewrite He. Qed.
Print Assumptions C55_undecodable.
(** Full statement: the databases are those of the listed paths that are usable.  False: a
    database whose path stays listed is kept when its directory is gone. *)
Definition ex_gone : fs := ex_fs (Some repo_a) None (Some repo_c).
Theorem C55_unusable_refuted :
  let d := snd (g_run ex_F stored 9 [GUpdate true] (Ref p_a None)) in let d' := snd (g_run ex_gone stored 9 [GUpdate true] d) in
  ref_state p_a d /\ In p_b (map db_root (members d')) /\ ~ usable ex_gone p_b /\ map db_root (members d') = [p_b; p_c].
Proof.
  cbv zeta. assert (E : map db_root (members (snd (g_run ex_gone stored 9 [GUpdate true] (snd (g_run ex_F stored 9 [GUpdate true] (Ref p_a None)))))) = [p_b; p_c]) by by_vm.
  split; [|split; [rewrite E; now left|split; [|exact E]]].
  - cbn [g_run]. pose proof (ref_call p_a ex_F stored 9 (GUpdate true) (Ref p_a None) rev_order (ref_new p_a)) as H. destruct (g_do ex_F stored 9 (GUpdate true) (Ref p_a None)). exact H.
  - intros [_ (R & HR)]. discriminate.
Qed.
Print Assumptions C55_unusable_refuted.
(** So it is for all files, states and listed paths, usable or not. *)
Theorem C55_every_unusable_refuted : forall (F : fs) (root : list Z) (d : db) (paths : list (list Z)) (p : list Z) (fuel : nat) (force : bool),
  (forall l, Permutation (f_order F l) l) -> ref_state root d -> ref_paths F root = Ok paths ->
  In p (map db_root (members d)) -> In p paths -> ~ usable F p ->
  In p (map db_root (members (snd (db_update F (S fuel) force d)))).
Proof.
  intros F root d paths p fuel force Ho Hs Hp Hi Hl _. destruct (C55_update_partial F root d paths fuel force Ho Hs Hp) as (x & d' & kept & new & -> & -> & _ & _ & Hr & _). cbn [snd]. rewrite Hr.
  apply in_or_app. left. apply in_map_iff in Hi as (m & Em & Hi). apply in_map_iff. exists m. split; [exact Em|]. apply filter_In. split; [exact Hi|]. rewrite Em. now apply mem_in.
Qed.
Print Assumptions C55_every_unusable_refuted.
Example C55_every_example :
  let d := snd (g_run ex_F stored 9 [GUpdate true] (Ref p_a None)) in
  ref_state p_a d /\ ref_paths ex_gone p_a = Ok [p_b; p_c; []; p_x; p_b] /\ map db_root (members d) = [p_b; p_c] /\ ~ usable ex_gone p_b /\
  map db_root (members (snd (db_update ex_gone 9 false d))) = [p_b; p_c].
Proof.
  cbv zeta. split; [exact (proj1 C55_unusable_refuted)|]. split; [by_vm|]. split; [by_vm|]. split; [|by_vm]. intros [_ (R & HR)]. discriminate.
Qed.
(** The file changes from "/b\n /c \n\n/x\n/b" to "/c\n". *)
Definition ex_short : fs := ex_fs (Some (mk_repo None [] (Some (Ok text_b)))) (Some repo_b) (Some repo_c).
Example C55_example :
  let d := snd (g_run ex_short stored 9 [GUpdate true] (Ref p_a None)) in let d' := snd (g_run ex_F stored 9 [GUpdate false] d) in let d2 := snd (g_run ex_short stored 9 [GUpdate false] d') in
  map db_root (members d) = [p_c] /\ map db_root (members d') = [p_c; p_b] /\ map db_root (members d2) = [p_c].
Proof. cbv zeta. split; [by_vm|]. split; by_vm. Qed.

(** ** C76 *)
(** Full statement: after update_cache(force=True) a GitDB answers like one just opened.
    False: a pack directory or alternates file that did not exist at the first use is never
    noticed. *)
Definition ex_bare : fs := ex_fs (Some repo_h) None (Some repo_c).
Definition ex_later : fs := ex_fs (Some (mk_repo (Some dir_a) [] (Some (Ok text_b)))) None (Some repo_c).
Theorem C76_new_parts_refuted :
  let d := snd (g_run ex_bare stored 9 [GHas ex_s1] (gitdb p_a)) in
  fst (g_run ex_later stored 9 [GUpdate true; GHas ex_s1; GHas ex_s2; GSize] d) = [HUpdate (Ok false); HHas (Ok false); HHas (Ok false); HSize (Ok 0)] /\
  fst (g_run ex_later stored 9 [GHas ex_s1; GHas ex_s2; GSize] (gitdb p_a)) = [HHas (Ok true); HHas (Ok true); HSize (Ok 4)].
Proof. cbv zeta. split; by_vm. Qed.
Print Assumptions C76_new_parts_refuted.
(** So it is for every such GitDB: first used when there were neither packs nor alternates, and
    after any calls, it finds only its loose objects, whatever packs and alternates there are. *)
Theorem C76_every_new_part_refuted : forall (r : list Z) (sha : bytes) (d : db) (F : fs) (K : zlib) (fuel : nat), begun_bare r sha d -> ~ is_loose_in F r sha ->
  fst (g_do F K (S fuel) (GHas sha) d) = HHas (Ok false) /\ fst (g_do F K (S fuel) (GInfo sha) d) = HInfo (Raise BadObject) /\
  fst (g_do F K (S fuel) GIter d) = HIter (Ok (loose_names F r)) /\ forall force, fst (g_do F K (S fuel) (GUpdate force) d) = HUpdate (Ok false).
Proof. exact bare_answers. Qed.
Print Assumptions C76_every_new_part_refuted.
Example C76_every_example :
  let d := snd (g_do ex_later stored 9 (GUpdate true) (snd (g_do ex_bare stored 9 (GHas n1) (gitdb p_a)))) in
  begun_bare p_a ex_s1 d /\ ~ is_loose_in ex_later p_a ex_s1 /\ fst (g_do ex_later stored 9 (GHas ex_s1) d) = HHas (Ok false) /\
  fst (g_do ex_later stored 9 (GHas ex_s1) (gitdb p_a)) = HHas (Ok true).
Proof.
  assert (H : ~ is_loose_in ex_later p_a ex_s1) by (intros (R & c & HR & Hc); injection HR as <-; easy).
  cbv zeta. split; [|split; [exact H|split; by_vm]]. apply bare_call; [exact H|]. apply (bare_first p_a ex_s1 ex_bare stored 8 (GHas n1) repo_h); try easy.
  intros (R & c & HR & Hc). injection HR as <-. easy.
Qed.
(** What holds: after changes that keep these parts and the loose objects. *)
Theorem C76_updated_partial : forall (F F' : fs) (U : list Z -> bytes -> option pack) (K : zlib) (r : list Z), proper_from F U r -> proper_from F' U r -> noticed F F' r -> finite_acyclic F' r ->
  forall m, exists N, forall fuel0 fuel ops, (N <= fuel)%nat -> Forall g_proper ops -> exists b d,
  db_update F' fuel true (snd (g_run F K fuel0 ops (gitdb r))) = (Ok b, d) /\
  forall ops', Forall g_proper ops' -> Forall2 (g_right F' U K m r) ops' (fst (g_run F' K fuel ops' d)).
Proof. exact update_noticed. Qed.
Print Assumptions C76_updated_partial.
(** From a state with /a and /c to that with another pack, another loose object and /b too. *)
Definition repo_a0 : repo := mk_repo (Some dir_c) [] (Some (Ok text_b)).
Definition ex_G : fs := ex_fs (Some repo_a0) (Some repo_b) (Some repo_c).
Example C76_example : proper_from ex_G ex_V p_a /\ noticed ex_G ex_F p_a /\
  let d := snd (g_run ex_G stored 9 [GHas ex_s1; GHas ex_s2; GHas n2; GInfo n1] (gitdb p_a)) in
  fst (g_run ex_F stored 9 [GUpdate true; GHas ex_s1; GHas ex_s2; GHas n2; GInfo n1; GSize] d) =
    [HUpdate (Ok true); HHas (Ok true); HHas (Ok true); HHas (Ok true); HInfo (Ok (mk_oinfo n1 (PBytes [98; 108; 111; 98]) 6)); HSize (Ok 8)].
Proof.
  destruct fine_abc as (_ & Hb & Hc). assert (fine repo_a0) as Ha by (unfold fine; repeat split; cbn; eauto; lia). split; [|split].
  - split; [apply rev_order|]. split; [split; [easy|now exists repo_a0]|]. intros r _. apply fine_proper. intros R [E|[E|E]]; injection E as <-; easy.
  - intros p R _ HR. apply ex_fs_repo in HR as [[-> E]|[[-> E]|[-> E]]]; injection E as <-; [exists repo_a|exists repo_b|exists repo_c]; easy.
  - cbv zeta. by_vm.
Qed.

(** ** C77 *)
(** Full statement: a relative path in an alternates file is meant relative to the objects
    directory.  False: it is looked up in the current directory.  "/a" refers to "b", that is
    "/a/b", while the current directory is "/". *)
Definition ex_T (p : list Z) : option repo :=
  if beq p p_a then Some (mk_repo None [] (Some (Ok [98; 10]))) else if beq p [47; 97; 47; 98] then Some repo_g else if beq p [47; 119; 47; 98] then Some (mk_repo None [(n2, Ok loose_hi)] None) else None.
Theorem C77_relative_refuted : git_alternate ex_T p_a [47; 97; 47; 98] /\ (exists R, ex_T [47; 97; 47; 98] = Some R /\ In (n1, Ok loose_hi) (r_loose R)) /\
  fst (g_run (in_directory [47; 119] ex_T (fun l => l)) stored 9 [GHas n1; GHas n2] (gitdb p_a)) = [HHas (Ok false); HHas (Ok true)] /\
  fst (g_run (in_directory [47; 120] ex_T (fun l => l)) stored 9 [GHas n1; GHas n2] (gitdb p_a)) = [HHas (Ok false); HHas (Ok false)].
Proof.
  split; [|split; [|split; by_vm]].
  - exists (mk_repo None [] (Some (Ok [98; 10]))), [98; 10], [98]. split; [reflexivity|]. split; [reflexivity|]. split; [apply lines_iff; [easy|now left]|]. split; [reflexivity|now exists repo_g].
  - exists repo_g. split; [reflexivity|now left].
Qed.
Print Assumptions C77_relative_refuted.
(** So for every repository [r] and every relative path in its file: the directory used is that
    below the current one.  If there is none for any line, only the objects of r itself are found
    (C53), although git finds those of [against r line]. *)
Theorem C77_every_relative_refuted : forall (T : list Z -> option repo) (order : list bytes -> list bytes) (cwd r : list Z), absolute r ->
  (forall p, ~ absolute p -> alternate (in_directory cwd T order) r p <->
     (exists R text, T r = Some R /\ r_alt R = Some (Ok text) /\ line_of text p) /\ exists R', T (cwd ++ 47 :: p) = Some R') /\
  ((forall R text p, T r = Some R -> r_alt R = Some (Ok text) -> line_of text p -> ~ absolute p /\ T (cwd ++ 47 :: p) = None) ->
   forall U sha, found (in_directory cwd T order) U r sha <-> repo_has (in_directory cwd T order) U r sha).
Proof. exact relative_elsewhere. Qed.
Print Assumptions C77_every_relative_refuted.
Example C77_every_example : absolute p_a /\
  forall R text p, ex_T p_a = Some R -> r_alt R = Some (Ok text) -> line_of text p -> ~ absolute p /\ ex_T ([47; 120] ++ 47 :: p) = None.
Proof.
  split; [eexists; reflexivity|]. intros R text p HR Ha Hl. injection HR as <-. injection Ha as <-. pose proof (line_nonempty _ _ Hl) as Hne.
  apply line_in in Hl. change (map strip (splitlines [98; 10])) with [[98]] in Hl. destruct Hl as [<- |[]]. split; [intros [p' E]; discriminate|reflexivity].
Qed.
(** What holds: with absolute paths the repositories reached are those git would use, in any
    current directory. *)
Theorem C77_absolute_partial : forall (T : list Z -> option repo) (order : list bytes -> list bytes) (cwd r : list Z), absolute r ->
  (forall r' R text line, clos_refl_trans _ (git_alternate T) r r' -> T r' = Some R -> r_alt R = Some (Ok text) -> line_of text line -> absolute line) ->
  forall r', reaches (in_directory cwd T order) r r' <-> clos_refl_trans _ (git_alternate T) r r'.
Proof. exact absolute_reaches. Qed.
Print Assumptions C77_absolute_partial.
Definition ex_T2 (p : list Z) : option repo := f_repo ex_F p.
Lemma ex_T2_absolute r' R text line : ex_T2 r' = Some R -> r_alt R = Some (Ok text) -> line_of text line -> absolute line.
Proof.
  intros HR Ha Hl. pose proof (line_nonempty _ _ Hl) as Hne. apply line_in in Hl. apply ex_fs_repo in HR as [[-> HR]|[[-> HR]|[-> HR]]]; injection HR as <-; try discriminate; injection Ha as <-.
  - change (map strip (splitlines text_a)) with [p_b; p_c; []; p_x; p_b] in Hl. cbn [In] in Hl. destruct Hl as [<- |[<- |[<- |[<- |[<- |[]]]]]]; try easy; eexists; reflexivity.
  - change (map strip (splitlines text_b)) with [p_c] in Hl. destruct Hl as [<- |[]]. eexists; reflexivity.
Qed.
Example C77_example : absolute p_a /\
  (forall r' R text line, clos_refl_trans _ (git_alternate ex_T2) p_a r' -> ex_T2 r' = Some R -> r_alt R = Some (Ok text) -> line_of text line -> absolute line) /\ reaches (in_directory [47; 119] ex_T2 (fun l => l)) p_a p_c.
Proof.
  split; [eexists; reflexivity|]. split; [intros r' R text line _; apply ex_T2_absolute|]. apply rt_trans with p_b; apply rt_step; [apply (alt_is _ _ _ repo_a text_a)|apply (alt_is _ _ _ repo_b text_b)]; try easy; now left.
Qed.

(** ** C78 *)
(** Full statement: using a GitDB whose directory does not exist raises InvalidDBRoot.  False
    from the second call on: every object is said to be missing. *)
Theorem C78_invalid_root_refuted : forall (F : fs) (K : zlib) (root : list Z) (fuel : nat) (sha : bytes), f_repo F root = None ->
  fst (g_run F K (S fuel) [GHas sha; GHas sha; GSize; GUpdate true; GInfo sha] (gitdb root)) =
  [HHas (Raise InvalidDBRoot); HHas (Ok false); HSize (Ok 0); HUpdate (Ok false); HInfo (Raise BadObject)].
Proof. intros F K root fuel sha H. unfold gitdb. cbn [g_run g_do db_has db_size db_update db_info with_dbs]. unfold git_load, git_members. rewrite H. reflexivity. Qed.
Print Assumptions C78_invalid_root_refuted.
Theorem C78_first_call_partial : forall (F : fs) (K : zlib) (root : list Z) (fuel : nat) (o : gop), f_repo F root = None ->
  fst (g_do F K (S fuel) o (gitdb root)) =
  match o with GHas _ => HHas (Raise InvalidDBRoot) | GInfo _ => HInfo (Raise InvalidDBRoot) | GIter => HIter (Raise InvalidDBRoot) | GSize => HSize (Raise InvalidDBRoot) | GUpdate _ => HUpdate (Raise InvalidDBRoot) end.
Proof. intros F K root fuel o H. unfold gitdb. destruct o; cbn [g_do db_has db_size db_update db_info db_iter with_dbs]; unfold git_load, git_members; rewrite H; reflexivity. Qed.
Print Assumptions C78_first_call_partial.
Example C78_example : f_repo ex_F p_x = None.
Proof. reflexivity. Qed.
(** The current directory cannot be given as the empty path: os.path.exists("") is false. *)
Theorem C78_empty_path_refuted : forall (F : fs) (K : zlib) (R : repo) (fuel : nat) (o : gop), f_repo F [] = Some R ->
  let x := match r_pack R, r_alt R with None, None => InvalidDBRoot | _, _ => AssertionError end in
  fst (g_do F K (S fuel) o (gitdb [])) =
  match o with GHas _ => HHas (Raise x) | GInfo _ => HInfo (Raise x) | GIter => HIter (Raise x) | GSize => HSize (Raise x) | GUpdate _ => HUpdate (Raise x) end.
Proof.
  intros F K R fuel o H. unfold gitdb. destruct o; cbn [g_do db_has db_size db_update db_info db_iter with_dbs]; unfold git_load, git_members; rewrite H;
    destruct (r_pack R), (r_alt R); reflexivity.
Qed.
Print Assumptions C78_empty_path_refuted.

(** ** C95 *)
(** Full statement: a database whose members could not be set up raises the same exception at
    every call.  False for the databases of an alternates file that cannot be decoded: from
    the second call on there are none, *)
Theorem C95_alternates_refuted : forall (F : fs) (K : zlib) (root : list Z) (R : repo) (e : exn) (fuel : nat) (sha : bytes),
  f_repo F root = Some R -> r_alt R = Some (Raise e) -> is_oserror e = false ->
  fst (g_run F K (S fuel) [GHas sha; GHas sha; GSize; GIter; GInfo sha] (Ref root None)) =
  [HHas (Raise e); HHas (Ok false); HSize (Ok 0); HIter (Ok []); HInfo (Raise BadObject)].
Proof.
  intros F K root R e fuel sha H Ha He. cbn [g_run g_do db_has db_size db_iter db_info with_dbs]. unfold ref_load, ref_paths. rewrite H, Ha, He. reflexivity.
Qed.
Print Assumptions C95_alternates_refuted.
(** and so for a GitDB with such a file: what it does not have itself is an error once and
    unknown from then on. *)
Theorem C95_git_refuted : forall (F : fs) (K : zlib) (root : list Z) (R : repo) (e : exn) (fuel : nat) (sha : bytes),
  root <> [] -> f_repo F root = Some R -> r_pack R = None -> r_alt R = Some (Raise e) -> is_oserror e = false -> e <> BadObject -> ~ In sha (map fst (r_loose R)) ->
  fst (g_run F K (S (S fuel)) [GHas sha; GHas sha; GInfo sha; GSize] (gitdb root)) =
  [HHas (Raise e); HHas (Ok false); HInfo (Raise BadObject); HSize (Ok (len (r_loose R)))].
Proof.
  intros F K root R e fuel sha Hr H Hp Ha He Hb Hs. assert (Hm : mem sha (map fst (r_loose R)) = false) by now apply mem_out.
  set (d := Git root (Some (mk_compound [Loose root []; Ref root (Some (mk_compound [] []))] []))).
  assert (Hn : loose_names F root = map fst (r_loose R)) by (unfold loose_names; now rewrite H).
  assert (H0 : db_has F (S (S fuel)) sha (gitdb root) = (Raise e, d)).
  { unfold gitdb. cbn [db_has with_dbs]. unfold git_load, git_members. rewrite H, Hp, Ha. destruct root as [|c root]; [easy|]. cbn [app existsb is_loose orb].
    unfold c_has, db_query. cbn [c_cache c_dbs dict_get first_with db_has]. unfold loose_has. rewrite Hn. change (mem sha []) with false. rewrite Hm. cbn [with_dbs].
    unfold ref_load, ref_paths. rewrite H, Ha, He. destruct e; try easy; now elim Hb. }
  assert (H1 : db_has F (S (S fuel)) sha d = (Ok false, d)).
  { unfold d. cbn [db_has with_dbs]. unfold c_has, db_query. cbn [c_cache c_dbs dict_get first_with db_has]. unfold loose_has. rewrite Hn. change (mem sha []) with false. rewrite Hm. reflexivity. }
  assert (H2 : db_info K F (S (S fuel)) sha d = (Raise BadObject, d)).
  { unfold d. cbn [db_info with_dbs]. unfold c_ask, db_query. cbn [c_cache c_dbs dict_get first_with db_has]. unfold loose_has. rewrite Hn. change (mem sha []) with false. rewrite Hm. reflexivity. }
  assert (H3 : fst (db_size F (S (S fuel)) d) = Ok (len (r_loose R))).
  { unfold d. cbn [db_size with_dbs]. unfold c_size, on_each. cbn [c_dbs each db_size]. rewrite Hn. cbn. unfold len. rewrite map_length. do 2 f_equal. lia. }
  cbn [g_run g_do]. rewrite H0, H1, H2. destruct (db_size F (S (S fuel)) d) as [r d']. cbn [fst] in H3 |- *. now rewrite H3.
Qed.
Print Assumptions C95_git_refuted.
Definition ex_undecodable : fs := ex_fs (Some (mk_repo None [(n1, Ok loose_hi)] (Some (Raise ValueError)))) None None.
Example C95_example : f_repo ex_undecodable p_a = Some (mk_repo None [(n1, Ok loose_hi)] (Some (Raise ValueError))) /\ ~ In n2 [n1] /\
  fst (g_run ex_undecodable stored 9 [GHas n1; GHas n2; GHas n2] (gitdb p_a)) = [HHas (Ok true); HHas (Raise ValueError); HHas (Ok false)].
Proof. split; [reflexivity|]. split; [intros [H|[]]; discriminate H|]. vm_compute. reflexivity. Qed.
(** What holds: the first call of every method raises what reading the file raised, and every
    update does. *)
Theorem C95_first_partial : forall (F : fs) (K : zlib) (root : list Z) (R : repo) (e : exn) (fuel : nat) (o : gop),
  f_repo F root = Some R -> r_alt R = Some (Raise e) -> is_oserror e = false ->
  fst (g_do F K (S fuel) o (Ref root None)) =
  match o with GHas _ => HHas (Raise e) | GInfo _ => HInfo (Raise e) | GIter => HIter (Raise e) | GSize => HSize (Raise e) | GUpdate _ => HUpdate (Raise e) end /\
  forall d force, ref_state root d -> fst (db_update F (S fuel) force d) = Raise e.
Proof.
  intros F K root R e fuel o H Ha He. assert (Hp : ref_paths F root = Raise e) by (unfold ref_paths; now rewrite H, Ha, He). split.
  - destruct o; cbn [g_do db_has db_size db_iter db_info db_update with_dbs]; unfold ref_load; rewrite Hp; reflexivity.
  - intros d force Hd. now rewrite (C55_undecodable F root d e fuel force Hd Hp).
Qed.
Print Assumptions C95_first_partial.

(** ** C79 *)
Theorem C79_consistent : forall (F : fs) (U : list Z -> bytes -> option pack) (K : zlib) (r : list Z), proper_from F U r -> finite_acyclic F r ->
  exists N, forall fuel ops, (N <= fuel)%nat -> Forall g_proper ops ->
    let d := snd (g_run F K fuel ops (gitdb r)) in
    exists l, fst (db_iter F fuel d) = Ok l /\ fst (db_size F fuel d) = Ok (len l) /\
      forall sha, sha_ok sha -> fst (db_has F fuel sha d) = Ok true /\ In sha l \/ fst (db_has F fuel sha d) = Ok false /\ ~ In sha l.
Proof. intros F U K r H. exact (consistent F U K r H). Qed.
Print Assumptions C79_consistent.
(** The example of C53: eight names, some of them twice. *)
Example C79_example : proper_from ex_F ex_V p_a /\ finite_acyclic ex_F p_a /\
  fst (db_iter ex_F 9 (gitdb p_a)) = Ok [ex_s1; ex_s3; n1; n2; ex_s2; n1; ex_s2; n1] /\ fst (db_size ex_F 9 (gitdb p_a)) = Ok 8.
Proof. split; [exact ex_F_proper|]. split; [exact ex_F_acyclic|]. split; by_vm. Qed.
(** On cyclic alternates none of them returns. *)
Theorem C79_cycles : forall (F : fs) (U : list Z -> bytes -> option pack) (K : zlib) (r : list Z), proper_from F U r ->
  forall fuel0 ops r', reaches F r r' -> clos_trans _ (alternate F) r' r' -> Forall g_proper ops ->
  let d := snd (g_run F K fuel0 ops (gitdb r)) in
  forall fuel, fst (db_iter F fuel d) = Diverge /\ fst (db_size F fuel d) = Diverge /\ forall force, fst (db_update F fuel force d) = Diverge.
Proof. intros F U K r H fuel0 ops r' Hr Hc Hops d fuel. exact (proj2 (cycles F U K r H fuel0 ops r' Hr Hc Hops fuel)). Qed.
Print Assumptions C79_cycles.
