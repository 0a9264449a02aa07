(** Properties of PackedDB: C47, C48, C49, C74, C75. *)
From Coq Require Import Permutation Sorting.Sorted.
From Verif Require Import Py PyFacts FunModel FunSpec FunProofs IndexModel IndexSpec IndexProofs ZlibModel ZlibProofs ReaderModel PackModel PackSpec Prop_Index Prop_Pack
  PackDbModel PackDbSpec PackDbProofs PackDbTop PackDbFail.

Ltac by_vm := match goal with |- ?a = ?b => exact (@eq_refl _ b <: a = b) end.
Definition fresh_view : view := mk_view None 0.
Lemma reachable_distinct s : reachable s -> distinct s.
Proof. intros (K & ops & l & H1 & H2). now apply (run_distinct K ops packed_init l s H1). Qed.

(** C47 *)
Theorem C47_answers : forall (U : bytes -> option pack) (K : zlib) (ops : list op) (l : list (answer K)) (s : pdb),
  all_proper U fresh_view ops -> run_ops K ops packed_init = (l, s) ->
  exists v, all_right U fresh_view ops l v.
Proof.
  intros U K ops l s Hp Hr. destruct (run_right U K ops fresh_view packed_init Hp) as (l' & s' & v & E & H & _); [now split|].
  rewrite Hr in E. injection E as -> ->. now exists v.
Qed.
Print Assumptions C47_answers.
Theorem C47_each_pack_once : forall s l, reachable s -> p_entities s = Some l -> NoDup (map it_name l).
Proof. intros s l H E. apply reachable_distinct in H. unfold distinct in H. now rewrite E in H. Qed.
Print Assumptions C47_each_pack_once.

(** C48 *)
Theorem C48_update : forall e d s, proper_env e d -> reachable s ->
  exists r s', update_cache e true s = (r, s') /\ distinct s' /\
    (r = Ok true -> forall n, packs_in d n <-> In n (map it_name (items s'))) /\
    ((forall n, packs_in d n -> In n (map it_name (items s)) \/ exists count data, openable d n count data) -> r = Ok true) /\
    (forall it, In it (items s) -> packs_in d (it_name it) -> In it (items s')) /\
    (forall it, In it (items s') -> ~ In it (items s) ->
       packs_in d (it_name it) /\ it_idx it = None /\ In (it_name it, Ok (it_pack it)) (d_files d)).
Proof.
  intros e d s He Hs. destruct (forced_update e d s He (reachable_distinct s Hs)) as (r & s' & H1 & _ & H2 & H3 & H4 & H5 & H6).
  exists r, s'. tauto.
Qed.
Print Assumptions C48_update.

(** C49: an update at the same time stamp sees nothing (for a witness see C49_refuted below). *)
Theorem C49_same_time_refuted : forall e d s, e_dir e = Some d -> d_mtime d <= p_mtime s -> update_cache e false s = (Ok false, s).
Proof. exact older_update. Qed.
Print Assumptions C49_same_time_refuted.
Theorem C49_newer_partial : forall e d s, e_dir e = Some d -> p_mtime s < d_mtime d -> update_cache e false s = update_cache e true s.
Proof. exact newer_update. Qed.
Print Assumptions C49_newer_partial.
(** In every history: a pack added within the tick of the clock in which the directory was
    last looked at is not noticed by update_cache(), and what only it contains is missing. *)
Lemma run_ops_app K : forall a b s, run_ops K (a ++ b) s = (let (l, s) := run_ops K a s in let (l', s) := run_ops K b s in (l ++ l', s)).
Proof.
  induction a as [|o a IH]; intros b s; cbn [app run_ops]; [now destruct (run_ops K b s)|]. destruct (do_op K o s) as [x s1]. rewrite IH.
  destruct (run_ops K a s1) as [l s2]. now destruct (run_ops K b s2).
Qed.
Lemma all_proper_app U : forall a b v, all_proper U v (a ++ b) <-> all_proper U v a /\ all_proper U (fold_left (fun v o => view_after o v) a v) b.
Proof. induction a as [|o a IH]; intros b v; cbn [app all_proper fold_left]; [tauto|]. rewrite IH. tauto. Qed.
Lemma all_right_app U K : forall a b v l w, all_right U (K := K) v (a ++ b) l w -> exists l1 l2, l = l1 ++ l2 /\ length l1 = length a /\
  all_right U v a l1 (fold_left (fun v o => view_after o v) a v) /\ all_right U (fold_left (fun v o => view_after o v) a v) b l2 w.
Proof.
  induction a as [|o a IH]; intros b v l w H; [exists [], l; cbn; repeat split; [constructor|exact H]|]. cbn [app fold_left] in *. inversion H; subst.
  - match goal with X : all_right _ _ (a ++ b) _ _ |- _ => rename X into Hx end. destruct (IH _ _ _ _ Hx) as (l1 & l2 & -> & Hl & J1 & J2). exists (a0 :: l1), l2. cbn [length app]. repeat split; [lia| |exact J2]. econstructor; eassumption.
  - match goal with X : all_right _ _ (a ++ b) _ _ |- _ => rename X into Hx end. destruct (IH _ _ _ _ Hx) as (l1 & l2 & -> & Hl & J1 & J2). eexists (_ :: l1), l2. cbn [length app]. repeat split; [lia| |exact J2]. econstructor; eassumption.
Qed.
Theorem C49_every_unseen_refuted : forall (U : bytes -> option pack) (K : zlib) (ops : list op) (v : view) (P : bytes -> Prop) (e : env) (d : dir) (sha : bytes),
  all_proper U fresh_view ops -> v = fold_left (fun v o => view_after o v) ops fresh_view -> v_known v = Some P ->
  proper_env e d -> d_mtime d <= v_mtime v -> (forall n, P n -> there U d n) -> sha_ok sha -> (forall n k, ~ pack_has U P n k sha) ->
  fst (run_ops K (ops ++ [Update e false; Query e (QHas sha)]) packed_init) = fst (run_ops K ops packed_init) ++ [AUpdate (Ok false); AHas (Ok false)].
Proof.
  intros U K ops v P e d sha Hp -> Hk He Hm Ht Hs Hno. set (v := fold_left _ ops fresh_view) in *.
  assert (Hd : e_dir e = Some d) by apply He.
  assert (Hl : look_again (Update e false) v d = false) by (cbn; lia).
  assert (Hv : view_after (Update e false) v = v) by (unfold view_after; cbn [op_env]; now rewrite Hd, Hl).
  assert (Hv' : view_after (Query e (QHas sha)) v = v) by (unfold view_after; cbn [op_env look_again]; now rewrite Hd, Hk).
  assert (Hp2 : all_proper U fresh_view (ops ++ [Update e false; Query e (QHas sha)])).
  { apply all_proper_app. split; [exact Hp|]. fold v. cbn [all_proper]. rewrite Hv. split; [exists d; split; [exact He|]; split; [rewrite Hl; discriminate|exact I]|].
    split; [|exact I]. exists d. split; [exact He|]. split; [cbn [look_again]; rewrite Hk; discriminate|]. now rewrite Hk. }
  destruct (run_ops K (ops ++ [Update e false; Query e (QHas sha)]) packed_init) as [l s] eqn:E. destruct (C47_answers U K _ l s Hp2 E) as (w & Hr).
  destruct (all_right_app U K _ _ _ _ _ Hr) as (l1 & l2 & -> & Hlen & _ & H2). fold v in H2. rewrite run_ops_app in E.
  destruct (run_ops K ops packed_init) as [l0 s0] eqn:E0. cbn [fst].
  inversion H2; subst. assert (d0 = d) by congruence. subst d0. rewrite Hl. rewrite Hv in *. match goal with X : all_right _ _ [_] _ _ |- _ => inversion X; subst end. rewrite Hv' in *. assert (P0 = P) by congruence. subst P0.
  match goal with X : right_answer _ _ _ ?a |- _ => rename X into Ha; destruct a as [r| | | | | | |]; cbn [right_answer] in Ha; try contradiction end. destruct (Ha Hs) as (b & -> & Hb).
  match goal with X : all_right _ _ [] _ _ |- _ => inversion X; subst end.
  assert (b = false) as -> by (destruct b; [|reflexivity]; destruct (proj1 Hb eq_refl) as (n & k & Hn); now destruct (Hno n k)).
  destruct (run_ops K [Update e false; Query e (QHas sha)] s0) as [lx sx] eqn:Ex. injection E as E _. cbn [fst].
  assert (length l1 = length l0).
  { rewrite Hlen. clear -E0. revert l0 s0 E0. generalize packed_init as q. induction ops as [|o ops IH]; intros q l0 s0 E0; cbn [run_ops] in E0; [injection E0 as <- _; reflexivity|].
    destruct (do_op K o q) as [x q1]. destruct (run_ops K ops q1) as [y q2] eqn:Ey. injection E0 as <- _. cbn [length]. f_equal. now apply (IH q1 y q2). }
  f_equal. symmetry. revert H E. clear. revert l1. induction l0 as [|a l0 IH]; intros [|b l1] H E; try discriminate; [reflexivity|]. cbn [app] in E. injection E as -> E. f_equal. apply IH; [now injection H|exact E].
Qed.
Print Assumptions C49_every_unseen_refuted.

(** ** Examples: three packs *)
Definition ex_name (c : Z) : bytes := [112; 97; 99; 107; 45; c; 46; 112; 97; 99; 107].
Definition ex_idxname (c : Z) : bytes := [112; 97; 99; 107; 45; c; 46; 105; 100; 120].
Definition ex_pack (shas : list bytes) (crcs offs : list Z) : pack :=
  mk_pack 2 shas crcs offs (v2_file shas crcs offs [] (repeat 7 40)) (pack_head (len shas) ++ repeat 9 60).
Definition pk_a : pack := ex_pack [ex_s1; ex_s3] [1; 2] [12; 30].
Definition pk_b : pack := ex_pack [ex_s2; ex_s3] [3; 4] [12; 33].
Definition pk_c : pack := ex_pack [ex_s2] [5] [12].
Definition ex_U (n : bytes) : option pack :=
  if beq n (ex_name 97) then Some pk_a else if beq n (ex_name 98) then Some pk_b else if beq n (ex_name 99) then Some pk_c else None.
Definition files_of (c : Z) (k : pack) : list (bytes * res bytes) := [(ex_name c, Ok (k_data k)); (ex_idxname c, Ok (k_idx k))].
Definition ex_d1 : dir := mk_dir 5 (files_of 97 pk_a ++ files_of 98 pk_b ++ [([46; 107; 101; 101; 112], Ok [])]).
Definition ex_d2 : dir := mk_dir 9 (files_of 99 pk_c ++ files_of 97 pk_a).
Definition ex_e1 : env := mk_env (Some ex_d1) (fun l => l).
Definition ex_e2 : env := mk_env (Some ex_d2) (@rev bytes).

Lemma ex_good shas crcs offs : strictly_sorted_shas shas -> length crcs = length shas -> length offs = length shas ->
  Forall (fun c => 0 <= c < 100) crcs -> Forall (fun o => 0 <= o < 100) offs -> len shas < 100 -> good_pack (ex_pack shas crcs offs).
Proof.
  intros Hs Hc Ho Hcr Hof Hl. split; [|split; [exact Hs|]].
  - apply idx_v2; try easy; try apply Hs; try lia.
    + apply (Forall_impl _ (P := fun c => 0 <= c < 100)); [cbv beta; lia|easy].
    + clear - Hof. induction Hof; constructor; [left; lia|easy].
  - exists 2, (len shas), (repeat 9 60). pose proof (len_nonneg _ shas). split; [lia|]. split; [lia|]. unfold ex_pack, pack_head. cbn [k_data]. now rewrite <- !app_assoc.
Qed.
Lemma strict_sub (a b : bytes) : sha_ok a -> sha_ok b -> blt a b = true -> strictly_sorted_shas [a; b].
Proof. intros. split; [now repeat (apply Forall_cons; [easy|])|]. repeat (apply SSorted_cons; [|try now repeat (apply Forall_cons; [easy|])]); try apply SSorted_nil; apply Forall_nil. Qed.
Lemma ex_shas_ok : sha_ok ex_s1 /\ sha_ok ex_s2 /\ sha_ok ex_s3.
Proof. pose proof ex_strict as [H _]. rewrite Forall_forall in H. repeat split; apply H; cbn; tauto. Qed.
Lemma good_a : good_pack pk_a.
Proof. destruct ex_shas_ok as (H1 & H2 & H3). apply ex_good; try easy; [now apply strict_sub|repeat constructor; lia..]. Qed.
Lemma good_b : good_pack pk_b.
Proof. destruct ex_shas_ok as (H1 & H2 & H3). apply ex_good; try easy; [now apply strict_sub|repeat constructor; lia..]. Qed.
Lemma good_c : good_pack pk_c.
Proof. destruct ex_shas_ok as (H1 & H2 & H3). apply ex_good; try easy; [split; [now apply Forall_cons|apply SSorted_cons; [apply SSorted_nil|apply Forall_nil]]|repeat constructor; lia..]. Qed.

Lemma ex_proper_env d o : dedup (map fst (d_files d)) = map fst (d_files d) -> (forall l, Permutation (o l) l) -> proper_env (mk_env (Some d) o) d.
Proof. intros H Ho. split; [easy|]. split; [rewrite <- H; apply dedup_nodup|easy]. Qed.
Lemma ex_p1 : proper_env ex_e1 ex_d1.
Proof. apply ex_proper_env; [vm_compute; reflexivity|easy]. Qed.
Lemma ex_p2 : proper_env ex_e2 ex_d2.
Proof. apply ex_proper_env; [vm_compute; reflexivity|intros l; apply Permutation_sym, Permutation_rev]. Qed.
Lemma ex_there d c k : ex_U (ex_name c) = Some k -> good_pack k -> In (ex_name c, Ok (k_data k)) (d_files d) -> In (ex_idxname c, Ok (k_idx k)) (d_files d) -> there ex_U d (ex_name c).
Proof. intros H1 H2 H3 H4. exists k, (ex_idxname c). split; [easy|]. split; [easy|]. split; [now exists [c]|easy]. Qed.
Ltac pick := first [left; reflexivity | right; pick].
Lemma ex_t1 n : packs_in ex_d1 n -> there ex_U ex_d1 n.
Proof.
  intros H. apply glob_in in H. change (glob_packs ex_d1) with [ex_name 97; ex_name 98] in H.
  destruct H as [<- | [<- | []]]; [apply (ex_there _ _ pk_a)|apply (ex_there _ _ pk_b)]; try reflexivity; try apply good_a; try apply good_b; unfold ex_d1, files_of; cbn [d_files app]; pick.
Qed.
Lemma ex_t2 n : packs_in ex_d2 n -> there ex_U ex_d2 n.
Proof.
  intros H. apply glob_in in H. change (glob_packs ex_d2) with [ex_name 99; ex_name 97] in H.
  destruct H as [<- | [<- | []]]; [apply (ex_there _ _ pk_c)|apply (ex_there _ _ pk_a)]; try reflexivity; try apply good_a; try apply good_c; unfold ex_d2, files_of; cbn [d_files app]; pick.
Qed.
(** Queries, a change of the directory noticed by update_cache(), more queries. *)
Definition ex_ops : list op :=
  [Query ex_e1 (QHas ex_s3); Query ex_e1 (QPartial [17; 160] 3); Query ex_e1 QSize; Query ex_e1 (QHas ex_s2);
   Update ex_e2 false; Query ex_e2 (QHas ex_s2); Query ex_e2 QIter; Query ex_e2 (QHas (repeat 5 20)); Update ex_e2 false; Query ex_e2 QEntities].
Example C47_ex : all_proper ex_U fresh_view ex_ops.
Proof.
  assert (P1 : forall q, proper_op ex_U (Query ex_e1 q) fresh_view) by (intros q; exists ex_d1; split; [apply ex_p1|]; split; [intros _; apply ex_t1|easy]).
  assert (P2 : forall q m, proper_op ex_U (Query ex_e1 q) (mk_view (Some (packs_in ex_d1)) m)) by (intros q m; exists ex_d1; split; [apply ex_p1|]; split; [intros _; apply ex_t1|exact ex_t1]).
  assert (P3 : forall f v, proper_op ex_U (Update ex_e2 f) v) by (intros f v; exists ex_d2; split; [apply ex_p2|]; split; [intros _; apply ex_t2|easy]).
  assert (P4 : forall q m, proper_op ex_U (Query ex_e2 q) (mk_view (Some (packs_in ex_d2)) m)) by (intros q m; exists ex_d2; split; [apply ex_p2|]; split; [intros _; apply ex_t2|exact ex_t2]).
  cbn. repeat (split; [easy|]). easy.
Qed.
Example C47_ex_answers : fst (run_ops stored (firstn 9 ex_ops) packed_init) =
  [AHas (Ok true); APartial (Raise AmbiguousObjectName); ASize (Ok 4); AHas (Ok true);
   AUpdate (Ok true); AHas (Ok true); AIter (Ok [ex_s1; ex_s3; ex_s2]); AHas (Ok false); AUpdate (Ok false)].
Proof. by_vm. Qed.

(** C48: the update of the example is the general one. *)
Example C48_ex : let s := snd (run_ops stored (firstn 4 ex_ops) packed_init) in
  reachable s /\ map it_name (items s) = [ex_name 97; ex_name 98] /\
  fst (update_cache ex_e2 true s) = Ok true /\ map it_name (items (snd (update_cache ex_e2 true s))) = [ex_name 97; ex_name 99].
Proof.
  split; [|split; [by_vm|split; by_vm]]. exists stored, (firstn 4 ex_ops), (fst (run_ops stored (firstn 4 ex_ops) packed_init)).
  split; [|apply surjective_pairing]. repeat (apply Forall_cons; [right; exists ex_d1; exact ex_p1|]). apply Forall_nil.
Qed.

(** C49: pack-c was added within the same tick of the clock. *)
Definition ex_d3 : dir := mk_dir 5 (files_of 99 pk_c ++ files_of 97 pk_a).
Definition ex_e3 : env := mk_env (Some ex_d3) (fun l => l).
Definition ex_d4 : dir := mk_dir 5 (files_of 97 pk_a).
Definition ex_e4 : env := mk_env (Some ex_d4) (fun l => l).
Theorem C49_refuted : proper_env ex_e3 ex_d3 /\ packs_in ex_d3 (ex_name 99) /\ In ex_s2 (k_shas pk_c) /\ there ex_U ex_d3 (ex_name 99) /\
  fst (run_ops stored [Query ex_e4 (QHas ex_s2); Update ex_e3 false; Query ex_e3 (QHas ex_s2); Update ex_e3 true; Query ex_e3 (QHas ex_s2)] packed_init) =
  [AHas (Ok false); AUpdate (Ok false); AHas (Ok false); AUpdate (Ok true); AHas (Ok true)].
Proof.
  split; [apply ex_proper_env; [vm_compute; reflexivity|easy]|]. split; [apply glob_in; vm_compute; now left|]. split; [now left|].
  split; [|by_vm]. apply (ex_there _ _ pk_c); [reflexivity|apply good_c|unfold ex_d3, files_of; cbn [d_files app]; pick..].
Qed.
Print Assumptions C49_refuted.
Example C49_every_unseen_example :
  all_proper ex_U fresh_view [Query ex_e4 (QHas ex_s2)] /\ view_after (Query ex_e4 (QHas ex_s2)) fresh_view = mk_view (Some (packs_in ex_d4)) 5 /\
  proper_env ex_e3 ex_d3 /\ d_mtime ex_d3 <= 5 /\ (forall n, packs_in ex_d4 n -> there ex_U ex_d3 n) /\ sha_ok ex_s2 /\ (forall n k, ~ pack_has ex_U (packs_in ex_d4) n k ex_s2).
Proof.
  assert (T : forall n, packs_in ex_d4 n -> n = ex_name 97). { intros n H. apply glob_in in H. vm_compute in H. destruct H as [<-|[]]. reflexivity. }
  split. { cbn [all_proper]. split; [|exact I]. exists ex_d4. split; [apply ex_proper_env; [vm_compute; reflexivity|easy]|]. split; [|exact I]. intros _ n H. rewrite (T n H). apply (ex_there _ _ pk_a); [reflexivity|apply good_a|unfold ex_d4, files_of; cbn [d_files app]; pick..]. }
  split; [reflexivity|]. split; [apply ex_proper_env; [vm_compute; reflexivity|easy]|]. split; [cbn; lia|].
  split. { intros n H. rewrite (T n H). apply (ex_there _ _ pk_a); [reflexivity|apply good_a|unfold ex_d3, files_of; cbn [d_files app]; pick..]. }
  split; [apply ex_shas_ok|]. intros n k (H1 & H2 & H3). rewrite (T n H1) in H2. vm_compute in H2. injection H2 as <-. vm_compute in H3. destruct H3 as [H|[H|[]]]; discriminate.
Qed.

(** C74: a pack without index (as PackEntity.create leaves it for a moment, C64): an object
    of another pack is found or not depending on how often it has been asked for. *)
Definition ex_d5 : dir := mk_dir 6 ((ex_name 98, Ok (k_data pk_b)) :: files_of 99 pk_c).
Definition ex_e5 : env := mk_env (Some ex_d5) (fun l => l).
Definition ex_d6 : dir := mk_dir 5 (files_of 99 pk_c).
Definition ex_e6 : env := mk_env (Some ex_d6) (fun l => l).
Theorem C74_refuted : there ex_U ex_d5 (ex_name 99) /\ In ex_s2 (k_shas pk_c) /\
  fst (run_ops stored [Query ex_e5 (QHas ex_s2)] packed_init) = [AHas (Raise FileNotFound)] /\
  fst (run_ops stored [Query ex_e6 (QHas ex_s2); Query ex_e6 (QHas ex_s2); Update ex_e5 false; Query ex_e5 (QHas ex_s2)] packed_init) =
  [AHas (Ok true); AHas (Ok true); AUpdate (Ok true); AHas (Ok true)].
Proof.
  split; [apply (ex_there _ _ pk_c); [reflexivity|apply good_c|unfold ex_d5, files_of; cbn [d_files app]; pick..]|]. split; [now left|].
  split; by_vm.
Qed.
Print Assumptions C74_refuted.
(** So with every pack that lacks its index: asking for an object raises FileNotFoundError unless
    a pack with at least as many objects has it, and counting or listing the objects always does.
    [there U d m]: the pack m is complete. *)
Theorem C74_every_missing_index_refuted : forall (U : bytes -> option pack) (e : env) (d : dir) (n idx : bytes) (count : Z) (data : bytes),
  proper_env e d -> packs_in d n -> openable d n count data -> pack_and_index n idx -> ~ listed d idx -> (forall m, packs_in d m -> m <> n -> there U d m) ->
  (forall sha, sha_ok sha ->
     (forall m k version c rest, packs_in d m -> m <> n -> U m = Some k -> In sha (k_shas k) -> 0 <= version < 2 ^ 32 -> 0 <= c < 2 ^ 32 ->
        k_data k = [80; 65; 67; 75] ++ be_enc 4 version ++ be_enc 4 c ++ rest -> c < count) ->
     fst (has_object e sha packed_init) = Raise FileNotFound) /\
  fst (size e packed_init) = Raise FileNotFound /\ fst (sha_iter e packed_init) = Raise FileNotFound.
Proof.
  intros U e d n idx count data H1 H2 H3 H4 H5 H6. split; [exact (has_no_index U e d n idx count data H1 H2 H3 H4 H5 H6)|exact (all_no_index U e d n idx count data H1 H2 H3 H4 H5 H6)].
Qed.
Print Assumptions C74_every_missing_index_refuted.
Example C74_every_example : proper_env ex_e5 ex_d5 /\ packs_in ex_d5 (ex_name 98) /\ openable ex_d5 (ex_name 98) 2 (k_data pk_b) /\
  pack_and_index (ex_name 98) (ex_idxname 98) /\ ~ listed ex_d5 (ex_idxname 98) /\ (forall m, packs_in ex_d5 m -> m <> ex_name 98 -> there ex_U ex_d5 m) /\
  sha_ok ex_s2 /\ In ex_s2 (k_shas pk_c) /\
  (forall m k version c rest, packs_in ex_d5 m -> m <> ex_name 98 -> ex_U m = Some k -> In ex_s2 (k_shas k) -> 0 <= version < 2 ^ 32 -> 0 <= c < 2 ^ 32 ->
     k_data k = [80; 65; 67; 75] ++ be_enc 4 version ++ be_enc 4 c ++ rest -> c < 2).
Proof.
  assert (Hp : forall m, packs_in ex_d5 m -> m <> ex_name 98 -> m = ex_name 99).
  { intros m Hm Hne. apply glob_in in Hm. change (glob_packs ex_d5) with [ex_name 98; ex_name 99] in Hm. destruct Hm as [<- | [<- | []]]; easy. }
  split; [apply ex_proper_env; [vm_compute; reflexivity|easy]|]. split; [apply glob_in; left; reflexivity|].
  split; [split; [left; reflexivity|exists 2, (repeat 9 60); do 2 (split; [lia|]); vm_compute; reflexivity]|].
  split; [now exists [98]|]. split; [intros [c H]; apply (in_map fst) in H; vm_compute in H; decompose [or] H; discriminate || easy|].
  split; [intros m Hm Hne; rewrite (Hp m Hm Hne); apply (ex_there _ _ pk_c); [reflexivity|apply good_c|unfold ex_d5, files_of; cbn [d_files app]; pick..]|].
  split; [apply ex_shas_ok|]. split; [now left|]. intros m k version c rest Hm Hne HU _ Hv Hc Hd. rewrite (Hp m Hm Hne) in HU. injection HU as <-.
  assert (E : pack_open (k_data pk_c) = Ok (version, c)) by (rewrite Hd; now apply pack_open_head). vm_compute in E. injection E as _ <-. lia.
Qed.
(** What holds: an object said to be there is in the index of a pack. *)
Theorem C74_no_false_positive_partial : forall e sha s s', has_object e sha s = (Ok true, s') ->
  exists it d ix i, In it (items s') /\ it_idx it = Some d /\ index_open d = Ok ix /\ ix_sha ix i = sha.
Proof. exact has_sound. Qed.
Print Assumptions C74_no_false_positive_partial.

(** C75: opening pack-a fails at the first use; afterwards the objects of pack-c are said
    not to exist, also after update_cache(). *)
Definition ex_d7 : dir := mk_dir 6 ((ex_name 97, Ok (repeat 88 40)) :: files_of 99 pk_c).
Definition ex_e7 : env := mk_env (Some ex_d7) (fun l => l).
Theorem C75_refuted : there ex_U ex_d7 (ex_name 99) /\ In ex_s2 (k_shas pk_c) /\
  fst (run_ops stored [Query ex_e7 (QHas ex_s2); Query ex_e7 (QHas ex_s2); Update ex_e7 false; Query ex_e7 (QHas ex_s2)] packed_init) =
  [AHas (Raise ParseError); AHas (Ok false); AUpdate (Ok false); AHas (Ok false)].
Proof.
  split; [apply (ex_there _ _ pk_c); [reflexivity|apply good_c|unfold ex_d7, files_of; cbn [d_files app]; pick..]|]. split; [now left|].
  by_vm.
Qed.
Print Assumptions C75_refuted.
(** In general: of the packs, taken in any order, n is the first that cannot be opened.  The first
    query raises; all later calls, until the directory's time stamp changes or an update is forced,
    are answered as if there were only the packs before n. *)
Theorem C75_every_failed_load_refuted : forall (U : bytes -> option pack) (K : zlib) (e : env) (d : dir) (before after : list bytes) (n : bytes) (x : exn) (q : query) (ops : list op),
  proper_env e d -> e_order e (glob_packs d) = before ++ n :: after -> (forall m, In m before -> there U d m) ->
  (let! data := map_file e n in pack_open data) = Raise x -> x <> BadObject ->
  all_proper U (mk_view (Some (fun m => In m before)) (d_mtime d)) ops ->
  exists a l s v, run_ops K (Query e q :: ops) packed_init = (a :: l, s) /\ raised x a /\
    all_right U (mk_view (Some (fun m => In m before)) (d_mtime d)) ops l v.
Proof. intros U K e d before after n x q ops. exact (after_failure U K e d before n after x q ops). Qed.
Print Assumptions C75_every_failed_load_refuted.
(** So an object of another pack is said not to exist, also after update_cache(). *)
Theorem C75_every_said_missing_refuted : forall (U : bytes -> option pack) (K : zlib) (e : env) (d : dir) (before after : list bytes) (n : bytes) (x : exn) (q : query) (sha : bytes),
  proper_env e d -> e_order e (glob_packs d) = before ++ n :: after -> (forall m, In m before -> there U d m) ->
  (let! data := map_file e n in pack_open data) = Raise x -> x <> BadObject ->
  sha_ok sha -> (forall m k, In m before -> U m = Some k -> ~ In sha (k_shas k)) ->
  exists a, fst (run_ops K [Query e q; Query e (QHas sha); Update e false; Query e (QHas sha)] packed_init) =
    [a; AHas (Ok false); AUpdate (Ok false); AHas (Ok false)] /\ raised x a.
Proof. intros U K e d before after n x q sha. exact (said_missing U K e d before n after x q sha). Qed.
Print Assumptions C75_every_said_missing_refuted.
Definition ex_d8 : dir := mk_dir 6 (files_of 97 pk_a ++ (ex_name 98, Ok (repeat 88 40)) :: files_of 99 pk_c).
Definition ex_e8 : env := mk_env (Some ex_d8) (fun l => l).
Example C75_every_example : proper_env ex_e8 ex_d8 /\ e_order ex_e8 (glob_packs ex_d8) = [ex_name 97] ++ ex_name 98 :: [ex_name 99] /\
  (forall m, In m [ex_name 97] -> there ex_U ex_d8 m) /\ (let! data := map_file ex_e8 (ex_name 98) in pack_open data) = Raise ParseError /\
  there ex_U ex_d8 (ex_name 99) /\ all_proper ex_U (mk_view (Some (fun m => In m [ex_name 97])) (d_mtime ex_d8)) [Query ex_e8 (QHas ex_s2); Update ex_e8 false; Query ex_e8 QSize].
Proof.
  assert (Hp : proper_env ex_e8 ex_d8) by (apply ex_proper_env; [vm_compute; reflexivity|easy]).
  assert (Ht : forall m, In m [ex_name 97] -> there ex_U ex_d8 m).
  { intros m [<- | []]. apply (ex_there _ _ pk_a); [reflexivity|apply good_a|unfold ex_d8, files_of; cbn [d_files app]; pick..]. }
  split; [exact Hp|]. split; [vm_compute; reflexivity|]. split; [exact Ht|]. split; [by_vm|].
  split; [apply (ex_there _ _ pk_c); [reflexivity|apply good_c|unfold ex_d8, files_of; cbn [d_files app]; pick..]|].
  cbn [all_proper]. set (v := mk_view _ _). change (view_after (Query ex_e8 (QHas ex_s2)) v) with v. change (view_after (Update ex_e8 false) v) with v.
  split; [exists ex_d8; split; [exact Hp|]; split; [discriminate|exact Ht]|]. split; [exists ex_d8; split; [exact Hp|]; split; [discriminate|easy]|].
  split; [exists ex_d8; split; [exact Hp|]; split; [discriminate|exact Ht]|easy].
Qed.
