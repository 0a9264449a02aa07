(** Property of abbreviated names in a GitDB: C91. *)
From Coq Require Import ZifyBool ZifyNat Permutation Relations Sorting.Sorted.
From Verif Require Import Py PyFacts FunModel FunSpec FunProofs IndexModel IndexSpec IndexProofs ZlibModel ZlibProofs ReaderModel PackModel PackSpec Prop_Index Prop_Pack
  OsModel LooseModel PackDbModel PackDbSpec PackDbProofs PackDbTop Prop_PackDb
  MemModel MemProofs CompoundModel CompoundSpec CompoundProofs GitModel GitSpec GitProofs GitTop GitMain GitGrow GitRoots GitFinal Prop_Git GitAbbrModel GitAbbrSpec GitAbbrProofs GitShort.

(** Every answer of any history of lookups, updates and completions is the one that goes with
    what the reachable repositories offer. *)
Theorem C91_history_partial : forall (F : fs) (U : list Z -> bytes -> option pack) (K : zlib) (r : list Z),
  proper_from F U r -> forall m, finite_acyclic F r ->
  exists N, forall fuel ops l d, (N <= fuel)%nat -> Forall a_proper ops -> a_run F K fuel ops (gitdb r) = (l, d) -> Forall2 (a_right F U K m r) ops l.
Proof. exact a_acyclic. Qed.
Print Assumptions C91_history_partial.
(** A name that is returned, and two that are reported, are names of objects that are found
    and begin so; BadObject for lower case digits means that there is none. *)
Theorem C91_completes_partial : forall (F : fs) (U : list Z -> bytes -> option pack) (K : zlib) (r : list Z),
  proper_from F U r -> finite_acyclic F r ->
  exists N, forall fuel0 fuel ops digits, (N <= fuel)%nat -> Forall a_proper ops -> any_hex digits -> 3 <= len digits <= 40 ->
  completes F U r digits (fst (db_partial F fuel digits (snd (a_run F K fuel0 ops (gitdb r))))).
Proof.
  intros F U K r H Hac. destruct (a_partial F U K r H Hac) as (N & HN). exists N. intros fuel0 fuel ops digits Hf Hops Hd Hl.
  apply settles_completes; [exact Hd|]. now apply HN.
Qed.
Print Assumptions C91_completes_partial.
(** The name of the only such object is returned, if it is in a pack or the digits are lower
    case. *)
Theorem C91_only_partial : forall (F : fs) (U : list Z -> bytes -> option pack) (K : zlib) (r : list Z),
  proper_from F U r -> finite_acyclic F r ->
  exists N, forall fuel0 fuel ops digits s, (N <= fuel)%nat -> Forall a_proper ops -> any_hex digits -> 3 <= len digits <= 40 ->
  named F U r digits s -> (forall t, named F U r digits t -> t = s) -> (lower_hex digits \/ exists r', reaches F r r' /\ in_packs F U r' s) ->
  fst (db_partial F fuel digits (snd (a_run F K fuel0 ops (gitdb r)))) = Ok s.
Proof.
  intros F U K r H Hac. destruct (a_partial F U K r H Hac) as (N & HN). exists N. intros fuel0 fuel ops digits s Hf Hops Hd Hl Hs Hu Hk.
  apply (settles_only F U r digits Hd); [now apply HN|exact Hs|exact Hu|exact Hk].
Qed.
Print Assumptions C91_only_partial.
(** Digits of which one is upper case complete no name that is only loose. *)
Theorem C91_upper_case_refuted : forall (F : fs) (U : list Z -> bytes -> option pack) (K : zlib) (r : list Z),
  proper_from F U r -> finite_acyclic F r ->
  exists N, forall fuel0 fuel ops digits, (N <= fuel)%nat -> Forall a_proper ops -> any_hex digits -> 3 <= len digits <= 40 -> ~ lower_hex digits ->
  (forall r' s, reaches F r r' -> in_packs F U r' s -> ~ begins (lower digits) s) ->
  fst (db_partial F fuel digits (snd (a_run F K fuel0 ops (gitdb r)))) = Raise BadObject.
Proof.
  intros F U K r H Hac. destruct (a_partial F U K r H Hac) as (N & HN). exists N. intros fuel0 fuel ops digits Hf Hops Hd Hl Hup Hno.
  apply (settles_none F U r digits Hd); [now apply HN|exact Hup|exact Hno].
Qed.
Print Assumptions C91_upper_case_refuted.
(** With alternates that lead back the call never returns. *)
Theorem C91_cycle_refuted : forall (F : fs) (U : list Z -> bytes -> option pack) (K : zlib) (r : list Z),
  proper_from F U r -> forall fuel0 ops r', reaches F r r' -> clos_trans _ (alternate F) r' r' -> Forall a_proper ops ->
  forall fuel digits, fst (db_partial F fuel digits (snd (a_run F K fuel0 ops (gitdb r)))) = Diverge.
Proof. exact a_cycles. Qed.
Print Assumptions C91_cycle_refuted.
(** Two objects in the same pack: the first one is returned. *)
Definition pk_w : pack := ex_pack [ex_s1; ex_s2] [1; 2] [12; 30].
Definition dir_w : dir := mk_dir 5 (files_of 119 pk_w).
Definition ex_W (r n : bytes) : option pack := if beq n (ex_name 119) then Some pk_w else None.
Definition ex_FW : fs := ex_fs (Some (mk_repo (Some dir_w) [] None)) None None.
Lemma good_w : good_pack pk_w.
Proof. destruct ex_shas_ok as (H1 & H2 & H3). apply ex_good; try easy; [now apply strict_sub|repeat constructor; lia..]. Qed.
Lemma ex_FW_proper : proper_from ex_FW ex_W p_a.
Proof.
  split; [apply rev_order|]. split; [split; [easy|now eexists]|]. intros r _ R HR. apply ex_fs_repo in HR as [[_ HR]|[[_ HR]|[_ HR]]]; try discriminate. injection HR as <-. cbn [r_pack r_loose r_alt]. split; [|split; [constructor|easy]].
  intros d Hd. injection Hd as <-. split.
  - assert (dedup (map fst (d_files dir_w)) = map fst (d_files dir_w)) as E by (vm_compute; reflexivity). rewrite <- E. apply dedup_nodup.
  - intros n Hn. apply glob_in in Hn. assert (glob_packs dir_w = [ex_name 119]) as E by (vm_compute; reflexivity). rewrite E in Hn. destruct Hn as [<- |[]].
    exists pk_w, (ex_idxname 119). split; [easy|]. split; [exact good_w|]. split; [now exists [119]|]. split; [now left|right; now left].
Qed.
Lemma ex_FW_alone p q : ~ alternate ex_FW p q.
Proof. intros ((R & text & HR & Ha & _) & _). apply ex_fs_repo in HR as [[_ HR]|[[_ HR]|[_ HR]]]; try discriminate. injection HR as <-. discriminate. Qed.
Lemma ex_FW_acyclic : finite_acyclic ex_FW p_a.
Proof.
  split.
  - exists [p_a]. intros r' Hr. apply clos_rt_rt1n in Hr. inversion Hr as [|y z Hy _]; subst; [now left|now apply ex_FW_alone in Hy].
  - intros r' _ Hc. apply clos_trans_t1n in Hc. inversion Hc as [y Hy|y z Hy _]; subst; now apply ex_FW_alone in Hy.
Qed.
Lemma ex_FW_has s : In s (k_shas pk_w) -> found ex_FW ex_W p_a s.
Proof.
  intros Hs. exists p_a. split; [apply rt_refl|]. left. eexists _, dir_w, (ex_name 119), pk_w. split; [reflexivity|]. split; [reflexivity|]. split; [apply glob_in; vm_compute; now left|]. split; [reflexivity|exact Hs].
Qed.
Theorem C91_same_pack_refuted : proper_from ex_FW ex_W p_a /\ finite_acyclic ex_FW p_a /\ lower_hex [49; 49; 97] /\
  named ex_FW ex_W p_a [49; 49; 97] ex_s1 /\ named ex_FW ex_W p_a [49; 49; 97] ex_s2 /\ ex_s1 <> ex_s2 /\
  fst (db_partial ex_FW 9 [49; 49; 97] (gitdb p_a)) = Ok ex_s1.
Proof.
  split; [exact ex_FW_proper|]. split; [exact ex_FW_acyclic|]. split; [repeat constructor; lia|].
  split; [split; [apply ex_FW_has; now left|easy]|]. split; [split; [apply ex_FW_has; right; now left|easy]|]. split; [discriminate|by_vm].
Qed.
Print Assumptions C91_same_pack_refuted.
Lemma first_at A (f : A -> bool) pre s post : (forall x, In x pre -> f x <> true) -> f s = true -> first_index f (pre ++ s :: post) = Some (len pre) /\ index (pre ++ s :: post) (len pre) = Ok s.
Proof.
  intros Hpre Hs. split; [|now apply index_app]. induction pre as [|x pre IH]; cbn [app first_index].
  - now rewrite Hs.
  - pose proof (Hpre x (or_introl eq_refl)) as Hx. destruct (f x); [now elim Hx|]. rewrite IH by (intros y Hy; apply Hpre; now right). cbn [option_map]. f_equal. unfold len. cbn [length]. lia.
Qed.
(** So it is for every pack with several such names: when all of them are there the first one is
    returned, as if there were no other. *)
Theorem C91_every_same_pack_refuted : forall (F : fs) (U : list Z -> bytes -> option pack) (K : zlib) (r : list Z),
  proper_from F U r -> finite_acyclic F r ->
  exists N, forall fuel0 fuel ops digits r' R d n k pre s post t, (N <= fuel)%nat -> Forall a_proper ops -> any_hex digits -> 3 <= len digits <= 40 ->
  reaches F r r' -> f_repo F r' = Some R -> r_pack R = Some d -> packs_in d n -> U r' n = Some k ->
  k_shas k = pre ++ s :: post -> (forall x, In x pre -> ~ begins (lower digits) x) -> begins (lower digits) s -> In t post -> begins (lower digits) t ->
  (forall r1, reaches F r r1 -> (forall x, is_loose_in F r1 x -> ~ begins digits x) /\
     (forall R1 d1 n1 k1 x, f_repo F r1 = Some R1 -> r_pack R1 = Some d1 -> pack_has (U r1) (packs_in d1) n1 k1 x -> begins (lower digits) x -> r1 = r' /\ n1 = n)) ->
  named F U r digits s /\ named F U r digits t /\
  fst (db_partial F fuel digits (snd (a_run F K fuel0 ops (gitdb r)))) = Ok s.
Proof.
  intros F U K r H Hac. destruct (a_partial F U K r H Hac) as (N & HN). exists N. intros fuel0 fuel ops digits r' R d n k pre s post t Hf Hops Hd Hl Hr HR Hp Hn Hk Hsh Hpre Hs Ht Htb Hall.
  assert (Hnamed : forall x, In x (k_shas k) -> begins (lower digits) x -> named F U r digits x).
  { intros x Hx Hb. split; [|exact Hb]. exists r'. split; [exact Hr|]. left. exists R, d, n, k. split; [exact HR|]. split; [exact Hp|]. split; [exact Hn|]. now split. }
  split; [apply Hnamed; [rewrite Hsh; apply in_or_app; right; now left|exact Hs]|]. split; [apply Hnamed; [rewrite Hsh; apply in_or_app; right; now right|exact Htb]|].
  assert (Hfirst : first_index (fun s => startswith (bin_to_hex s) (lower digits)) (k_shas k) = Some (len pre) /\ index (k_shas k) (len pre) = Ok s) by (rewrite Hsh; apply (first_at _ (fun s => startswith (bin_to_hex s) (lower digits))); assumption).
  assert (Hoff : forall x, git_offers F U r digits x <-> x = s).
  { intros x. split.
    - intros (r1 & Hr1 & [[H1 H2]|(R1 & d1 & HR1 & Hd1 & n1 & k1 & i & Hn1 & Hk1 & Hi & Hx)]); [now elim (proj1 (Hall r1 Hr1) x H1)|].
      pose proof Hi as Hi'. apply first_index_at in Hi' as (y & Hy & Hin & Hb). assert (y = x) by congruence. subst y. destruct (proj2 (Hall r1 Hr1) R1 d1 n1 k1 x HR1 Hd1) as [-> ->]; [now split|exact Hb|].
      rewrite Hk in Hk1. injection Hk1 as <-. destruct Hfirst as [E1 E2]. rewrite Hi in E1. injection E1 as ->. rewrite Hx in E2. now injection E2.
    - intros ->. exists r'. split; [exact Hr|]. right. exists R, d. split; [exact HR|]. split; [exact Hp|]. exists n, k, (len pre). split; [exact Hn|]. split; [exact Hk|exact Hfirst]. }
  specialize (HN fuel0 fuel ops digits Hf Hops Hd Hl). destruct (fst (db_partial F fuel digits _)) as [x|e|]; cbn [settles] in HN.
  - f_equal. apply Hoff. apply HN.
  - destruct e; try easy; [elim (HN s); now apply Hoff|]. destruct HN as (a & b & Ha & Hb & Hne). apply Hoff in Ha, Hb. congruence.
  - easy.
Qed.
Print Assumptions C91_every_same_pack_refuted.
Example C91_every_same_pack_example : reaches ex_FW p_a p_a /\ packs_in dir_w (ex_name 119) /\ k_shas pk_w = [] ++ ex_s1 :: [ex_s2] /\
  begins (lower [49; 49; 97]) ex_s1 /\ begins (lower [49; 49; 97]) ex_s2 /\
  (forall r1, reaches ex_FW p_a r1 -> (forall x, is_loose_in ex_FW r1 x -> ~ begins [49; 49; 97] x) /\
     (forall R1 d1 n1 k1 x, f_repo ex_FW r1 = Some R1 -> r_pack R1 = Some d1 -> pack_has (ex_W r1) (packs_in d1) n1 k1 x -> begins (lower [49; 49; 97]) x -> r1 = p_a /\ n1 = ex_name 119)).
Proof.
  split; [apply rt_refl|]. split; [apply glob_in; vm_compute; now left|]. split; [reflexivity|]. split; [easy|]. split; [easy|]. intros r1 Hr.
  assert (r1 = p_a) as -> by (apply clos_rt_rt1n in Hr; inversion Hr as [|y z Hy _]; subst; [reflexivity|now apply ex_FW_alone in Hy]). split.
  - intros x (R & c & HR & Hin). apply ex_fs_repo in HR as [[_ HR]|[[_ HR]|[_ HR]]]; try discriminate. injection HR as <-. elim Hin.
  - intros R1 d1 n1 k1 x _ _ (_ & Hk & _) _. split; [reflexivity|]. unfold ex_W in Hk. destruct (beq n1 (ex_name 119)) eqn:E; [|discriminate]. now apply beq_eq.
Qed.
(** Fewer than three digits are refused when there is a pack. *)
Lemma ex_F_found s : found ex_F ex_V p_a s -> In s [ex_s1; ex_s2; ex_s3; n1; n2].
Proof.
  intros (r & _ & [(R & d & n & k & HR & Hd & _ & Hk & Hin)|(R & c & HR & Hin)]).
  - unfold ex_V, ex_U in Hk. destruct (beq n (ex_name 97)); [|destruct (beq n (ex_name 98)); [|destruct (beq n (ex_name 99))]]; try discriminate;
      injection Hk as <-; cbn [k_shas pk_a pk_b pk_c ex_pack In] in *; tauto.
  - apply ex_fs_repo in HR as [[_ E]|[[_ E]|[_ E]]]; injection E as <-; destruct Hin as [E|[]]; injection E as <- <-; cbn [In]; tauto.
Qed.
Lemma ex_F_s3 : found ex_F ex_V p_a ex_s3.
Proof.
  exists p_a. split; [apply rt_refl|]. left. exists repo_a, dir_a, (ex_name 97), pk_a. split; [easy|]. split; [easy|]. split; [apply glob_in; vm_compute; now left|]. split; [easy|right; now left].
Qed.
Theorem C91_short_refuted : named ex_F ex_V p_a [99] ex_s3 /\ (forall t, named ex_F ex_V p_a [99] t -> t = ex_s3) /\
  fst (db_partial ex_F 9 [99] (gitdb p_a)) = Raise ValueError.
Proof.
  split; [split; [exact ex_F_s3|easy]|]. split; [|by_vm].
  intros t [Ht Hb]. apply ex_F_found in Ht. repeat (destruct Ht as [<- |Ht]; [first [reflexivity | vm_compute in Hb; discriminate]|]). easy.
Qed.
Print Assumptions C91_short_refuted.
(** So they are in every repository that has a pack, whatever was asked before and whatever they
    name. *)
Theorem C91_every_short_refuted : forall (F : fs) (U : list Z -> bytes -> option pack) (K : zlib) (r : list Z),
  proper_from F U r -> finite_acyclic F r ->
  exists N, forall fuel0 fuel ops digits R d n, (N <= fuel)%nat -> Forall a_proper ops -> any_hex digits -> 1 <= len digits <= 2 ->
  f_repo F r = Some R -> r_pack R = Some d -> packs_in d n ->
  fst (db_partial F fuel digits (snd (a_run F K fuel0 ops (gitdb r)))) = Raise ValueError.
Proof. exact short_always. Qed.
Print Assumptions C91_every_short_refuted.
Example C91_every_short_example : proper_from ex_F ex_V p_a /\ finite_acyclic ex_F p_a /\ any_hex [99] /\
  f_repo ex_F p_a = Some repo_a /\ r_pack repo_a = Some dir_a /\ packs_in dir_a (ex_name 97).
Proof.
  split; [exact ex_F_proper|]. split; [exact ex_F_acyclic|]. split; [repeat constructor; lia|]. split; [reflexivity|]. split; [reflexivity|]. apply glob_in. vm_compute. now left.
Qed.
(** And no object is ever returned for them when only an alternate, however far, has a pack. *)
Theorem C91_short_alternate_refuted : forall (F : fs) (U : list Z -> bytes -> option pack) (K : zlib) (r : list Z),
  proper_from F U r -> finite_acyclic F r ->
  exists N, forall fuel0 fuel ops digits r' R d n, (N <= fuel)%nat -> Forall a_proper ops -> any_hex digits -> 1 <= len digits <= 2 ->
  reaches F r r' -> f_repo F r' = Some R -> r_pack R = Some d -> packs_in d n ->
  let x := fst (db_partial F fuel digits (snd (a_run F K fuel0 ops (gitdb r)))) in x = Raise ValueError \/ x = Raise AmbiguousObjectName.
Proof. exact short_deep. Qed.
Print Assumptions C91_short_alternate_refuted.
(** /b has no pack and one loose object 0909…; its alternate /c has a pack. *)
Example C91_short_alternate_example : proper_from ex_F ex_V p_b /\ finite_acyclic ex_F p_b /\ r_pack repo_b = None /\ any_hex [48; 57] /\
  reaches ex_F p_b p_c /\ f_repo ex_F p_c = Some repo_c /\ r_pack repo_c = Some dir_c /\ packs_in dir_c (ex_name 99) /\
  fst (db_partial ex_F 9 [48; 57] (gitdb p_b)) = Raise ValueError /\ fst (db_partial ex_F 9 [48; 57; 48] (gitdb p_b)) = Ok n2.
Proof.
  assert (Hab : reaches ex_F p_a p_b) by (apply rt_step; apply (alt_is _ _ _ repo_a text_a); try easy; now left).
  destruct ex_F_proper as (Ho & _ & Hp). destruct ex_F_acyclic as [(l & Hl) Hc].
  split; [split; [exact Ho|]; split; [split; [easy|now exists repo_b]|]; intros r' Hr; apply Hp; now apply rt_trans with p_b|].
  split; [split; [exists l; intros r' Hr; apply Hl; now apply rt_trans with p_b|intros r' Hr; apply Hc; now apply rt_trans with p_b]|].
  split; [reflexivity|]. split; [repeat constructor; lia|]. split; [apply rt_step; apply (alt_is _ _ _ repo_b text_b); try easy; now left|].
  split; [reflexivity|]. split; [reflexivity|]. split; [apply glob_in; vm_compute; now left|]. split; by_vm.
Qed.
(** Objects of the repository and of its alternates, loose and packed: "0d0" (loose), "11a"
    (two objects in two packs), "C80" (packed), "11Ab", "0D0" (the loose one again), "abc", and
    "0909" (loose in the first alternate). *)
Definition ex_a_ops : list aop :=
  [Complete [48; 100; 48]; Complete [49; 49; 97]; Other (GUpdate true); Complete [67; 56; 48]; Complete [49; 49; 65; 98]; Other (GHas n2); Complete [48; 68; 48]; Complete [97; 98; 99]; Complete [48; 57; 48; 57]].
Example C91_example : proper_from ex_F ex_V p_a /\ finite_acyclic ex_F p_a /\ Forall a_proper ex_a_ops /\
  fst (a_run ex_F stored 9 ex_a_ops (gitdb p_a)) =
    [AComplete (Ok n1); AComplete (Raise AmbiguousObjectName); AOther (HUpdate (Ok true)); AComplete (Ok ex_s3); AComplete (Ok ex_s1); AOther (HHas (Ok true)); AComplete (Raise BadObject); AComplete (Raise BadObject); AComplete (Ok n2)].
Proof.
  split; [exact ex_F_proper|]. split; [exact ex_F_acyclic|]. split; [|by_vm].
  repeat (constructor; [first [exact Logic.I | (split; [repeat constructor; lia|cbn; lia]) | (split; [easy|repeat constructor; cbn; lia])]|]). constructor.
Qed.
(** Digits as in the theorems, after that history. *)
Example C91_example_hypotheses : named ex_F ex_V p_a [67; 56; 48] ex_s3 /\ (forall t, named ex_F ex_V p_a [67; 56; 48] t -> t = ex_s3) /\ (exists r', reaches ex_F p_a r' /\ in_packs ex_F ex_V r' ex_s3) /\
  ~ lower_hex [48; 68; 48] /\ (forall r' s, reaches ex_F p_a r' -> in_packs ex_F ex_V r' s -> ~ begins (lower [48; 68; 48]) s) /\ named ex_F ex_V p_a [48; 68; 48] n1.
Proof.
  split; [split; [exact ex_F_s3|easy]|]. split.
  { intros t [Ht Hb]. apply ex_F_found in Ht. repeat (destruct Ht as [<- |Ht]; [first [reflexivity | vm_compute in Hb; discriminate]|]). easy. }
  split. { destruct ex_F_s3 as (r' & Hr & [Hp|(R & c & HR & Hin)]); [now exists r'|]. apply ex_fs_repo in HR as [[_ E]|[[_ E]|[_ E]]]; injection E as <-; destruct Hin as [E|[]]; discriminate. }
  split. { intros H. inversion H as [|? ? _ H']; subst. inversion H' as [|? ? Hc _]; subst. lia. }
  split.
  - intros r' s _ (R & d & n & k & HR & Hd & _ & Hk & Hin) Hb. unfold ex_V, ex_U in Hk. destruct (beq n (ex_name 97)); [|destruct (beq n (ex_name 98)); [|destruct (beq n (ex_name 99))]]; try discriminate;
      injection Hk as <-; cbn [k_shas pk_a pk_b pk_c ex_pack In] in Hin; repeat (destruct Hin as [<- |Hin]; [vm_compute in Hb; discriminate|]); easy.
  - split; [|easy]. exists p_a. split; [apply rt_refl|]. right. exists repo_a, (Ok loose_hi). split; [easy|now left].
Qed.

(** ** C78, completing names *)
Theorem C78_name_partial : forall (F : fs) (root : list Z) (fuel : nat) (digits : bytes), f_repo F root = None ->
  fst (db_partial F (S fuel) digits (gitdb root)) = Raise InvalidDBRoot.
Proof. intros F root fuel digits H. unfold db_partial, gitdb. cbn [db_open with_dbs]. unfold git_load, git_members. rewrite H. reflexivity. Qed.
Print Assumptions C78_name_partial.
