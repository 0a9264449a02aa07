(** Property C105 of properties.jsonl: what a power failure does to created packs, over every
    zlib, every hash function and every behaviour of the system allowed by OsModel.v without
    short writes. *)
From Coq Require Import Permutation.
From Verif Require Import Py PyFacts FunModel FunSpec IndexModel IndexSpec ZlibModel ReaderModel PackModel PackSpec OsModel OsProofs
  PackDbModel PackDbSpec PackDbProofs CreateModel CreateSpec CreateProofs CreateConc CreateRead DurableSpec DurableProofs ErrorSpec ErrorProofs
  CreateDurable Prop_Index Prop_Pack Prop_Create Prop_Errors.

(** ** C105 *)
(** Every creation of a pack that has returned: the power may fail so that the pack file is
    empty, also if it had been there before.  Every other file in the directory but the index is
    unharmed, and yet no query to a new database over the directory returns: each of them fails
    with ValueError, whatever pack the object is in. *)
Theorem C105_pack_lost_refuted :
  forall (K : zlib) (sha1 : bytes -> bytes) (pagesize : Z) (R : Type) (oread : R -> Z -> res (bytes * R)) (fuel : nat) (O : os) (base : path)
    (level : Z) (objs : list wobj) (object_count : option Z) (s0 s : world) (pp : path),
  may_fail O KShort = false -> wf s0 ->
  runs O (create_pack K sha1 pagesize oread fuel base level objs object_count) s0 (Ok pp) s ->
  exists ip s2, power_loss s0 s s2 /\ contents s2 pp = Some [] /\ (forall p, p <> pp -> p <> ip -> contents s2 p = contents s0 p) /\
    forall m e, readable_dir (dir_at base m s0) -> proper_env e (dir_at base m s2) ->
      (forall n x, packs_in (dir_at base m s0) n -> base ++ [n] <> pp -> ~ file_fails bad_pack (dir_at base m s0) n x) ->
      forall o, op_env o = e -> match o with Query _ _ => True | Update _ force => force = true end ->
        raised (fst (do_op K o packed_init)) = Some ValueError.
Proof.
  intros K sha1 pagesize R oread fuel O base level objs oc s0 s pp Hs Hw Hr.
  destruct (create_lost K sha1 pagesize oread fuel O Hs base (mk_job level objs oc) s0 Hw pp s Hr) as (ip & pack & idx & s2 & M & Hloss & Hw2 & Hp & Hi & Hrest).
  exists ip, s2. split; [exact Hloss|]. split; [exact Hp|]. split; [exact Hrest|]. intros m e Hread He Hgood o Ho Hk.
  destruct M as (psha & isha & name & iname & Ew & Hnames & -> & ->).
  assert (Hpair : pack_and_index name iname).
  { destruct Hnames as [-> ->]. exists ([98; 39] ++ bin_to_hex psha ++ [39]). split; now rewrite <- !app_assoc. }
  assert (Hread2 : readable_dir (dir_at base m s2)).
  { intros n c Hin. assert (exists d, c = Ok d) as (d & ->).
    { unfold dir_at in Hin. cbn [d_files] in Hin. apply in_map_iff in Hin as (x & E & _). injection E as _ <-. now eexists. }
    apply dir_at_files in Hin; [|exact Hw2].
    destruct (path_eq_dec (base ++ [n]) (base ++ [name])) as [E|H1]; [rewrite E, Hp in Hin; injection Hin as <-; constructor|].
    destruct (path_eq_dec (base ++ [n]) (base ++ [iname])) as [E|H2]; [rewrite E, Hi in Hin; injection Hin as <-; constructor|].
    rewrite Hrest in Hin by assumption. apply (dir_at_files base m s0 n d Hw) in Hin. exact (Hread n (Ok d) Hin). }
  assert (Hin : packs_in (dir_at base m s2) name) by (split; [apply dir_at_listed; [easy|congruence]|now exists iname]).
  destruct (C94_first_use K e (dir_at base m s2) packed_init He Hread2 eq_refl) as (n & x & H1 & H2 & H3).
  { exists name, ValueError. split; [exact Hin|]. right. right. left. split; [|reflexivity]. now apply dir_at_files. }
  rewrite (H3 o Ho Hk). f_equal. destruct (list_eq_dec Z.eq_dec n name) as [->|Hne].
  - assert (Hnd : forall c, In (name, c) (d_files (dir_at base m s2)) -> c = Ok []).
    { intros c Hc. assert (H0 : In (name, Ok []) (d_files (dir_at base m s2))) by now apply dir_at_files. pose proof (dir_at_nodup base m s2 Hw2) as Hd.
      revert Hc H0 Hd. generalize (d_files (dir_at base m s2)). induction l as [|[a b] l IH]; [easy|]. cbn [map fst In]. intros Hc H0 Hd. inversion_clear Hd as [|? ? Hx Hy].
      destruct Hc as [Hc|Hc], H0 as [H0|H0]; [congruence| | |now apply IH].
      - injection Hc as -> ->. elim Hx. change name with (fst (name, @Ok bytes [])). now apply in_map.
      - injection H0 as -> ->. elim Hx. change name with (fst (name, c)). now apply in_map. }
    destruct H2 as [[H2 _]|[H2|[[_ H2]|(c & Hc & H2 & _)]]]; [now elim H2; exists (Ok []); apply dir_at_files|apply Hnd in H2; discriminate|exact H2|apply Hnd in H2; congruence].
  - exfalso. assert (Hsame : contents s2 (base ++ [n]) = contents s0 (base ++ [n])).
    { apply Hrest; intros E; apply app_inj_tail in E as [_ E]; [easy|]. subst n. destruct H1 as [_ (y & z & E & _)], Hpair as (y' & _ & E'). rewrite E' in E.
      apply (f_equal (fun l => last l 0)) in E.
      change [46; 112; 97; 99; 107] with ([46; 112; 97; 99] ++ [107]) in E. change [46; 105; 100; 120] with ([46; 105; 100] ++ [120]) in E. rewrite !app_assoc, !last_last in E. discriminate. }
    assert (Hfiles : forall c, In (n, Ok c) (d_files (dir_at base m s2)) <-> In (n, Ok c) (d_files (dir_at base m s0))) by (intros c; rewrite !dir_at_files by assumption; now rewrite Hsame).
    apply (Hgood n x).
    + destruct H1 as [H1 H1']. split; [|exact H1']. apply (dir_at_listed base m s2 n Hw2) in H1. apply dir_at_listed; [exact Hw|]. now rewrite <- Hsame.
    + intros E. apply app_inj_tail in E as [_ E]. easy.
    + destruct H2 as [[H2 _]|[H2|[[H2 ->]|(c & Hc & H2 & H4)]]].
      * elim H2. apply H1.
      * unfold dir_at in H2. cbn [d_files] in H2. apply in_map_iff in H2 as (y & E & _). discriminate.
      * right. right. left. split; [now apply Hfiles|reflexivity].
      * right. right. right. exists c. split; [exact Hc|]. split; [now apply Hfiles|exact H4].
Qed.
Print Assumptions C105_pack_lost_refuted.
(** Creating the pack again is a remedy: what a pack that was lost has does not matter. *)
Theorem C105_again_partial :
  forall (K : zlib) (sha1 : bytes -> bytes) (pagesize : Z) (R : Type) (oread : R -> Z -> res (bytes * R)) (fuel : nat) (O : os) (base : path)
    (level : Z) (objs : list wobj) (object_count : option Z) (s0 s s2 s3 : world) (pp pp' : path),
  may_fail O KShort = false -> wf s0 ->
  let create := create_pack K sha1 pagesize oread fuel base level objs object_count in
  runs O create s0 (Ok pp) s -> power_loss s0 s s2 -> runs O create s2 (Ok pp') s3 ->
  pp' = pp /\ exists ip, forall p, p = pp \/ p = ip -> contents s3 p = contents s p /\ contents s p <> None.
Proof.
  intros K sha1 pagesize R oread fuel O base level objs oc s0 s s2 s3 pp pp' Hs Hw create Hr Hloss Hr'.
  assert (Hw2 : wf s2) by exact (loss_wf _ _ _ Hloss (steps_wf _ _ _ _ _ _ Hr Hw)).
  destruct (create_alone K sha1 pagesize oread O Hs base fuel level objs oc s0 pp s Hw Hr) as (ip & pack & idx & M & Hp & Hi & _).
  destruct (create_alone K sha1 pagesize oread O Hs base fuel level objs oc s2 pp' s3 Hw2 Hr') as (ip' & pack' & idx' & M' & Hp' & Hi' & _).
  destruct (made_same K sha1 pagesize oread fuel base _ _ _ _ _ _ _ _ _ M M') as (<- & <- & <- & <-). split; [reflexivity|]. exists ip. intros p [-> | ->]; rewrite ?Hp, ?Hp', ?Hi, ?Hi'; now split.
Qed.
Print Assumptions C105_again_partial.
(** What does survive: wherever create stops and the power fails, every file is as before, or a
    temporary one under a new name, or a first part of the new pack or its index. *)
Theorem C105_others_unharmed_partial :
  forall (K : zlib) (sha1 : bytes -> bytes) (pagesize : Z) (R : Type) (oread : R -> Z -> res (bytes * R)) (fuel : nat) (O : os) (base : path)
    (j : job R) (s0 s s2 : world),
  may_fail O KShort = false -> wf s0 -> stops O (creating K sha1 pagesize R oread fuel base j) s0 s -> power_loss s0 s s2 ->
  forall p, contents s2 p = contents s0 p \/ (scratch base p /\ contents s0 p = None) \/
    exists pp ip pack idx z, made K sha1 pagesize oread fuel base j pp ip pack idx /\ contents s2 p = Some z /\ ((p = pp /\ prefix z pack) \/ (p = ip /\ prefix z idx)).
Proof.
  intros K sha1 pagesize R oread fuel O base j s0 s s2 Hs Hw Hst Hloss. exact (create_left K sha1 pagesize oread fuel O Hs base j s0 Hw s s2 Hst Hloss).
Qed.
Print Assumptions C105_others_unharmed_partial.

Lemma lose_file s0 s i : (w_next s0 <= i)%nat -> power_loss s0 s (set_data s i []).
Proof.
  intros Hi. split; [easy|]. split; [easy|]. split; [easy|]. intros x. rewrite data_set_data. destruct (Nat.eqb_spec x i) as [->|].
  - split; [now exists (w_data s i)|lia].
  - split; [exists []; now rewrite app_nil_r|easy].
Qed.
Lemma lose_none s0 s : power_loss s0 s s.
Proof. split; [easy|]. split; [easy|]. split; [easy|]. intros x. split; [exists []; now rewrite app_nil_r|easy]. Qed.
(** The pack of Prop_Create.v: it is lost, and made again. *)
Definition lost_world : world := match lookup ex_w1 ex_pp with Some i => set_data ex_w1 i [] | None => ex_w1 end.
Example C105_example :
  runs calm ex_create ex_w0 (Ok ex_pp) ex_w1 /\ wf ex_w0 /\ power_loss ex_w0 ex_w1 lost_world /\
  contents ex_w1 ex_pp = Some ex_data /\ contents lost_world ex_pp = Some [] /\ contents lost_world ex_ip = Some ex_index /\
  fst (has_object (mk_env (Some (dir_at ex_base 1 ex_w1)) (fun l => l)) ex_s1 packed_init) = Ok true /\
  fst (has_object (mk_env (Some (dir_at ex_base 1 lost_world)) (fun l => l)) ex_s1 packed_init) = Raise ValueError /\
  (let s3 := snd (run_plan (windows calm) [] ex_create lost_world) in
   runs calm ex_create lost_world (Ok ex_pp) s3 /\ contents s3 ex_pp = Some ex_data) /\
  readable_dir (dir_at ex_base 1 ex_w0) /\ (forall n, ~ packs_in (dir_at ex_base 1 ex_w0) n).
Proof.
  split; [exact ex_runs|]. split; [apply wf_empty|]. split; [|split; [by_vm|split; [by_vm|split; [by_vm|split; [by_vm|split; [by_vm|split; [|split; [easy|]]]]]]]].
  - unfold lost_world. destruct (lookup ex_w1 ex_pp) as [i|]; [apply lose_file, Nat.le_0_l|apply lose_none].
  - cbv zeta. split; [apply plan_runs; [easy|by_vm|by_vm]|by_vm].
  - intros n ((c & H) & _). exact H.
Qed.
