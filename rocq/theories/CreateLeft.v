(** What a creation of a pack that fails leaves in the directory. *)
From Coq Require Import ZifyBool ZifyNat.
From Verif Require Import Py PyFacts FunModel FunSpec IndexModel ZlibModel ReaderModel PackModel OsModel OsProofs PackDbModel PackDbSpec LooseProofs LooseTop LockTop CreateModel CreateSpec CreateProofs.
Ltac Zify.zify_post_hook ::= Z.div_mod_to_equations.

Lemma leftovers K sha1 pagesize R oread fuel O base (j : job R) s0 s r e :
  may_fail O KShort = false -> may_fail O KCreate = false -> wf s0 -> is_dir s0 base = true ->
  write_pack K sha1 pagesize oread fuel (j_level j) (j_objs j) (j_count j) = Raise e ->
  runs O (create_pack K sha1 pagesize oread fuel base (j_level j) (j_objs j) (j_count j)) s0 r s ->
  (exists e', r = Raise e' /\ (e' = e \/ e' = OSError)) /\ exists t1 t2, t1 <> t2 /\ scratch base t1 /\ scratch base t2 /\
    contents s0 t1 = None /\ contents s0 t2 = None /\ contents s t1 <> None /\ contents s t2 <> None.
Proof.
  intros Hsh Hcr Hw Hb He H. unfold create_pack in H.
  apply runs_bind in H as (r1 & s1 & H1 & H). apply runs_sysr in H1. cbn [sys] in H1. rewrite Hb in H1.
  destruct H1 as [(E & _)|(suf1 & Hsuf1 & Hex1 & -> & ->)]; [unfold fails in E; congruence|]. set (t1 := base ++ [str_pack ++ suf1]) in *. set (f1 := w_next s0) in *.
  apply runs_bind in H as (r2 & s2 & H2 & H). apply runs_sysr in H2. cbn [sys] in H2.
  replace (is_dir (OsModel.create s0 t1) base) with true in H2 by (symmetry; exact Hb).
  destruct H2 as [(E & _)|(suf2 & Hsuf2 & Hex2 & -> & ->)]; [unfold fails in E; congruence|]. set (t2 := base ++ [str_index ++ suf2]) in *. set (s1 := OsModel.create s0 t1) in *. set (f2 := w_next s1) in *.
  assert (Hl1 : lookup s1 t1 = Some f1) by (unfold s1; rewrite lookup_create; now destruct (path_eq_dec t1 t1)).
  assert (Hw1 : wf s1) by now apply wf_create.
  assert (Hne : t1 <> t2).
  { intros E. apply orb_false_elim in Hex2 as [Hex2 _]. apply is_file_lookup in Hex2. rewrite <- E in Hex2. congruence. }
  assert (Hf : f1 <> f2) by (apply (wf_next _ Hw1) in Hl1; unfold f2; lia).
  assert (Hst : st t1 f1 t2 f2 (OsModel.create s1 t2) [] []).
  { unfold st. rewrite !lookup_create, !data_create. destruct (path_eq_dec t1 t2); [easy|]. destruct (path_eq_dec t2 t2); [|easy].
    fold f2. rewrite Nat.eqb_refl. replace (Nat.eqb f1 f2) with false by lia. unfold s1. rewrite data_create. fold f1. rewrite Nat.eqb_refl. easy. }
  assert (Hn1 : contents s0 t1 = None).
  { apply orb_false_elim in Hex1 as [Hex1 _]. apply is_file_lookup in Hex1. unfold contents. now rewrite Hex1. }
  assert (Hn2 : contents s0 t2 = None).
  { apply orb_false_elim in Hex2 as [Hex2 _]. apply is_file_lookup in Hex2. unfold s1 in Hex2. rewrite lookup_create in Hex2.
    destruct (path_eq_dec t2 t1); [congruence|]. unfold contents. now rewrite Hex2. }
  apply runs_bind in H as (r3 & s3 & H3 & H).
  pose proof (wp_pack K sha1 pagesize oread fuel O Hsh base false j t1 f1 t2 f2 Hf fuel _ Hst) as Hp.
  destruct (wp_steps O (others false) (guar K sha1 pagesize oread fuel base j) (others_refl false) _ _ _ _ _ H3 _ Hp (fun _ _ => True)) as (g & Hq & _); [easy|easy|].
  cbn [wp] in Hq. destruct Hq as [-> Hq]. unfold pure in Hq.
  destruct r3 as [[psha isha]|e'|].
  - destruct Hq as (pack & idx & Hq & _). congruence.
  - destruct H as [-> ->]. destruct Hq as [Hq (d1 & d2 & [[A B] [C D]])]. split.
    { exists e'. split; [reflexivity|]. destruct Hq as [Hq|[-> _]]; [left; congruence|now right]. }
    exists t1, t2. split; [exact Hne|]. split; [exists str_pack, suf1; split; [now left|easy]|]. split; [exists str_index, suf2; split; [now right|easy]|].
    split; [exact Hn1|]. split; [exact Hn2|]. unfold contents. rewrite A, C. now split.
  - congruence.
Qed.
