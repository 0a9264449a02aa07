(** A GitDB first used in a directory without packs and alternates. *)
From Verif Require Import Py PyFacts FunModel FunSpec IndexModel IndexSpec ZlibModel ReaderModel PackModel PackSpec MemModel PackDbModel PackDbSpec PackDbProofs
  MemProofs CompoundModel CompoundSpec CompoundProofs GitModel GitSpec.

Section Bare.
  Context (r : list Z) (sha : bytes).
  Definition alone (d : db) : Prop :=
    exists known cache, d = Git r (Some (mk_compound [Loose r known] cache)) /\ mem sha known = false /\ dict_get sha cache = None.
  Lemma not_loose F : ~ is_loose_in F r sha -> mem sha (loose_names F r) = false.
  Proof.
    intros H. apply mem_out. unfold loose_names. destruct (f_repo F r) as [R|] eqn:E; [|easy]. intros Hi. apply in_map_iff in Hi as ([s c] & Es & Hi). cbn in Es. subst s.
    apply H. now exists R, c.
  Qed.
  Lemma loose_file F s : mem s (loose_names F r) = false -> loose_map F r s = Raise BadObject.
  Proof.
    intros H. apply mem_out in H. unfold loose_names in H. unfold loose_map. destruct (f_repo F r) as [R|]; [|easy].
    assert (file_named s (r_loose R) = Raise FileNotFound) as ->; [|easy]. induction (r_loose R) as [|[m c] l IH]; [easy|]. cbn [file_named map fst] in *.
    destruct (beq m s) eqn:E; [apply beq_eq in E as ->; exfalso; apply H; now left|]. apply IH. intros Hi. apply H. now right.
  Qed.

  (** One call: what is answered about sha and in general, and that nothing is learnt about it. *)
  Lemma alone_query F s known cache fuel : ~ is_loose_in F r sha -> mem sha known = false -> dict_get sha cache = None ->
    exists x known' cache', db_query (db_has F fuel) s (mk_compound [Loose r known] cache) = (x, mk_compound [Loose r known'] cache') /\
      mem sha known' = false /\ dict_get sha cache' = None /\ (s = sha -> x = Raise BadObject).
  Proof.
    intros Hf Hk Hc. unfold db_query. cbn [c_cache c_dbs]. destruct (dict_get s cache) as [i|] eqn:Eg.
    - exists (Ok i), known, cache. split; [easy|]. split; [easy|]. split; [easy|]. intros ->. congruence.
    - cbn [first_with]. pose proof (not_loose F Hf) as Hn. assert (Hh : db_has F fuel s (Loose r known) = let (b, k) := loose_has F r s known in (Ok b, Loose r k)) by (now destruct fuel).
      rewrite Hh. unfold loose_has. destruct (mem s known) eqn:E1.
      + assert (Hne : s <> sha) by (intros ->; congruence). eexists _, known, _. split; [reflexivity|]. split; [easy|]. split; [|easy].
        rewrite dict_get_set. destruct (beq s sha) eqn:E; [apply beq_eq in E; congruence|easy].
      + destruct (mem s (loose_names F r)) eqn:E2.
        * assert (Hne : s <> sha) by (intros ->; congruence). eexists _, (s :: known), _. split; [reflexivity|]. split; [|split; [|easy]].
          -- apply mem_out. apply mem_out in Hk. intros [E|E]; [congruence|easy].
          -- rewrite dict_get_set. destruct (beq s sha) eqn:E; [apply beq_eq in E; congruence|easy].
        * eexists _, known, cache. split; [reflexivity|]. split; [easy|]. split; [easy|]. easy.
  Qed.
  Lemma alone_call F K fuel o d : ~ is_loose_in F r sha -> alone d -> alone (snd (g_do F K (S fuel) o d)) /\
    match o with
    | GHas s => s = sha -> fst (g_do F K (S fuel) o d) = HHas (Ok false)
    | GInfo s => s = sha -> fst (g_do F K (S fuel) o d) = HInfo (Raise BadObject)
    | GIter => fst (g_do F K (S fuel) o d) = HIter (Ok (loose_names F r))
    | GSize => fst (g_do F K (S fuel) o d) = HSize (Ok (len (loose_names F r)))
    | GUpdate _ => fst (g_do F K (S fuel) o d) = HUpdate (Ok false)
    end.
  Proof.
    intros Hf (known & cache & -> & Hk & Hc). destruct o as [s|s| | |force]; cbn [g_do].
    - destruct (alone_query F s known cache fuel Hf Hk Hc) as (x & known' & cache' & Eq & Hk' & Hc' & Hx).
      cbn [db_has with_dbs]. unfold in_git, c_has. rewrite Eq. split.
      + exists known', cache'. destruct x as [i|e|]; [|destruct e|]; easy.
      + intros ->. now rewrite (Hx eq_refl).
    - destruct (alone_query F s known cache fuel Hf Hk Hc) as (x & known' & cache' & Eq & Hk' & Hc' & Hx).
      cbn [db_info with_dbs]. unfold in_git, c_ask. rewrite Eq. split.
      + exists known', cache'. destruct x as [i|e|]; [|easy|easy]. cbn [c_dbs c_cache]. destruct i as [|[|i]]; cbn [at_place]; [|easy|easy].
        assert (exists y, db_info K F fuel s (Loose r known') = (y, Loose r known')) as (y & ->) by (destruct fuel; now eexists). easy.
      + intros ->. now rewrite (Hx eq_refl).
    - cbn [db_iter with_dbs]. unfold in_git, c_iter, on_each. cbn [c_dbs each c_cache].
      assert (db_iter F fuel (Loose r known) = (Ok (loose_names F r), Loose r known)) as -> by (now destruct fuel). cbn [bind fst snd concat]. rewrite app_nil_r.
      split; [now exists known, cache|easy].
    - cbn [db_size with_dbs]. unfold in_git, c_size, on_each. cbn [c_dbs each c_cache].
      assert (db_size F fuel (Loose r known) = (Ok (len (loose_names F r)), Loose r known)) as -> by (now destruct fuel). cbn [bind fst snd fold_left].
      split; [now exists known, cache|easy].
    - cbn [db_update with_dbs]. unfold in_git, c_update, on_each. cbn [c_dbs each c_cache].
      assert (db_update F fuel force (Loose r known) = (Ok false, Loose r known)) as -> by (now destruct fuel). cbn [bind fst snd].
      split; [now exists known, []|easy].
  Qed.
  Lemma bare_alone d : begun_bare r sha d -> alone d.
  Proof.
    induction 1 as [F K fuel o R HR Hr Hp Ha Hf|F K fuel o d Hf _ IH].
    - assert (E : g_do F K (S fuel) o (gitdb r) = g_do F K (S fuel) o (Git r (Some (mk_compound [Loose r []] [])))).
      { assert (Hg : git_load F r = (Ok tt, [Loose r []])).
        { unfold git_load, git_members. rewrite HR, Hp, Ha. cbn [app]. destruct r; [easy|]. reflexivity. }
        unfold gitdb. destruct o; cbn [g_do db_has db_info db_iter db_size db_update with_dbs]; now rewrite Hg. }
      rewrite E. apply alone_call; [exact Hf|]. exists [], []. easy.
    - now apply alone_call.
  Qed.
  Lemma bare_answers d F K fuel : begun_bare r sha d -> ~ is_loose_in F r sha ->
    fst (g_do F K (S fuel) (GHas sha) d) = HHas (Ok false) /\ fst (g_do F K (S fuel) (GInfo sha) d) = HInfo (Raise BadObject) /\
    fst (g_do F K (S fuel) GIter d) = HIter (Ok (loose_names F r)) /\ forall force, fst (g_do F K (S fuel) (GUpdate force) d) = HUpdate (Ok false).
  Proof.
    intros Hd Hf. apply bare_alone in Hd. split; [now apply (alone_call F K fuel (GHas sha) d Hf Hd)|]. split; [now apply (alone_call F K fuel (GInfo sha) d Hf Hd)|].
    split; [now apply (alone_call F K fuel GIter d Hf Hd)|]. intros force. now apply (alone_call F K fuel (GUpdate force) d Hf Hd).
  Qed.
End Bare.
