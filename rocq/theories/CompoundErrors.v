(** Exceptions of members of a CompoundDB. *)
From Verif Require Import Py PyFacts FunModel FunSpec FunProofs MemModel CompoundModel.
Section Members.
  Context {M : Type}.
  Lemma first_raises (has : bytes -> M -> res bool * M) sha m x b : fst (has sha m) = Raise x ->
    forall a i, Forall (fun m => fst (has sha m) = Ok false) a -> fst (first_with has sha i (a ++ m :: b)) = Raise x.
  Proof.
    intros Hm. induction a as [|m' a IH]; intros i H; cbn [app first_with].
    - destruct (has sha m) as [r m']. cbn [fst] in Hm. now subst r.
    - inversion H as [|? ? H1 H2]; subst. destruct (has sha m') as [r m'']. cbn [fst] in H1. subst r. specialize (IH (S i) H2). now destruct (first_with has sha (S i) (a ++ m :: b)).
  Qed.
  Lemma each_raises {A} (f : M -> res A * M) m x b : fst (f m) = Raise x ->
    forall a, Forall (fun m => exists v, fst (f m) = Ok v) a -> fst (each f (a ++ m :: b)) = Raise x.
  Proof.
    intros Hm. induction a as [|m' a IH]; intros H; cbn [app each].
    - destruct (f m) as [r m']. cbn [fst] in Hm. now subst r.
    - inversion H as [|? ? (v & H1) H2]; subst. destruct (f m') as [r m'']. cbn [fst] in H1. subst r. specialize (IH H2). destruct (each f (a ++ m :: b)) as [r l]. cbn [fst] in *. now subst r.
  Qed.
  Lemma query_raises (has : bytes -> M -> res bool * M) {A} (f : bytes -> M -> res A * M) sha (c : compound M) a m b x :
    c_dbs c = a ++ m :: b -> ~ In sha (map fst (c_cache c)) -> Forall (fun m => fst (has sha m) = Ok false) a -> fst (has sha m) = Raise x ->
    (x <> BadObject -> fst (c_has has sha c) = Raise x) /\ fst (c_ask has f sha c) = Raise x.
  Proof.
    intros Hc Hn Ha Hm. assert (H : fst (db_query has sha c) = Raise x).
    { unfold db_query. assert (dict_get sha (c_cache c) = None) as ->.
      { clear - Hn. induction (c_cache c) as [|[k v] l IH]; [easy|]. cbn [dict_get]. cbn [map fst In] in Hn. destruct (beq k sha) eqn:E; [apply beq_eq in E; tauto|]. apply IH. tauto. }
      rewrite Hc. pose proof (first_raises has sha m x b Hm a 0 Ha) as H. destruct (first_with has sha 0 (a ++ m :: b)) as [r l]. cbn [fst] in H. now subst r. }
    unfold c_has, c_ask. destruct (db_query has sha c) as [r c']. cbn [fst] in H. subst r. split; [|easy]. intros Hx. now destruct x.
  Qed.
  Lemma all_raises {A B} (f : M -> res A * M) (g : list A -> B) (c : compound M) a m b x :
    c_dbs c = a ++ m :: b -> Forall (fun m => exists v, fst (f m) = Ok v) a -> fst (f m) = Raise x -> fst (on_each f g c) = Raise x.
  Proof.
    intros Hc Ha Hm. unfold on_each. rewrite Hc. pose proof (each_raises f m x b Hm a Ha) as H. destruct (each f (a ++ m :: b)) as [r l]. cbn [fst] in *. now subst r.
  Qed.
End Members.
