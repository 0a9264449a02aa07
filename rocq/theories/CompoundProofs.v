(** Proofs about CompoundModel. *)
From Coq Require Import ZifyBool ZifyNat.
From Verif Require Import Py PyFacts FunModel FunSpec FunProofs IndexSpec MemModel MemProofs CompoundModel CompoundSpec.
Ltac Zify.zify_post_hook ::= Z.div_mod_to_equations.

Lemma first_none K (P : K -> Prop) ks : (forall k, In k ks -> ~ P k) -> forall i k, ~ first P ks i k.
Proof. intros H i k (H1 & H2 & _). apply nth_error_In in H1. now apply (H k). Qed.
Lemma first_in K (P : K -> Prop) ks i k : first P ks i k -> In k ks /\ P k.
Proof. intros (H1 & H2 & _). split; [now apply nth_error_In in H1|easy]. Qed.
Lemma first_at K (P : K -> Prop) ks i k : first P ks i k -> nth_error ks i = Some k /\ P k.
Proof. now intros (H1 & H2 & _). Qed.
Lemma first_cons K (P : K -> Prop) ks i k k0 : ~ P k0 -> first P ks i k -> first P (k0 :: ks) (S i) k.
Proof. intros H0 (H1 & H2 & H3). split; [easy|]. split; [easy|]. intros [|j] k' Hj Hn; cbn in Hn; [now injection Hn as <-|]. apply (H3 j); [lia|easy]. Qed.

(** In what follows a member [m] goes with something [k] that does not change; [may] is
    the condition under which a call may not return. *)
Section Members.
  Context {M K : Type} (Rel : K -> M -> Prop).
  Section One.
    Context (has : bytes -> M -> res bool * M) (sha : bytes) (content : K -> Prop) (may : Prop).
    Definition answers (k : K) : Prop := forall m, Rel k m ->
      exists r m', has sha m = (r, m') /\ Rel k m' /\ (may /\ r = Diverge \/ exists b, r = Ok b /\ (b = true <-> content k)).

    Lemma first_with_ok ks l i : Forall2 Rel ks l -> (forall k, In k ks -> answers k) ->
      exists r l', first_with has sha i l = (r, l') /\ Forall2 Rel ks l' /\
        (may /\ r = Diverge \/ r = Ok None /\ (forall k, In k ks -> ~ content k) \/
         exists j k, r = Ok (Some (i + j)%nat) /\ first content ks j k).
    Proof.
      intros H. revert i. induction H as [|k m ks l Hk Hl IH]; intros i Ha; cbn [first_with].
      - exists (Ok None), []. split; [easy|]. split; [constructor|]. right. left. easy.
      - destruct (Ha k (or_introl eq_refl) m Hk) as (r & m' & -> & Hm' & [[H0 ->]|(b & -> & Hb)]).
        + exists Diverge, (m' :: l). split; [easy|]. split; [now constructor|]. now left.
        + destruct b.
          * exists (Ok (Some i)), (m' :: l). split; [easy|]. split; [now constructor|]. right. right. exists 0%nat, k.
            split; [now rewrite Nat.add_0_r|]. split; [easy|]. split; [now apply Hb|]. intros j k' Hj. lia.
          * destruct (IH (S i) (fun k' H' => Ha k' (or_intror H'))) as (r & l' & -> & Hl' & Hr).
            exists r, (m' :: l'). split; [easy|]. split; [now constructor|]. assert (Hn : ~ content k) by (intros Hc; apply Hb in Hc; discriminate).
            destruct Hr as [Hr|[[-> Hr]|(j & k' & -> & Hr)]]; [now left|right; left|right; right].
            -- split; [easy|]. intros k' [<- |Hk']; [easy|now apply Hr].
            -- exists (S j), k'. split; [do 2 f_equal; lia|]. now apply first_cons.
    Qed.

    (** The member found, and the cache.  [Q]: what is known about the place of the member. *)
    Context (Q : list K -> nat -> K -> Prop).
    Hypothesis HQ1 : forall ks i k, first content ks i k -> Q ks i k.
    Hypothesis HQ2 : forall ks i k, Q ks i k -> nth_error ks i = Some k /\ content k.
    Lemma q_in ks i k : Q ks i k -> In k ks /\ content k.
    Proof. intros H. apply HQ2 in H as [H1 H2]. split; [now apply nth_error_In in H1|easy]. Qed.
    Definition cached (ks : list K) (c : compound M) : Prop :=
      Forall2 Rel ks (c_dbs c) /\ forall i, dict_get sha (c_cache c) = Some i -> exists k, Q ks i k.
    Lemma db_query_ok ks c : cached ks c -> (forall k, In k ks -> answers k) ->
      exists r c', db_query has sha c = (r, c') /\ Forall2 Rel ks (c_dbs c') /\
        (c_cache c' = c_cache c \/ exists i k, c_cache c' = dict_set sha i (c_cache c) /\ Q ks i k) /\
        (may /\ r = Diverge \/ r = Raise BadObject /\ (forall k, In k ks -> ~ content k) \/
         exists i k, r = Ok i /\ Q ks i k).
    Proof.
      intros [Hl Hc] Ha. unfold db_query. destruct (dict_get sha (c_cache c)) as [i|].
      - destruct (Hc i eq_refl) as (k & Hk). exists (Ok i), c. split; [easy|]. split; [easy|]. split; [now left|]. right. right. now exists i, k.
      - destruct (first_with_ok ks (c_dbs c) 0 Hl Ha) as (r & l' & -> & Hl' & [[H0 ->]|[[-> Hr]|(j & k & -> & Hr)]]).
        + eexists _, _. split; [reflexivity|]. split; [easy|]. split; [now left|]. now left.
        + eexists _, _. split; [reflexivity|]. split; [easy|]. split; [now left|]. right. now left.
        + eexists _, _. split; [reflexivity|]. split; [easy|]. apply HQ1 in Hr. split; [right; now exists j, k|]. right. right. now exists j, k.
    Qed.
    Lemma c_has_ok ks c : cached ks c -> (forall k, In k ks -> answers k) ->
      exists r c', c_has has sha c = (r, c') /\ Forall2 Rel ks (c_dbs c') /\
        (c_cache c' = c_cache c \/ exists i k, c_cache c' = dict_set sha i (c_cache c) /\ Q ks i k) /\
        (may /\ r = Diverge \/ exists b, r = Ok b /\ (b = true <-> exists k, In k ks /\ content k)).
    Proof.
      intros H Ha. unfold c_has. destruct (db_query_ok ks c H Ha) as (r & c' & -> & Hl & Hc & [[H0 ->]|[[-> Hr]|(i & k & -> & Hr)]]);
        eexists _, c'; (split; [reflexivity|]; split; [easy|]; split; [easy|]).
      - now left.
      - right. exists false. split; [easy|]. split; [easy|]. intros (k & H1 & H2). now apply Hr in H2.
      - right. exists true. split; [easy|]. split; [|easy]. intros _. exists k. now apply (q_in ks i).
    Qed.

    Lemma at_place_ok {A} (f : M -> res A * M) (says : res A -> Prop) ks l i k : Forall2 Rel ks l -> nth_error ks i = Some k ->
      (forall m, Rel k m -> exists r m', f m = (r, m') /\ Rel k m' /\ says r) ->
      exists r l', at_place f i l = (r, l') /\ Forall2 Rel ks l' /\ says r.
    Proof.
      intros H. revert i. induction H as [|k0 m ks l Hk Hl IH]; intros [|i] Hi Hf; try discriminate; cbn [at_place].
      - injection Hi as ->. destruct (Hf m Hk) as (r & m' & -> & Hm & Hr). exists r, (m' :: l). split; [easy|]. split; [now constructor|easy].
      - destruct (IH i Hi Hf) as (r & l' & -> & Hl' & Hr). exists r, (m :: l'). split; [easy|]. split; [now constructor|easy].
    Qed.
    Lemma c_ask_ok {A} (f : bytes -> M -> res A * M) (says : K -> res A -> Prop) ks c : cached ks c -> (forall k, In k ks -> answers k) ->
      (forall k m, In k ks -> content k -> Rel k m -> exists r m', f sha m = (r, m') /\ Rel k m' /\ says k r) ->
      exists r c', c_ask has f sha c = (r, c') /\ Forall2 Rel ks (c_dbs c') /\
        (c_cache c' = c_cache c \/ exists i k, c_cache c' = dict_set sha i (c_cache c) /\ Q ks i k) /\
        (may /\ r = Diverge \/ r = Raise BadObject /\ (forall k, In k ks -> ~ content k) \/
         exists i k, Q ks i k /\ says k r).
    Proof.
      intros H Ha Hf. unfold c_ask. destruct (db_query_ok ks c H Ha) as (r & c' & -> & Hl & Hc & [[H0 ->]|[[-> Hr]|(i & k & -> & Hr)]]).
      - eexists _, c'. split; [reflexivity|]. split; [easy|]. split; [easy|]. now left.
      - eexists _, c'. split; [reflexivity|]. split; [easy|]. split; [easy|]. right. now left.
      - destruct (q_in _ _ _ Hr) as [Hk1 Hk2].
        destruct (at_place_ok (f sha) (says k) ks (c_dbs c') i k Hl (proj1 (HQ2 _ _ _ Hr))) as (r & l' & -> & Hl' & Hs); [intros m Hm; now apply Hf|].
        eexists _, _. split; [reflexivity|]. split; [easy|]. split; [easy|]. right. right. now exists i, k.
    Qed.
  End One.

  Lemma each_ok {A} (f : M -> res A * M) (P : K -> A -> Prop) (may : Prop) ks l : Forall2 Rel ks l ->
    (forall k m, In k ks -> Rel k m -> exists r m', f m = (r, m') /\ Rel k m' /\ (may /\ r = Diverge \/ exists a, r = Ok a /\ P k a)) ->
    exists r l', each f l = (r, l') /\ Forall2 Rel ks l' /\ (may /\ r = Diverge \/ exists t, r = Ok t /\ Forall2 P ks t).
  Proof.
    intros H. induction H as [|k m ks l Hk Hl IH]; intros Hf; cbn [each].
    - exists (Ok []), []. split; [easy|]. split; [constructor|]. right. exists []. split; [easy|constructor].
    - destruct (Hf k m (or_introl eq_refl) Hk) as (r & m' & -> & Hm & [[H0 ->]|(a & -> & Ha)]).
      + exists Diverge, (m' :: l). split; [easy|]. split; [now constructor|now left].
      + destruct IH as (r & l' & -> & Hl' & Hr); [intros; now apply Hf; [right|]|]. eexists _, (m' :: l'). split; [reflexivity|]. split; [now constructor|].
        destruct Hr as [[H0 ->]|(t & -> & Ht)]; [now left|right]. exists (a :: t). split; [easy|now constructor].
  Qed.
  Lemma on_each_ok {A B} (f : M -> res A * M) (g : list A -> B) (P : K -> A -> Prop) (may : Prop) ks c : Forall2 Rel ks (c_dbs c) ->
    (forall k m, In k ks -> Rel k m -> exists r m', f m = (r, m') /\ Rel k m' /\ (may /\ r = Diverge \/ exists a, r = Ok a /\ P k a)) ->
    exists r c', on_each f g c = (r, c') /\ Forall2 Rel ks (c_dbs c') /\ c_cache c' = c_cache c /\
      (may /\ r = Diverge \/ exists t, r = Ok (g t) /\ Forall2 P ks t).
  Proof.
    intros H Hf. unfold on_each. destruct (each_ok f P may ks (c_dbs c) H Hf) as (r & l & -> & Hl & Hr).
    eexists _, _. split; [reflexivity|]. split; [easy|]. split; [easy|]. destruct Hr as [[H0 ->]|(t & -> & Ht)]; [now left|right; now exists t].
  Qed.

  (** A member that never returns is reached if no other has the object. *)
  Lemma first_with_diverges (has : bytes -> M -> res bool * M) sha (content : K -> Prop) ks l i k : Forall2 Rel ks l ->
    (forall k, In k ks -> answers has sha content True k) -> (forall k, In k ks -> ~ content k) ->
    In k ks -> (forall m, Rel k m -> fst (has sha m) = Diverge) -> fst (first_with has sha i l) = Diverge.
  Proof.
    intros H. revert i. induction H as [|k0 m ks l Hk Hl IH]; intros i Ha Hc Hin Hd; [easy|]. cbn [first_with].
    destruct (Ha k0 (or_introl eq_refl) m Hk) as (r & m' & E & Hm' & [[_ ->]|(b & -> & Hb)]).
    - now rewrite E.
    - rewrite E. destruct b; [exfalso; apply (Hc k0 (or_introl eq_refl)); now apply Hb|].
      destruct Hin as [-> |Hin]; [pose proof (Hd m Hk) as Hx; rewrite E in Hx; discriminate|].
      specialize (IH (S i) (fun k' H' => Ha k' (or_intror H')) (fun k' H' => Hc k' (or_intror H')) Hin Hd).
      destruct (first_with has sha (S i) l) as [r l']. exact IH.
  Qed.
End Members.

(** ** C50 *)
Section Histories.
  Context {M A : Type} (f : methods M A) (R : contents A -> M -> Prop) (HR : faithful f R).
  Definition c_state (ds : list (contents A)) (c : compound M) : Prop :=
    Forall2 R ds (c_dbs c) /\ forall sha i, sha_ok sha -> dict_get sha (c_cache c) = Some i -> exists d, first (fun d => d_has d sha) ds i d.
  Lemma state_cached ds c sha : sha_ok sha -> c_state ds c -> cached R sha (first (fun d => d_has d sha)) ds c.
  Proof. intros Hs [H1 H2]. split; [easy|]. intros i. now apply H2. Qed.
  Lemma faithful_answers sha ds : sha_ok sha -> forall d, In d ds -> answers R (m_has f) sha (fun d => d_has d sha) False d.
  Proof.
    intros Hs d _ m Hm. destruct (HR d m Hm) as (H & _). destruct (H sha Hs) as (b & m' & E & Hb & Hm'). exists (Ok b), m'.
    split; [easy|]. split; [easy|]. right. now exists b.
  Qed.
  Lemma new_state ds c c' sha : sha_ok sha -> c_state ds c -> Forall2 R ds (c_dbs c') ->
    (c_cache c' = c_cache c \/ exists i k, c_cache c' = dict_set sha i (c_cache c) /\ first (fun d => d_has d sha) ds i k) -> c_state ds c'.
  Proof.
    intros Hs [_ Hc] Hl H. split; [easy|]. intros sha' i Hs' Hi. destruct H as [H|(j & k & H & Hk)]; rewrite H in Hi; [now apply Hc|].
    rewrite dict_get_set in Hi. destruct (beq sha sha') eqn:E; [|now apply Hc].
    apply beq_eq in E. subst sha'. injection Hi as <-. now exists k.
  Qed.
  Lemma c_do_ok ds c o : c_proper o -> c_state ds c -> exists a c', c_do f o c = (a, c') /\ c_right ds o a /\ c_state ds c'.
  Proof.
    intros Ho Hc. destruct o as [sha|sha| | |force]; cbn [c_do c_proper] in *.
    - destruct (c_has_ok R (m_has f) sha (fun d => d_has d sha) False (first (fun d => d_has d sha)) (fun _ _ _ H => H) (first_at _ (fun d => d_has d sha)) ds c (state_cached ds c sha Ho Hc) (faithful_answers sha ds Ho)) as (r & c' & -> & Hl & Hcc & Hr).
      eexists _, c'. split; [reflexivity|]. split; [|now apply (new_state ds c c' sha)]. intros _. destruct Hr as [[[] _]|(b & -> & Hb)]. now exists b.
    - destruct (c_ask_ok R (m_has f) sha (fun d => d_has d sha) False (first (fun d => d_has d sha)) (fun _ _ _ H => H) (first_at _ (fun d => d_has d sha)) (m_ask f) (fun d r => d_says d sha r) ds c (state_cached ds c sha Ho Hc) (faithful_answers sha ds Ho)) as (r & c' & -> & Hl & Hcc & Hr).
      { intros d m _ _ Hm. destruct (HR d m Hm) as (_ & H & _). destruct (H sha Ho) as (r & m' & E & H1 & H2). now exists r, m'. }
      eexists _, c'. split; [reflexivity|]. split; [|now apply (new_state ds c c' sha)]. intros _. destruct Hr as [[[] _]|[[-> Hr]|(i & k & H1 & H2)]]; [now right|left; now exists i, k].
    - unfold c_size. destruct (on_each_ok R (m_size f) (fun l => fold_left Z.add l 0) d_size False ds c (proj1 Hc)) as (r & c' & -> & Hl & Hcc & Hr).
      { intros d m _ Hm. destruct (HR d m Hm) as (_ & _ & (n & m' & E & H1 & H2) & _). exists (Ok n), m'. split; [easy|]. split; [easy|]. right. now exists n. }
      eexists _, c'. split; [reflexivity|]. split; [|split; [easy|rewrite Hcc; apply Hc]].
      destruct Hr as [[[] _]|(t & -> & Ht)]. exists t. split; [easy|]. cbn [ctag fst]. f_equal. now rewrite fold_symmetric by (intros; lia).
    - unfold c_iter. destruct (on_each_ok R (m_iter f) (@concat bytes) d_names False ds c (proj1 Hc)) as (r & c' & -> & Hl & Hcc & Hr).
      { intros d m _ Hm. destruct (HR d m Hm) as (_ & _ & _ & (n & m' & E & H1 & H2) & _). exists (Ok n), m'. split; [easy|]. split; [easy|]. right. now exists n. }
      eexists _, c'. split; [reflexivity|]. split; [|split; [easy|rewrite Hcc; apply Hc]].
      destruct Hr as [[[] _]|(t & -> & Ht)]. now exists t.
    - unfold c_update. destruct (on_each_ok R (m_update f force) (fun l => existsb (fun b => b) l) (fun _ _ => True) False ds (mk_compound (c_dbs c) []) (proj1 Hc)) as (r & c' & -> & Hl & Hcc & Hr).
      { intros d m _ Hm. destruct (HR d m Hm) as (_ & _ & _ & _ & H). destruct (H force) as (n & m' & E & H2). exists (Ok n), m'. split; [easy|]. split; [easy|]. right. now exists n. }
      eexists _, c'. split; [reflexivity|]. split; [|split; [easy|now rewrite Hcc]].
      destruct Hr as [[[] _]|(t & -> & Ht)]. cbn [c_right ctag fst]. now eexists.
  Qed.
  Lemma c_run_ok ds ops c : Forall c_proper ops -> c_state ds c ->
    exists l c', c_run f ops c = (l, c') /\ Forall2 (c_right ds) ops l /\ c_state ds c'.
  Proof.
    intros H. revert c. induction H as [|o ops Ho _ IH]; intros c Hc; cbn [c_run].
    - exists [], c. split; [easy|]. split; [constructor|easy].
    - destruct (c_do_ok ds c o Ho Hc) as (a & c1 & -> & Ha & H1). destruct (IH c1 H1) as (l & c2 & -> & Hl & H2).
      exists (a :: l), c2. split; [easy|]. split; [now constructor|easy].
  Qed.

  (** ** C51: the cache is not asked to check *)
  Lemma first_unique K (P : K -> Prop) ks i j k k' : first P ks i k -> first P ks j k' -> i = j.
  Proof.
    intros (H1 & H2 & H3) (H4 & H5 & H6). destruct (Nat.lt_trichotomy i j) as [H|[H|H]]; [|exact H|]; exfalso.
    - now apply (H6 i k).
    - now apply (H3 j k').
  Qed.
  Lemma c_run_app ops1 ops2 c : c_run f (ops1 ++ ops2) c = (fst (c_run f ops1 c) ++ fst (c_run f ops2 (snd (c_run f ops1 c))), snd (c_run f ops2 (snd (c_run f ops1 c)))).
  Proof.
    revert c. induction ops1 as [|o ops1 IH]; intros c; cbn [app c_run]; [apply surjective_pairing|].
    destruct (c_do f o c) as [a c1]. rewrite IH. destruct (c_run f ops1 c1) as [l c2]. cbn [fst snd]. reflexivity.
  Qed.
  Lemma at_place_fst B (g : M -> res B * M) ms i m : nth_error ms i = Some m -> fst (at_place g i ms) = fst (g m).
  Proof.
    revert i. induction ms as [|m0 ms IH]; intros [|i] H; cbn [nth_error] in H; try discriminate; cbn [at_place].
    - injection H as ->. now destruct (g m).
    - specialize (IH i H). destruct (at_place g i ms). exact IH.
  Qed.
  Lemma stale ds ms ops sha i D : Forall2 R ds ms -> Forall c_proper ops -> sha_ok sha -> first (fun d => d_has d sha) ds i D ->
    forall (f' : methods M A) ms' m' x, nth_error ms' i = Some m' -> fst (m_ask f' sha m') = Raise x ->
    fst (c_run f' [CHas sha; CAsk sha] (mk_compound ms' (c_cache (snd (c_run f (ops ++ [CHas sha]) (mk_compound ms [])))))) = [KHas (Ok true); KAsk (Raise x)].
  Proof.
    intros Hm Hops Hs Hi f' ms' m' x Hn Hx.
    assert (H0 : c_state ds (mk_compound ms [])) by (split; [exact Hm|]; intros sha' i' _ H; discriminate).
    destruct (c_run_ok ds ops _ Hops H0) as (l & c & E & _ & Hc). rewrite c_run_app, E. cbn [fst snd].
    assert (Hg : dict_get sha (c_cache (snd (c_run f [CHas sha] c))) = Some i).
    { cbn [c_run c_do]. unfold ctag, c_has, db_query. destruct Hc as [Hc1 Hc2]. destruct (dict_get sha (c_cache c)) as [j|] eqn:Eg.
      - cbn [fst snd]. rewrite Eg. destruct (Hc2 sha j Hs Eg) as (d & Hd). f_equal. exact (first_unique _ (fun d => d_has d sha) ds j i d D Hd Hi).
      - destruct (first_with_ok R (m_has f) sha (fun d => d_has d sha) False ds (c_dbs c) 0 Hc1 (faithful_answers sha ds Hs)) as (r & l' & -> & _ & [[[] _]|[[-> Hno]|(j & d & -> & Hd)]]).
        + exfalso. destruct (first_in _ _ _ _ _ Hi) as [H1 H2]. now apply (Hno D).
        + cbn [fst snd c_cache]. rewrite dict_get_set, beq_refl. f_equal. exact (first_unique _ (fun d => d_has d sha) ds j i d D Hd Hi). }
    revert Hg. generalize (c_cache (snd (c_run f [CHas sha] c))). intros cache Hg.
    cbn [c_run c_do]. unfold ctag, c_has, c_ask, db_query. cbn [c_cache]. rewrite Hg. cbn [fst snd c_cache c_dbs]. rewrite Hg. cbn [c_dbs].
    pose proof (at_place_fst _ (m_ask f' sha) ms' i m' Hn) as E1. rewrite Hx in E1. destruct (at_place (m_ask f' sha) i ms') as [r l']. cbn [fst snd] in *. now rewrite E1.
  Qed.
End Histories.

(** ** C52 *)
Section TreeInd.
  Context {M : Type} (P : tree M -> Prop) (Hleaf : forall m, P (Leaf m)) (Hnode : forall l, Forall P l -> P (Node l)).
  Fixpoint tree_ind' (t : tree M) : P t :=
    match t with
    | Leaf m => Hleaf m
    | Node l => Hnode l ((fix go (l : list (tree M)) : Forall P l := match l with [] => Forall_nil P | t :: l' => Forall_cons t (tree_ind' t) (go l') end) l)
    end.
End TreeInd.
Lemma databases_in {M} (m : M) t : In m (databases_recursive t) <-> below m t.
Proof.
  induction t as [m'|l IH] using tree_ind'; cbn [databases_recursive].
  - split; [intros [-> |[]]; constructor|]. intros H. inversion H. now left.
  - rewrite in_app_iff, in_flat_map.
    assert (Hb : In m ((fix below (l : list (tree M)) : list M := match l with [] => [] | t :: l' => (if is_node t then databases_recursive t else []) ++ below l' end) l) <->
                 exists t, In t l /\ is_node t = true /\ below m t).
    { induction IH as [|t l Ht _ IHl]; [split; [easy|]; now intros (t & [] & _)|]. cbv beta. rewrite in_app_iff, IHl. clear IHl. split.
      - intros [H|(t' & H1 & H2)]; [|exists t'; split; [now right|easy]]. destruct (is_node t) eqn:E; [|easy]. exists t. split; [now left|]. split; [easy|now apply Ht].
      - intros (t' & [-> |H1] & H2 & H3); [left; rewrite H2; now apply Ht|right; now exists t']. }
    rewrite Hb. split.
    + intros [(t & H1 & H2)|(t & H1 & _ & H2)]; [|now apply (below_node m t)]. destruct t as [m'|]; [|easy]. destruct H2 as [-> |[]]. apply (below_node m (Leaf m)); [easy|constructor].
    + intros H. inversion H as [|t l0 H1 H2]; subst. destruct t as [m'|l']; [left|right; now exists (Node l')]. exists (Leaf m'). split; [easy|]. inversion H2. now left.
Qed.

Lemma says_complete digits padded m r : member_says digits padded m r -> complete digits padded m = r.
Proof. unfold member_says, complete. destruct m as [[f|] [g|]]; cbn [by_hex by_bin]; intros H; now subst. Qed.

Lemma loop_ok digits padded l cand : (forall m, In m l -> exists r, member_says digits padded m r /\ good_answer r) ->
  match complete_loop digits padded l cand with
  | Ok s => s <> [] /\ (cand = s \/ exists m, In m l /\ member_says digits padded m (Ok s)) /\
            (forall m r, In m l -> member_says digits padded m r -> r = Ok s \/ r = Raise BadObject) /\ (cand = [] \/ cand = s)
  | Raise AmbiguousObjectName => (exists m, In m l /\ member_says digits padded m (Raise AmbiguousObjectName)) \/
      (exists m s, In m l /\ member_says digits padded m (Ok s) /\ cand <> [] /\ cand <> s) \/
      exists m m' s s', In m l /\ In m' l /\ member_says digits padded m (Ok s) /\ member_says digits padded m' (Ok s') /\ s <> s'
  | Raise BadObject => cand = [] /\ forall m r, In m l -> member_says digits padded m r -> r = Raise BadObject
  | _ => False
  end.
Proof.
  revert cand. induction l as [|m l IH]; intros cand H; cbn [complete_loop].
  - destruct cand as [|b cand]; [easy|]. split; [easy|]. split; [now left|]. split; [easy|now right].
  - destruct (H m (or_introl eq_refl)) as (r & Hr & Hg). rewrite (says_complete _ _ _ _ Hr).
    assert (Hl : forall m, In m l -> exists r, member_says digits padded m r /\ good_answer r) by (intros m' Hm'; apply H; now right).
    assert (Hu : forall r', member_says digits padded m r' -> r' = r) by (intros r' Hr'; apply says_complete in Hr', Hr; congruence).
    destruct Hg as [-> |[-> |(s & Hs & ->)]].
    + specialize (IH cand Hl). destruct (complete_loop digits padded l cand) as [s0|x|]; [|destruct x; try easy|easy].
      * destruct IH as (H0 & H1 & H2 & H3). split; [easy|]. split; [destruct H1 as [H1|(m' & H1)]; [now left|right; exists m'; split; [now right|easy]]|].
        split; [|easy]. intros m' r [<- |Hm'] Hr'; [right; now apply Hu|now apply (H2 m')].
      * destruct IH as [H0 H1]. split; [easy|]. intros m' r [<- |Hm'] Hr'; [now apply Hu|now apply (H1 m')].
      * destruct IH as [(m' & H1 & H2)|[(m' & s & H1 & H2)|(m' & m2 & s & s2 & H1 & H2 & H3)]];
          [left; exists m'; split; [now right|easy]|right; left; exists m', s; split; [now right|easy]|right; right; exists m', m2, s, s2; split; [now right|split; [now right|easy]]].
    + left. exists m. split; [now left|easy].
    + destruct s as [|b s0]; [easy|]. remember (b :: s0) as s eqn:Es.
      destruct (negb (len cand =? 0) && negb (beq cand s)) eqn:E.
      * right. left. exists m, s. split; [now left|]. split; [easy|]. apply andb_true_iff in E as [E1 E2]. split; [intros ->; now cbn in E1|].
        apply negb_true_iff, beq_neq in E2. exact E2.
      * assert (Hcs : cand = [] \/ cand = s).
        { apply andb_false_iff in E as [E|E]; apply negb_false_iff in E; [left; destruct cand; [easy|unfold len in E; cbn [length] in E; lia]|right; now apply beq_eq]. }
        specialize (IH s Hl). destruct (complete_loop digits padded l s) as [s1|x|]; [|destruct x; try easy|easy].
        -- destruct IH as (H0 & H1 & H2 & H3). destruct H3 as [H3|H3]; [congruence|]. subst s1. split; [easy|]. split; [right; exists m; split; [now left|easy]|].
           split; [|easy]. intros m' r [<- |Hm'] Hr'; [left; now apply Hu|now apply (H2 m')].
        -- destruct IH as [(m' & H1 & H2)|[(m' & s1 & H1 & H2 & H3 & H4)|(m' & m2 & s1 & s2 & H1 & H2 & H3)]];
             [left; exists m'; split; [now right|easy]| |right; right; exists m', m2, s1, s2; split; [now right|split; [now right|easy]]].
           right. right. exists m, m', s, s1. split; [now left|]. split; [now right|easy].
Qed.
Lemma partial_ok t digits padded : hex_to_bin (pad_even digits) = Ok padded ->
  (forall m, below m t -> exists r, member_says digits padded m r /\ good_answer r) ->
  match c_partial t digits with
  | Ok s => s <> [] /\ (exists m, below m t /\ member_says digits padded m (Ok s)) /\
            (forall m r, below m t -> member_says digits padded m r -> r = Ok s \/ r = Raise BadObject)
  | Raise AmbiguousObjectName => (exists m, below m t /\ member_says digits padded m (Raise AmbiguousObjectName)) \/
      exists m m' s s', below m t /\ below m' t /\ member_says digits padded m (Ok s) /\ member_says digits padded m' (Ok s') /\ s <> s'
  | Raise BadObject => forall m r, below m t -> member_says digits padded m r -> r = Raise BadObject
  | _ => False
  end.
Proof.
  intros Hb H. unfold c_partial. replace (if negb (len digits mod 2 =? 0) then _ else _) with (hex_to_bin (pad_even digits)).
  2: { unfold pad_even. rewrite Zmod_even. now destruct (Z.even (len digits)). }
  rewrite Hb. cbn [bind]. setoid_rewrite <- databases_in in H.
  pose proof (loop_ok digits padded (databases_recursive t) [] H) as Hl.
  destruct (complete_loop digits padded (databases_recursive t) []) as [s|x|]; [|destruct x; try easy|easy]; setoid_rewrite databases_in in Hl.
  - destruct Hl as (H0 & H1 & H2 & _). split; [easy|]. split; [|easy]. destruct H1 as [<- |H1]; [easy|exact H1].
  - apply Hl.
  - destruct Hl as [Hl|[(m & s & _ & _ & Hl & _)|Hl]]; [now left|easy|now right].
Qed.
