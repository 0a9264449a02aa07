(** Proofs about fewer than three digits, GitAbbrModel.v *)
From Coq Require Import ZifyBool ZifyNat Permutation Relations.
From Verif Require Import Py PyFacts FunModel FunSpec IndexModel IndexSpec ZlibModel ReaderModel PackModel PackSpec OsModel LooseModel LooseQuery PackDbModel PackDbSpec PackDbProofs PackDbTop
  MemModel MemProofs CompoundModel CompoundSpec CompoundProofs GitModel GitSpec GitProofs GitTop GitMain GitGrow GitRoots GitFinal GitAbbrModel GitAbbrSpec GitAbbrProofs.
Ltac Zify.zify_post_hook ::= Z.div_mod_to_equations.

(** One or two digits are one byte. *)
Lemma short_bin h : any_hex h -> 1 <= len h <= 2 ->
  exists b, (if negb (len h mod 2 =? 0) then hex_to_bin (h ++ [48]) else hex_to_bin h) = Ok [b].
Proof.
  intros Hd Hl. destruct (digits_bin h Hd) as (b & E & _).
  destruct h as [|x [|y [|z h]]]; [cbn in Hl; lia| | |unfold len in Hl; cbn [length] in Hl; lia].
  - change (negb (len [x] mod 2 =? 0)) with true in *. cbn [app hex_to_bin] in *. destruct (hex_val x) as [a|]; [|discriminate]. cbn in *. eexists. reflexivity.
  - change (negb (len [x; y] mod 2 =? 0)) with false in *. cbn [hex_to_bin] in *. destruct (hex_val x) as [a|], (hex_val y) as [c|]; try discriminate. eexists. reflexivity.
Qed.

Section Short.
  Context (F : fs) (U : list Z -> bytes -> option pack) (scope : list Z -> Prop).
  Hypothesis Horder : forall l, Permutation (f_order F l) l.
  Hypothesis Hscope : forall r, scope r -> proper_repo F U r.
  Context (digits : bytes) (b : Z).
  Lemma packed_short r R d n d0 c : f_repo F r = Some R -> r_pack R = Some d -> packs_in d n -> good F U scope (KPacked r) d0 ->
    is_compound d0 = false /\ exists d1, ask_member F digits [b] c d0 = (Raise ValueError, d1).
  Proof.
    intros HR Hp Hn Hg. inversion Hg as [r0 s v R0 dd Hr HR0 Hd Hrep Hv| | | | |]; subst. assert (R0 = R) by congruence. subst R0. assert (dd = d) by congruence. subst dd.
    split; [reflexivity|]. unfold ask_member, member_partial, in_packed, partial_to_complete_sha.
    destruct (load_ok (U r) (pack_env F r) (QPartial [b] (len digits)) v s (pack_proper F U scope Horder Hscope r R d v _ Hr HR Hd Hv) Hrep) as (d' & l & s' & P & -> & He & HP & Hl & [_ Hok] & Hth & _).
    pose proof (known_after F r R d v _ P HR Hd Hv HP n) as Hk. apply Hk in Hn. apply Hl in Hn. destruct l as [|it l]; [easy|]. cbn [partial_scan].
    inversion Hok as [|? ? Hit _]; subst. destruct (PackDbProofs.open_ok (U r) (pack_env F r) d' it He Hit (Hth it (or_introl eq_refl))) as (k & ix & it' & _ & _ & _ & -> & _).
    cbn [bind]. unfold partial_sha_to_index. change (len [b] <? 2) with true. cbn [bind fst weigh]. eexists. reflexivity.
  Qed.
  Lemma ask_short r R d n d0 fuel : f_repo F r = Some R -> r_pack R = Some d -> packs_in d n -> good F U scope (KGit r) d0 ->
    exists d1, db_ask F digits [b] (S fuel) [] d0 = (Raise ValueError, d1).
  Proof.
    intros HR Hp Hn Hg. assert (exists dbs, d0 = Git r dbs) as (dbs & ->) by (inversion Hg; subst; eexists; reflexivity).
    cbn [db_ask]. match goal with |- context [with_dbs _ _ ?f] => destruct (use_git F U scope r dbs f Hg) as (_ & c & -> & _ & [Hst _]) end.
    unfold on_members, ask_below. unfold kinds, git_members in Hst. rewrite HR, Hp in Hst. cbn [app map kind_of] in Hst.
    inversion Hst as [|k0 d2 ks l Hd2 _ E1 E2]; subst. destruct (packed_short r R d n d2 [] HR Hp Hn Hd2) as [Hc (d3 & E)].
    cbn [walk]. rewrite Hc, E. cbn [negb]. unfold in_git. eexists. reflexivity.
  Qed.
End Short.

Lemma short_always F U K r : proper_from F U r -> finite_acyclic F r ->
  exists N, forall fuel0 fuel ops digits R d n, (N <= fuel)%nat -> Forall a_proper ops -> any_hex digits -> 1 <= len digits <= 2 ->
  f_repo F r = Some R -> r_pack R = Some d -> packs_in d n ->
  fst (db_partial F fuel digits (snd (a_run F K fuel0 ops (gitdb r)))) = Raise ValueError.
Proof.
  intros H Hac. destruct (from_enough F U r H 0 Hac) as (N & HN). exists N. intros fuel0 fuel ops digits R d n Hf Hops Hd Hl HR Hp Hn.
  pose proof (a_good F U K r H fuel0 ops Hops) as Hg. specialize (HN fuel Hf). unfold db_partial.
  destruct (open_ok F U (reaches F r) (from_order F U r H) (from_scope F U r H) (from_closed F r) 0 fuel (KGit r) _ Hg) as (x & d1 & -> & H1 & [[Hx _]| ->]); [now elim Hx|].
  destruct (short_bin digits Hd Hl) as (b & ->). destruct fuel as [|fuel]; [inversion HN|].
  destruct (ask_short F U (reaches F r) (from_order F U r H) (from_scope F U r H) digits b r R d n d1 fuel HR Hp Hn H1) as (d2 & ->). reflexivity.
Qed.

(** ** Packs of the alternates *)
Definition has_pack (F : fs) (r : list Z) : Prop := exists R d n, f_repo F r = Some R /\ r_pack R = Some d /\ packs_in d n.
Definition kpack (F : fs) (k : kind) : Prop :=
  match k with
  | KPacked r => has_pack F r
  | KLoose _ => False
  | KGit r => exists r', reaches F r r' /\ has_pack F r'
  | KRef r => exists p, alternate F r p /\ exists r', reaches F p r' /\ has_pack F r'
  end.
Definition refused {A} (x : res A) : Prop := x = Raise ValueError \/ x = Raise AmbiguousObjectName.
(** An answer means that there are no packs. *)
Definition short_out {A} (bad none : Prop) (x : res A) : Prop := bad /\ x = Diverge \/ refused x \/ (exists a, x = Ok a) /\ none.

Lemma kpack_members F r k ks : ready F r k ks -> kpack F k -> exists k', In k' ks /\ kpack F k'.
Proof.
  intros [(-> & [Hne (R & HR)] & ->)|(-> & _ & ps & -> & _ & Hps)].
  - unfold kinds, git_members. rewrite HR. cbn [kpack].
    intros (r' & Hreach & Hhas). apply clos_rt_rt1n in Hreach. inversion Hreach as [|p ? Hp Hrest]; subst.
    + pose proof Hhas as (R' & d & n & HR' & Hd & _). assert (R' = R) by congruence. subst R'. exists (KPacked r'). split; [|easy]. rewrite Hd. now left.
    + exists (KRef r). split.
      * pose proof Hp as ((R' & text & HR' & Ha & _) & _). assert (R' = R) by congruence. subst R'. rewrite Ha, !map_app, !in_app_iff. right. right. now left.
      * exists p. split; [easy|]. exists r'. split; [now apply clos_rt1n_rt|easy].
  - cbn [kpack]. intros (p & Hp & Hf). exists (KGit p). split; [apply in_map; now apply Hps|easy].
Qed.

Lemma walk_short {A} (Rel : kind -> db -> Prop) (Q : kind -> Prop) bad sel ksel (f : A -> db -> res A * db) : forall ks l, Forall2 Rel ks l ->
  (forall k d, Rel k d -> sel d = ksel k) ->
  (forall k, In k ks -> ksel k = true -> forall c d, Rel k d -> exists x d', f c d = (x, d') /\ Rel k d' /\ short_out bad (~ Q k) x) ->
  forall c, exists x l', walk sel f c l = (x, l') /\ Forall2 Rel ks l' /\ short_out bad (forall k, In k ks -> ksel k = true -> ~ Q k) x.
Proof.
  induction 1 as [|k d ks l Hd Hl IH]; intros Hsel Hf c; cbn [walk].
  - eexists _, _. split; [reflexivity|]. split; [constructor|]. right. right. split; [now exists c|easy].
  - rewrite (Hsel k d Hd). destruct (ksel k) eqn:Ek.
    + destruct (Hf k (or_introl eq_refl) Ek c d Hd) as (x & d' & -> & Hd' & Hx). destruct Hx as [[Hb ->]|[[-> | ->]|[(c' & ->) Hn]]].
      1-3: eexists _, _; split; [reflexivity|]; split; [now constructor|]; first [now left|right; left; now left|right; left; now right].
      destruct (IH Hsel (fun k' Hk' => Hf k' (or_intror Hk')) c') as (x & l' & -> & Hl' & Hx). eexists _, _. split; [reflexivity|]. split; [now constructor|].
      destruct Hx as [Hx|[Hx|[Hx Hks]]]; [now left|right; now left|right; right]. split; [exact Hx|]. intros k0 [<- |H0]; [easy|now apply Hks].
    + destruct (IH Hsel (fun k' Hk' => Hf k' (or_intror Hk')) c) as (x & l' & -> & Hl' & Hx). eexists _, _. split; [reflexivity|]. split; [now constructor|].
      destruct Hx as [Hx|[Hx|[Hx Hks]]]; [now left|right; now left|right; right]. split; [exact Hx|]. intros k0 [<- |H0]; [congruence|now apply Hks].
Qed.

Lemma partial_loop_short digits : forall l c, exists x, partial_loop digits (map Ok l) c = x /\ (x = Raise AmbiguousObjectName \/ x = Raise BadObject \/ exists s, x = Ok s).
Proof.
  induction l as [|s l IH]; intros c; cbn [map partial_loop].
  - eexists. split; [reflexivity|]. destruct c as [c|]; [right; right; now exists c|right; now left].
  - cbn [bind]. destruct (startswith (bin_to_hex s) digits); [|apply IH]. destruct c; [eexists; split; [reflexivity|now left]|apply IH].
Qed.
Lemma weigh_short c x : x = Raise AmbiguousObjectName \/ x = Raise BadObject \/ (exists s, x = Ok s) ->
  refused (weigh c x) \/ exists a, weigh c x = Ok a.
Proof.
  intros [-> | [-> | ([|b s] & ->)]]; cbn [weigh]; [left; now right|right; now exists c|right; now exists c|].
  destruct (negb (len c =? 0) && negb (beq c (b :: s))); [left; now right|right; now exists (b :: s)].
Qed.

Section Deep.
  Context (F : fs) (U : list Z -> bytes -> option pack) (K : zlib) (scope : list Z -> Prop).
  Hypothesis Horder : forall l, Permutation (f_order F l) l.
  Hypothesis Hscope : forall r, scope r -> proper_repo F U r.
  Hypothesis Hclosed : forall r p, scope r -> alternate F r p -> scope p.
  Context (m : nat) (digits : bytes) (b : Z).
  Hypothesis Hdigits : any_hex digits.
  Notation good := (good F U scope).
  Notation enough := (enough F m).
  Lemma packed_keeps r s c d1 x : good (KPacked r) (Packed r s) -> ask_member F digits [b] c (Packed r s) = (x, d1) -> good (KPacked r) d1.
  Proof.
    intros H E. inversion H as [? ? v R d Hr HR Hd Hrep Hv| | | | |]; subst.
    destruct (query_packed F U K scope Horder Hscope r s v R d (QPartial [b] (len digits)) Hr HR Hd Hrep Hv) as (a & s' & Q & E' & Hg & _).
    cbn [do_op] in E'. unfold tag in E'. injection E' as _ <-. unfold ask_member, member_partial, in_packed in E. injection E as _ <-. exact Hg.
  Qed.
  Lemma member_short k d c bad : kcomp k = false -> good k d -> exists x d', ask_member F digits [b] c d = (x, d') /\ good k d' /\ short_out bad (~ kpack F k) x.
  Proof.
    intros Hk H. destruct d as [r s|r known|r dbs|r dbs]; [| |inversion H; subst; discriminate..].
    - assert (k = KPacked r) as -> by (inversion H; easy). destruct (ask_member F digits [b] c (Packed r s)) as [x d1] eqn:E. exists x, d1. split; [easy|].
      split; [exact (packed_keeps r s c d1 x H E)|]. inversion H as [? ? v R d Hr HR Hd Hrep Hv| | | | |]; subst.
      unfold ask_member, member_partial, in_packed, partial_to_complete_sha in E.
      destruct (load_ok (U r) (pack_env F r) (QPartial [b] (len digits)) v s (pack_proper F U scope Horder Hscope r R d v _ Hr HR Hd Hv) Hrep) as (d' & l & s' & P & El & He & HP & Hl & [_ Hok] & Hth & _).
      rewrite El in E. pose proof (known_after F r R d v _ P HR Hd Hv HP) as Hkn. destruct l as [|it l]; cbn [partial_scan] in E.
      + cbn [fst weigh] in E. injection E as <- _. right. right. split; [now exists c|]. intros (R' & d'' & n & HR' & Hd' & Hn).
        assert (R' = R) by congruence. subst R'. assert (d'' = d) by congruence. subst d''. apply Hkn, Hl in Hn. exact Hn.
      + inversion Hok as [|? ? Hit _]; subst. destruct (PackDbProofs.open_ok (U r) (pack_env F r) d' it He Hit (Hth it (or_introl eq_refl))) as (k & ix & it' & _ & _ & _ & Eo & _).
        rewrite Eo in E. cbn [bind] in E. unfold partial_sha_to_index in E. change (len [b] <? 2) with true in E. cbn [bind fst weigh] in E. injection E as <- _. right. left. now left.
    - assert (k = KLoose r) as -> by (inversion H; easy). unfold ask_member, member_partial. eexists _, _. split; [reflexivity|]. split; [exact H|].
      destruct (partial_loop_short digits (loose_names F r) None) as (x & -> & Hx). destruct (weigh_short c x Hx) as [Hw|Hw]; [right; now left|]. right. right. split; [exact Hw|]. now intros [].
  Qed.
  Lemma ask_deep fuel : forall k d c, good k d -> exists x d', db_ask F digits [b] fuel c d = (x, d') /\ good k d' /\ short_out (~ enough fuel k) (~ kpack F k) x.
  Proof.
    induction fuel as [|fuel IH]; intros k d c H.
    - destruct d as [r s|r known|r dbs|r dbs]; cbn [db_ask]; [apply member_short; [inversion H; easy|easy]..| |].
      all: eexists _, _; split; [reflexivity|]; split; [exact H|]; left; split; [|easy]; intros He; inversion H; subst; inversion He.
    - assert (Hcomp : forall r k ks co, ready F r k ks -> state F U scope ks co -> exists x co', on_members (ask_below F digits [b] (db_ask F digits [b] fuel) c) co = (x, co') /\ state F U scope ks co' /\ short_out (~ enough (S fuel) k) (~ kpack F k) x).
      { intros r k0 ks co Hready [Hl Hco].
        destruct (walk_short good (kpack F) (~ enough (S fuel) k0) (fun d => negb (is_compound d)) (fun k => negb (kcomp k)) (ask_member F digits [b]) ks (c_dbs co) Hl) with (c := c) as (x & l' & E & Hl' & Hx).
        - intros k1 d1 Hd1. now rewrite (good_comp F U scope k1 d1 Hd1).
        - intros k1 _ Hs1 c1 d1 Hd1. apply member_short; [now destruct (kcomp k1)|easy].
        - unfold on_members, ask_below. rewrite E. destruct Hx as [[Hx ->]|[[-> | ->]|[(c1 & ->) Hn]]].
          1-3: eexists _, _; split; [reflexivity|]; split; [split; [exact Hl'|exact Hco]|]; first [now left|right; left; now left|right; left; now right].
          destruct (walk_short good (kpack F) (~ enough (S fuel) k0) is_compound kcomp (db_ask F digits [b] fuel) ks l' Hl' (good_comp F U scope)) with (c := c1) as (x & l2 & E2 & Hl2 & Hx).
          + intros k1 Hk1 Hs1 c2 d1 Hd1. destruct (IH k1 d1 c2 Hd1) as (x & d' & E2 & Hd' & Hx). exists x, d'. split; [easy|]. split; [easy|].
            destruct Hx as [[Hx ->]|Hx]; [left|now right]. split; [|easy]. intros He. apply Hx. now apply (enough_member F m r k0 ks).
          + rewrite E2. eexists _, _. split; [reflexivity|]. split; [split; [exact Hl2|exact Hco]|]. destruct Hx as [Hx|[Hx|[Hx Hn2]]]; [now left|right; now left|right; right].
            split; [exact Hx|]. intros Hp. destruct (kpack_members F r k0 ks Hready Hp) as (k1 & Hk1 & Hp1). destruct (kcomp k1) eqn:Ek; [now apply (Hn2 k1)|]. apply (Hn k1 Hk1); [now rewrite Ek|exact Hp1]. }
      destruct d as [r s|r known|r dbs|r dbs]; [cbn [db_ask]; apply member_short; [inversion H; easy|easy]..| |].
      + assert (k = KGit r) as -> by (inversion H; easy). cbn [db_ask]. match goal with |- context [with_dbs _ _ ?f] => destruct (use_git F U scope r dbs f H) as (Hr & co & -> & Hready & Hst) end.
        destruct (Hcomp r (KGit r) _ co Hready Hst) as (x & c' & -> & Hst' & Hx). unfold in_git. cbn [fst snd]. eexists _, _. split; [reflexivity|]. split; [now apply (ready_git F U scope r (kinds F r))|easy].
      + assert (k = KRef r) as -> by (inversion H; easy). cbn [db_ask]. match goal with |- context [with_dbs _ _ ?f] => destruct (use_ref F U scope Horder Hscope Hclosed r dbs f H) as (Hr & co & ks & -> & Hready & Hst) end.
        destruct (Hcomp r (KRef r) _ co Hready Hst) as (x & c' & -> & Hst' & Hx). unfold in_ref. cbn [fst snd]. eexists _, _. split; [reflexivity|]. split; [now apply (ready_ref F U scope r ks)|easy].
  Qed.
End Deep.

Lemma short_deep F U K r : proper_from F U r -> finite_acyclic F r ->
  exists N, forall fuel0 fuel ops digits r' R d n, (N <= fuel)%nat -> Forall a_proper ops -> any_hex digits -> 1 <= len digits <= 2 ->
  reaches F r r' -> f_repo F r' = Some R -> r_pack R = Some d -> packs_in d n ->
  let x := fst (db_partial F fuel digits (snd (a_run F K fuel0 ops (gitdb r)))) in x = Raise ValueError \/ x = Raise AmbiguousObjectName.
Proof.
  intros H Hac. destruct (from_enough F U r H 0 Hac) as (N & HN). exists N. intros fuel0 fuel ops digits r' R d n Hf Hops Hd Hl Hr HR Hp Hn.
  pose proof (a_good F U K r H fuel0 ops Hops) as Hg. specialize (HN fuel Hf). cbv zeta. unfold db_partial.
  destruct (open_ok F U (reaches F r) (from_order F U r H) (from_scope F U r H) (from_closed F r) 0 fuel (KGit r) _ Hg) as (x & d1 & -> & H1 & [[Hx _]| ->]); [now elim Hx|].
  destruct (short_bin digits Hd Hl) as (b & ->).
  destruct (ask_deep F U K (reaches F r) (from_order F U r H) (from_scope F U r H) (from_closed F r) 0 digits b fuel (KGit r) d1 [] H1) as (x & d2 & -> & _ & Hx).
  cbn [fst]. destruct Hx as [[Hx _]|[[-> | ->]|[_ Hno]]]; [now elim Hx|now left|now right|]. elim Hno. exists r'. split; [exact Hr|]. now exists R, d, n.
Qed.
