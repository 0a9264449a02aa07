(** Proofs about abbreviated names in a GitDB. *)
From Coq Require Import ZifyBool ZifyNat Permutation Relations Sorting.Sorted.
From Verif Require Import Py PyFacts FunModel FunSpec IndexModel IndexSpec ZlibModel ReaderModel PackModel PackSpec OsModel LooseModel LooseQuery PackDbModel PackDbSpec PackDbProofs PackDbTop
  MemModel MemProofs CompoundModel CompoundSpec CompoundProofs GitModel GitSpec GitProofs GitTop GitMain GitGrow GitRoots GitFinal GitAbbrModel GitAbbrSpec.
Ltac Zify.zify_post_hook ::= Z.div_mod_to_equations.

(** ** Digits *)
Lemma hex_val_lower c : hex_val (if (65 <=? c) && (c <=? 70) then c + 32 else c) = hex_val c.
Proof.
  destruct ((65 <=? c) && (c <=? 70)) eqn:E; [|easy]. unfold hex_val. rewrite E.
  replace ((48 <=? c + 32) && (c + 32 <=? 57)) with false by lia. replace ((97 <=? c + 32) && (c + 32 <=? 102)) with true by lia.
  replace ((48 <=? c) && (c <=? 57)) with false by lia. replace ((97 <=? c) && (c <=? 102)) with false by lia. f_equal. lia.
Qed.
Lemma hex_lower : forall n h, (length h <= n)%nat -> hex_to_bin (lower h) = hex_to_bin h.
Proof.
  induction n as [|n IH]; intros h Hn; [now destruct h|]. destruct h as [|a [|b h]]; [easy..|]. unfold lower. cbn [map hex_to_bin]. rewrite !hex_val_lower.
  fold (lower h). rewrite IH by (cbn in Hn; lia). easy.
Qed.
Lemma hex_even : forall n h, (length h <= n)%nat -> any_hex h -> Z.even (len h) = true -> exists b, hex_to_bin h = Ok b.
Proof.
  induction n as [|n IH]; intros h Hn Hh He; [destruct h; [now exists []|cbn in Hn; lia]|]. destruct h as [|a [|b h]]; [now exists []|discriminate|].
  inversion Hh as [|? ? Ha Hh']; subst. inversion Hh' as [|? ? Hb Hh2]; subst. cbn [hex_to_bin].
  assert (Hv : forall c, 48 <= c <= 57 \/ 97 <= c <= 102 \/ 65 <= c <= 70 -> exists v, hex_val c = Some v).
  { intros c Hc. unfold hex_val. destruct ((48 <=? c) && (c <=? 57)) eqn:E1; [now eexists|]. destruct ((97 <=? c) && (c <=? 102)) eqn:E2; [now eexists|]. destruct ((65 <=? c) && (c <=? 70)) eqn:E3; [now eexists|lia]. }
  destruct (Hv a Ha) as (x & ->). destruct (Hv b Hb) as (y & ->). destruct (IH h) as (r & ->); [cbn in Hn; lia|easy| |now eexists].
  rewrite !len_cons in He. replace (len h + 1 + 1) with (len h + 2) in He by lia. now rewrite Z.even_add in He; destruct (Z.even (len h)).
Qed.
Lemma lower_len h : len (lower h) = len h.
Proof. unfold len, lower. now rewrite map_length. Qed.
Lemma lower_lower h : any_hex h -> lower_hex (lower h).
Proof.
  unfold any_hex, lower_hex, lower. intros H. apply Forall_map. revert H. apply Forall_impl. intros c Hc. destruct ((65 <=? c) && (c <=? 70)) eqn:E; lia.
Qed.
Lemma lower_same h : lower_hex h -> lower h = h.
Proof.
  unfold lower, lower_hex. induction 1 as [|c h Hc _ IH]; [easy|]. cbn [map]. rewrite IH. now replace ((65 <=? c) && (c <=? 70)) with false by lia.
Qed.
Lemma digits_bin h : any_hex h -> exists b, (if negb (len h mod 2 =? 0) then hex_to_bin (h ++ [48]) else hex_to_bin h) = Ok b /\ hex_to_bin (pad_even (lower h)) = Ok b.
Proof.
  intros H. assert (Hp : hex_to_bin (pad_even (lower h)) = if negb (len h mod 2 =? 0) then hex_to_bin (h ++ [48]) else hex_to_bin h).
  { unfold pad_even. rewrite lower_len. replace (Z.even (len h)) with (len h mod 2 =? 0) by (rewrite Zeven_mod; now destruct (Zeq_bool (len h mod 2) 0) eqn:E; [apply Zeq_bool_eq in E|apply Zeq_bool_neq in E]; lia).
    destruct (len h mod 2 =? 0); cbn [negb]; [now apply (hex_lower (length h))|]. replace (lower h ++ [48]) with (lower (h ++ [48])) by (unfold lower; now rewrite map_app). now apply (hex_lower (length (h ++ [48]))). }
  rewrite Hp. destruct (len h mod 2 =? 0) eqn:E; cbn [negb].
  - destruct (hex_even (length h) h) as (b & ->); [lia|easy|rewrite Zeven_mod; unfold Zeq_bool; replace (len h mod 2) with 0 by lia; easy|now exists b].
  - destruct (hex_even (length (h ++ [48])) (h ++ [48])) as (b & ->); [lia|apply Forall_app; split; [easy|repeat constructor; lia]| |now exists b].
    rewrite len_app. change (len [48]) with 1. rewrite Z.even_add. replace (Z.even (len h)) with false; [easy|]. rewrite Zeven_mod. unfold Zeq_bool. replace (len h mod 2) with 1 by lia. easy.
Qed.
Lemma begins_nonempty digits s : 0 < len digits -> begins digits s -> s <> [].
Proof. intros Hd Hb ->. unfold begins in Hb. destruct digits; [cbn in Hd; lia|discriminate]. Qed.
Lemma first_index_at A (f : A -> bool) : forall l i, first_index f l = Some i -> exists t, index l i = Ok t /\ In t l /\ f t = true.
Proof.
  intros l i H. assert (0 <= i /\ exists t, nth_error l (Z.to_nat i) = Some t /\ f t = true) as (Hi & t & Hn & Ht).
  { revert i H. induction l as [|x l IH]; cbn [first_index]; intros i H; [discriminate|]. destruct (f x) eqn:Ex.
    - injection H as <-. split; [lia|]. now exists x.
    - destruct (first_index f l) as [j|]; [|discriminate]. injection H as <-. destruct (IH j eq_refl) as (Hj & t & Hn & Ht). split; [lia|]. exists t. split; [|easy]. now rewrite Z2Nat.inj_succ by lia. }
  exists t. split; [|split; [now apply nth_error_In in Hn|easy]].
  assert ((Z.to_nat i < length l)%nat) as Hb by (apply nth_error_Some; congruence). rewrite (index_nth _ l i t) by (unfold len; lia). f_equal. now apply nth_error_nth.
Qed.
Lemma first_index_some A (f : A -> bool) : forall l x, In x l -> f x = true -> exists i, first_index f l = Some i.
Proof.
  induction l as [|y l IH]; intros x Hx Hf; [easy|]. cbn [first_index]. destruct (f y) eqn:Ey; [now eexists|]. destruct Hx as [-> |Hx]; [congruence|]. destruct (IH x Hx Hf) as (i & ->). now eexists.
Qed.
Lemma begins_lower digits s : any_hex digits -> begins digits s -> lower_hex digits.
Proof.
  unfold begins, any_hex, lower_hex. intros Hd Hb. assert (Ho : Forall (fun c => c <= 57 \/ 97 <= c) (bin_to_hex s)).
  { assert (Hh : forall v, hex_digit v <= 57 \/ 97 <= hex_digit v) by (intros v; unfold hex_digit; destruct (Z.ltb_spec v 10); lia).
    clear Hd Hb. induction s as [|b s IH]; cbn [bin_to_hex]; [constructor|]. repeat (constructor; [apply Hh|]). exact IH. }
  apply startswith_iff in Hb as (t & Ht). rewrite Ht in Ho. apply Forall_app in Ho as [Ho _]. clear Ht. revert Hd. induction Ho as [|c l Hc _ IH]; intros Hd; [constructor|]. inversion Hd; subst. constructor; [lia|now apply IH].
Qed.

(** ** The candidate *)
Definition cand (P : bytes -> Prop) (c : bytes) : Prop := (c = [] /\ forall s, ~ P s) \/ (c <> [] /\ P c /\ forall s, P s -> s = c).
Definition several (P : bytes -> Prop) : Prop := exists s s', P s /\ P s' /\ s <> s'.
Definition out {A} (bad : Prop) (I : (bytes -> Prop) -> A -> Prop) (P : bytes -> Prop) (x : res A) : Prop :=
  bad /\ x = Diverge \/ (exists c, x = Ok c /\ I P c) \/ x = Raise AmbiguousObjectName /\ several P.
Lemma cand_iff P Q c : (forall s, P s <-> Q s) -> cand P c -> cand Q c.
Proof.
  intros H [[-> Hn]|(Hc & H1 & H2)]; [left; split; [easy|]|right; split; [easy|]; split; [now apply H|]].
  - intros s Hs. apply (Hn s). now apply H.
  - intros s Hs. apply H2. now apply H.
Qed.
Lemma several_more (P Q : bytes -> Prop) : (forall s, P s -> Q s) -> several P -> several Q.
Proof. intros H (s & s' & H1 & H2 & H3). exists s, s'. split; [now apply H|]. split; [now apply H|easy]. Qed.
Lemma weigh_ok P Q c x : settles Q x -> (forall s, Q s -> s <> []) -> cand P c -> out False cand (fun s => P s \/ Q s) (weigh c x).
Proof.
  intros Hx Hne Hc. destruct x as [s|e|]; [| |easy].
  - destruct Hx as [Hs Hu]. destruct s as [|b s]; [now apply Hne in Hs|]. cbn [weigh]. right. destruct Hc as [[-> Hn]|(Hc & H1 & H2)].
    + left. exists (b :: s). split; [reflexivity|]. right. split; [easy|]. split; [now right|]. intros t [Ht|Ht]; [now apply Hn in Ht|now apply Hu].
    + replace (len c =? 0) with false by (destruct c; [easy|rewrite len_cons; pose proof (len_nonneg _ c); lia]). cbn [negb andb]. destruct (beq c (b :: s)) eqn:E; cbn [negb].
      * apply beq_eq in E. subst c. left. exists (b :: s). split; [reflexivity|]. right. split; [easy|]. split; [now left|]. intros t [Ht|Ht]; [now apply H2|now apply Hu].
      * right. split; [easy|]. exists c, (b :: s). split; [now left|]. split; [now right|]. intros ->. rewrite (proj2 (beq_eq _ _)) in E; easy.
  - destruct e; try easy.
    + right. left. exists c. split; [reflexivity|]. apply (cand_iff P); [|easy]. intros s. cbn in Hx. specialize (Hx s). tauto.
    + right. right. split; [easy|]. apply (several_more Q); [intros s; now right|easy].
Qed.

(** ** Going through members *)
Section Walk.
  Context {A : Type} (Rel : kind -> db -> Prop) (I : (bytes -> Prop) -> A -> Prop) (koff : kind -> bytes -> Prop).
  Hypothesis Iiff : forall P Q c, (forall s, P s <-> Q s) -> I P c -> I Q c.
  Lemma walk_ok bad sel ksel f : forall ks l, Forall2 Rel ks l ->
    (forall k d, Rel k d -> sel d = ksel k) ->
    (forall k, In k ks -> ksel k = true -> forall P c d, Rel k d -> I P c -> exists x d', f c d = (x, d') /\ Rel k d' /\ out bad I (fun s => P s \/ koff k s) x) ->
    forall P c, I P c -> exists x l', walk sel f c l = (x, l') /\ Forall2 Rel ks l' /\
      out bad I (fun s => P s \/ exists k, In k ks /\ ksel k = true /\ koff k s) x.
  Proof.
    induction 1 as [|k d ks l Hd Hl IH]; intros Hsel Hf P c Hc; cbn [walk].
    - exists (Ok c), []. split; [easy|]. split; [constructor|]. right. left. exists c. split; [easy|]. apply (Iiff P); [|easy]. intros s. split; [now left|]. now intros [H|(k & [] & _)].
    - rewrite (Hsel k d Hd). destruct (ksel k) eqn:Ek.
      + destruct (Hf k (or_introl eq_refl) Ek P c d Hd Hc) as (x & d' & -> & Hd' & Hx). destruct Hx as [[Hb ->]|[(c' & -> & Hc')|[-> Hs]]].
        * eexists _, _. split; [reflexivity|]. split; [now constructor|now left].
        * destruct (IH Hsel (fun k' Hk' => Hf k' (or_intror Hk')) _ c' Hc') as (x & l' & -> & Hl' & Hx). eexists _, _. split; [reflexivity|]. split; [now constructor|].
          assert (Hiff : forall s, (P s \/ koff k s) \/ (exists k0, In k0 ks /\ ksel k0 = true /\ koff k0 s) <-> P s \/ exists k0, In k0 (k :: ks) /\ ksel k0 = true /\ koff k0 s).
          { intros s. split.
            - intros [[H|H]|(k0 & H1 & H2)]; [now left|right; exists k; split; [now left|easy]|right; exists k0; split; [now right|easy]].
            - intros [H|(k0 & [<- |H1] & H2 & H3)]; [tauto|tauto|]. right. now exists k0. }
          destruct Hx as [Hx|[(c2 & -> & Hc2)|[-> Hs]]]; [now left|right; left; exists c2; split; [easy|now apply (Iiff _ _ _ Hiff)]|right; right].
          split; [easy|]. revert Hs. apply several_more. intros s. apply Hiff.
        * eexists _, _. split; [reflexivity|]. split; [now constructor|]. right. right. split; [easy|]. revert Hs. apply several_more. intros s [H|H]; [now left|]. right. exists k. split; [now left|easy].
      + destruct (IH Hsel (fun k' Hk' => Hf k' (or_intror Hk')) P c Hc) as (x & l' & -> & Hl' & Hx). eexists _, _. split; [reflexivity|]. split; [now constructor|].
        assert (Hiff : forall s, P s \/ (exists k0, In k0 ks /\ ksel k0 = true /\ koff k0 s) <-> P s \/ exists k0, In k0 (k :: ks) /\ ksel k0 = true /\ koff k0 s).
        { intros s. split; (intros [H|(k0 & H1 & H2)]; [now left|right; exists k0]); [split; [now right|easy]|]. destruct H1 as [<- |H1]; [now destruct H2; congruence|easy]. }
        destruct Hx as [Hx|[(c2 & -> & Hc2)|[-> Hs]]]; [now left|right; left; exists c2; split; [easy|now apply (Iiff _ _ _ Hiff)]|right; right].
        split; [easy|]. revert Hs. apply several_more. intros s. apply Hiff.
  Qed.
End Walk.
Definition kcomp (k : kind) : bool := match k with KGit _ | KRef _ => true | _ => false end.

Section Top.
  Context (F : fs) (U : list Z -> bytes -> option pack) (K : zlib) (scope : list Z -> Prop).
  Hypothesis Horder : forall l, Permutation (f_order F l) l.
  Hypothesis Hscope : forall r, scope r -> proper_repo F U r.
  Hypothesis Hclosed : forall r p, scope r -> alternate F r p -> scope p.
  Context (m : nat).
  Let good := good F U scope.
  Let enough := enough F m.
  Let ready := ready F.
  Let state := state F U scope.

  Lemma good_comp k d : good k d -> is_compound d = kcomp k.
  Proof. intros H. inversion H; easy. Qed.

  (** ** Setting up *)
  Lemma open_ok fuel : forall k d, good k d -> exists x d', db_open F fuel d = (x, d') /\ good k d' /\ (~ enough fuel k /\ x = Diverge \/ x = Ok tt).
  Proof.
    induction fuel as [|fuel IH]; intros k d H.
    - destruct d as [r s|r known|r dbs|r dbs]; cbn [db_open]; eexists _, _; (split; [reflexivity|]); (split; [exact H|]); [now right|now right| |]; left; (split; [|easy]); intros He; inversion H; subst; inversion He.
    - assert (Hcomp : forall r k ks c, ready r k ks -> state ks c -> exists x c', on_members (walk is_compound (fun _ => db_open F fuel) tt) c = (x, c') /\ state ks c' /\ (~ enough (S fuel) k /\ x = Diverge \/ x = Ok tt)).
      { intros r k0 ks c Hready [Hl Hc].
        destruct (walk_ok good (fun _ (_ : unit) => True) (fun _ _ => False) (fun _ _ _ _ _ => Logic.I) (~ enough (S fuel) k0) is_compound kcomp (fun _ => db_open F fuel) ks (c_dbs c) Hl good_comp) with (P := fun _ : bytes => False) (c := tt) as (x & l' & E & Hl' & Hx).
        - intros k1 Hk1 _ P u d1 Hd1 _. destruct (IH k1 d1 Hd1) as (x & d' & -> & Hd' & Hx). eexists _, _. split; [reflexivity|]. split; [easy|]. destruct Hx as [[Hx ->]| ->]; [left|right; left; now exists tt].
          split; [|easy]. intros He. apply Hx. now apply (enough_member F m r k0 ks).
        - easy.
        - unfold on_members. rewrite E. eexists _, _. split; [reflexivity|]. split; [split; [exact Hl'|exact Hc]|]. destruct Hx as [Hx|[([] & -> & _)|[_ (s & s' & Hs & _)]]]; [now left|now right|exfalso]. destruct Hs as [[]|(k1 & _ & _ & [])]. }
      destruct d as [r s|r known|r dbs|r dbs].
      + eexists _, _. split; [reflexivity|]. split; [exact H|now right].
      + eexists _, _. split; [reflexivity|]. split; [exact H|now right].
      + assert (k = KGit r) as -> by (inversion H; easy). cbn [db_open]. match goal with |- context [with_dbs _ _ ?f] => destruct (use_git F U scope r dbs f H) as (Hr & c & -> & Hready & Hst) end.
        destruct (Hcomp r (KGit r) _ c Hready Hst) as (x & c' & -> & Hst' & Hx). unfold in_git. cbn [fst snd]. eexists _, _. split; [reflexivity|]. split; [now apply (ready_git F U scope r (kinds F r))|easy].
      + assert (k = KRef r) as -> by (inversion H; easy). cbn [db_open]. match goal with |- context [with_dbs _ _ ?f] => destruct (use_ref F U scope Horder Hscope Hclosed r dbs f H) as (Hr & c & ks & -> & Hready & Hst) end.
        destruct (Hcomp r (KRef r) _ c Hready Hst) as (x & c' & -> & Hst' & Hx). unfold in_ref. cbn [fst snd]. eexists _, _. split; [reflexivity|]. split; [now apply (ready_ref F U scope r ks)|easy].
  Qed.

  (** ** Asking *)
  Context (digits binsha : bytes).
  Hypothesis Hdigits : any_hex digits.
  Hypothesis Hlen : 3 <= len digits <= 40.
  Hypothesis Hbin : hex_to_bin (pad_even (lower digits)) = Ok binsha.
  Definition koff (k : kind) (s : bytes) : Prop :=
    match k with
    | KPacked r => exists R d, f_repo F r = Some R /\ r_pack R = Some d /\ offers (U r) (packs_in d) (lower digits) s
    | KLoose r => is_loose_in F r s /\ begins digits s
    | KGit r => git_offers F U r digits s
    | KRef r => exists p, alternate F r p /\ git_offers F U p digits s
    end.
  Lemma koff_members r k ks s : ready r k ks -> koff k s <-> exists k', In k' ks /\ koff k' s.
  Proof.
    intros [(-> & [Hne (R & HR)] & ->)|(-> & _ & ps & -> & _ & Hps)].
    - unfold kinds, git_members. rewrite HR. cbn [koff]. split.
      + intros (r' & Hreach & Hhas). apply clos_rt_rt1n in Hreach. inversion Hreach as [|p ? Hp Hrest]; subst.
        * destruct Hhas as [Hh|Hh].
          -- exists (KLoose r'). split; [|easy]. rewrite !map_app, !in_app_iff. right. left. destruct r'; [easy|now left].
          -- pose proof Hh as (R' & d & HR' & Hd & _). assert (R' = R) by congruence. subst R'. exists (KPacked r'). split; [|easy]. rewrite Hd. now left.
        * exists (KRef r). split.
          -- pose proof Hp as ((R' & text & HR' & Ha & _) & _). assert (R' = R) by congruence. subst R'. rewrite Ha, !map_app, !in_app_iff. right. right. now left.
          -- exists p. split; [easy|]. exists r'. split; [now apply clos_rt1n_rt|easy].
      + intros (k & Hk & Hc). rewrite !map_app, !in_app_iff in Hk. destruct Hk as [Hk|[Hk|Hk]].
        * destruct (r_pack R); [|easy]. destruct Hk as [<- |[]]. exists r. split; [apply rt_refl|now right].
        * destruct r; [easy|]. destruct Hk as [<- |[]]. eexists. split; [apply rt_refl|now left].
        * destruct (r_alt R); [|easy]. destruct Hk as [<- |[]]. destruct Hc as (p & Hp & r' & Hr' & Hh). exists r'. split; [|easy]. apply rt_trans with p; [now apply rt_step|easy].
    - cbn [koff]. split.
      + intros (p & Hp & Hf). exists (KGit p). split; [apply in_map; now apply Hps|easy].
      + intros (k & Hk & Hc). apply in_map_iff in Hk as (p & <- & Hp). exists p. split; [now apply Hps|easy].
  Qed.
  Lemma offers_begins V P d s : offers V P d s -> begins d s.
  Proof.
    intros (n & k & i & _ & _ & Hi & Hs). apply first_index_at in Hi as (t & Ht & _ & Hp). assert (t = s) by congruence. now subst t.
  Qed.
  Lemma member_ok k d c P : kcomp k = false -> good k d -> cand P c ->
    exists x d', ask_member F digits binsha c d = (x, d') /\ good k d' /\ out False cand (fun s => P s \/ koff k s) x.
  Proof.
    intros Hk H Hc. destruct d as [r s|r known|r dbs|r dbs]; [| |inversion H; subst; discriminate..].
    - inversion H as [? ? v R d Hr HR Hd Hrep Hv| | | | |]; subst.
      destruct (query_packed F U K scope Horder Hscope r s v R d (QPartial binsha (len digits)) Hr HR Hd Hrep Hv) as (a & s' & Q & E & Hg & HQ & Ha). cbn [do_op] in E. unfold tag in E. injection E as <- <-. cbn [right_answer] in Ha.
      specialize (Ha (lower digits) (lower_lower digits Hdigits) (eq_sym (lower_len digits)) Hlen Hbin).
      unfold ask_member, member_partial, in_packed. eexists _, _. split; [reflexivity|]. split; [exact Hg|].
      assert (Hiff : forall t, offers (U r) Q (lower digits) t <-> koff (KPacked r) t).
      { intros t. cbn [koff]. unfold offers. split.
        - intros (n & kk & i & H1 & H2). exists R, d. split; [easy|]. split; [easy|]. exists n, kk, i. split; [now apply HQ|easy].
        - intros (R' & d' & HR' & Hd' & n & kk & i & H1 & H2). assert (R' = R) by congruence. subst R'. assert (d' = d) by congruence. subst d'. exists n, kk, i. split; [now apply HQ|easy]. }
      cbn [fst]. pose proof (weigh_ok P (offers (U r) Q (lower digits)) c (fst (partial_to_complete_sha (pack_env F r) binsha (len digits) s)) Ha) as Hw.
      destruct Hw as [[[] _]|[(c' & Ex & Hc')|[Ex Hs]]].
      + intros t Ht. apply (begins_nonempty (lower digits)); [rewrite lower_len; lia|now apply offers_begins in Ht].
      + exact Hc.
      + rewrite Ex. right. left. exists c'. split; [easy|]. revert Hc'. apply cand_iff. intros t. now rewrite Hiff.
      + rewrite Ex. right. right. split; [easy|]. revert Hs. apply several_more. intros t. now rewrite Hiff.
    - inversion H as [|? ? R Hr HR Hkn| | | |]; subst. unfold ask_member, member_partial. eexists _, _. split; [reflexivity|]. split; [exact H|].
      assert (Hnd : NoDup (loose_names F r)) by (unfold loose_names; rewrite HR; now apply (Hscope r Hr R HR)).
      rewrite partial_loop_spec by exact Hnd.
      assert (Hin : forall t, In t (filter (fun b => startswith (bin_to_hex b) digits) (loose_names F r)) <-> koff (KLoose r) t).
      { intros t. rewrite filter_In. cbn [koff]. unfold begins. now rewrite (loose_iff F r R t HR). }
      pose proof (NoDup_filter (fun b => startswith (bin_to_hex b) digits) Hnd) as Hnd'.
      apply weigh_ok; [|intros t Ht; apply (begins_nonempty digits); [lia|apply Ht]|easy].
      destruct (filter _ (loose_names F r)) as [|a [|b l]]; cbn [settles].
      + intros t Ht. apply Hin in Ht. easy.
      + split; [apply Hin; now left|]. intros t Ht. apply Hin in Ht as [->|[]]. easy.
      + exists a, b. split; [apply Hin; now left|]. split; [apply Hin; right; now left|]. intros ->. inversion Hnd' as [|? ? Hni _]; subst. apply Hni. now left.
  Qed.
  Lemma ask_ok fuel : forall k d P c, good k d -> cand P c ->
    exists x d', db_ask F digits binsha fuel c d = (x, d') /\ good k d' /\ out (~ enough fuel k) cand (fun s => P s \/ koff k s) x.
  Proof.
    assert (Hleaf : forall k d P c bad, kcomp k = false -> good k d -> cand P c -> exists x d', ask_member F digits binsha c d = (x, d') /\ good k d' /\ out bad cand (fun s => P s \/ koff k s) x).
    { intros k d P c bad Hk Hd Hc. destruct (member_ok k d c P Hk Hd Hc) as (x & d' & E & Hd' & Hx). exists x, d'. split; [easy|]. split; [easy|]. destruct Hx as [[[] _]|Hx]. now right. }
    induction fuel as [|fuel IH]; intros k d P c H Hc.
    - destruct d as [r s|r known|r dbs|r dbs]; cbn [db_ask].
      + apply Hleaf; [inversion H; easy|easy..].
      + apply Hleaf; [inversion H; easy|easy..].
      + eexists _, _. split; [reflexivity|]. split; [exact H|]. left. split; [|easy]. intros He. inversion H; subst; inversion He.
      + eexists _, _. split; [reflexivity|]. split; [exact H|]. left. split; [|easy]. intros He. inversion H; subst; inversion He.
    - assert (Hcomp : forall r k ks co, ready r k ks -> state ks co -> exists x co', on_members (ask_below F digits binsha (db_ask F digits binsha fuel) c) co = (x, co') /\ state ks co' /\ out (~ enough (S fuel) k) cand (fun s => P s \/ koff k s) x).
      { intros r k0 ks co Hready [Hl Hco].
        assert (Hiff : forall s, (P s \/ (exists k1, In k1 ks /\ negb (kcomp k1) = true /\ koff k1 s)) \/ (exists k1, In k1 ks /\ kcomp k1 = true /\ koff k1 s) <-> P s \/ koff k0 s).
        { intros s. rewrite (koff_members r k0 ks s Hready). split.
          - intros [[Hs|(k1 & H1 & _ & H3)]|(k1 & H1 & _ & H3)]; [now left|right; now exists k1..].
          - intros [Hs|(k1 & H1 & H3)]; [tauto|]. destruct (kcomp k1) eqn:E; [right|left; right]; exists k1; rewrite ?E; easy. }
        destruct (walk_ok good cand koff cand_iff (~ enough (S fuel) k0) (fun d => negb (is_compound d)) (fun k => negb (kcomp k)) (ask_member F digits binsha) ks (c_dbs co) Hl) with (P := P) (c := c) as (x & l' & E & Hl' & Hx).
        - intros k1 d1 Hd1. now rewrite (good_comp k1 d1 Hd1).
        - intros k1 Hk1 Hs1 P1 c1 d1 Hd1 Hc1. apply Hleaf; [now destruct (kcomp k1)|easy..].
        - exact Hc.
        - unfold on_members, ask_below. rewrite E. destruct Hx as [[Hx ->]|[(c1 & -> & Hc1)|[-> Hs]]].
          + eexists _, _. split; [reflexivity|]. split; [split; [exact Hl'|exact Hco]|now left].
          + destruct (walk_ok good cand koff cand_iff (~ enough (S fuel) k0) is_compound kcomp (db_ask F digits binsha fuel) ks l' Hl' good_comp) with (P := fun s => P s \/ exists k1, In k1 ks /\ negb (kcomp k1) = true /\ koff k1 s) (c := c1) as (x & l2 & E2 & Hl2 & Hx).
            * intros k1 Hk1 Hs1 P1 c2 d1 Hd1 Hc2. destruct (IH k1 d1 P1 c2 Hd1 Hc2) as (x & d' & E2 & Hd' & Hx). exists x, d'. split; [easy|]. split; [easy|]. destruct Hx as [[Hx ->]|Hx]; [left|now right].
              split; [|easy]. intros He. apply Hx. now apply (enough_member F m r k0 ks).
            * exact Hc1.
            * rewrite E2. eexists _, _. split; [reflexivity|]. split; [split; [exact Hl2|exact Hco]|]. destruct Hx as [Hx|[(c2 & -> & Hc2)|[-> Hs]]]; [now left|right; left; exists c2; split; [easy|now apply (cand_iff _ _ _ Hiff)]|right; right].
              split; [easy|]. revert Hs. apply several_more. intros s. apply Hiff.
          + eexists _, _. split; [reflexivity|]. split; [split; [exact Hl'|exact Hco]|]. right. right. split; [easy|]. revert Hs. apply several_more. intros s Hs. apply Hiff. now left. }
      destruct d as [r s|r known|r dbs|r dbs].
      + cbn [db_ask]. apply Hleaf; [inversion H; easy|easy..].
      + cbn [db_ask]. apply Hleaf; [inversion H; easy|easy..].
      + assert (k = KGit r) as -> by (inversion H; easy). cbn [db_ask]. match goal with |- context [with_dbs _ _ ?f] => destruct (use_git F U scope r dbs f H) as (Hr & co & -> & Hready & Hst) end.
        destruct (Hcomp r (KGit r) _ co Hready Hst) as (x & c' & -> & Hst' & Hx). unfold in_git. cbn [fst snd]. eexists _, _. split; [reflexivity|]. split; [now apply (ready_git F U scope r (kinds F r))|easy].
      + assert (k = KRef r) as -> by (inversion H; easy). cbn [db_ask]. match goal with |- context [with_dbs _ _ ?f] => destruct (use_ref F U scope Horder Hscope Hclosed r dbs f H) as (Hr & co & ks & -> & Hready & Hst) end.
        destruct (Hcomp r (KRef r) _ co Hready Hst) as (x & c' & -> & Hst' & Hx). unfold in_ref. cbn [fst snd]. eexists _, _. split; [reflexivity|]. split; [now apply (ready_ref F U scope r ks)|easy].
  Qed.
End Top.

(** ** What is offered and what is found *)
Section Found.
  Context (F : fs) (U : list Z -> bytes -> option pack) (r : list Z) (digits : bytes).
  Hypothesis Hdigits : any_hex digits.
  Lemma offers_named s : git_offers F U r digits s -> named F U r digits s.
  Proof.
    intros (r' & Hr & [[Hl Hb]|(R & d & HR & Hd & n & k & i & Hn & Hk & Hi & Hs)]).
    - split; [exists r'; split; [easy|now right]|]. rewrite lower_same; [easy|]. now apply (begins_lower digits s).
    - apply first_index_at in Hi as (t & Ht & Hin & Hf). assert (t = s) by congruence. subst t. split; [|exact Hf]. exists r'. split; [easy|]. left. now exists R, d, n, k.
  Qed.
  Lemma named_offers s : lower_hex digits -> named F U r digits s -> exists s', git_offers F U r digits s'.
  Proof.
    intros Hlow [(r' & Hr & [(R & d & n & k & HR & Hd & Hn & Hk & Hin)|Hl]) Hb].
    - destruct (first_index_some _ (fun s => startswith (bin_to_hex s) (lower digits)) (k_shas k) s Hin Hb) as (i & Hi). pose proof Hi as Hi'. apply first_index_at in Hi' as (t & Ht & _). exists t, r'. split; [easy|]. right. exists R, d. split; [easy|]. split; [easy|]. now exists n, k, i.
    - exists s, r'. split; [easy|]. left. split; [easy|]. now rewrite lower_same in Hb.
  Qed.
  Lemma packed_offers s s' : named F U r digits s' -> (forall t, named F U r digits t -> t = s) ->
    (lower_hex digits \/ exists r', reaches F r r' /\ in_packs F U r' s) -> git_offers F U r digits s.
  Proof.
    intros Hs' Hu H. assert (s' = s) by now apply Hu. subst s'. destruct H as [Hlow|(r' & Hr & R & d & n & k & HR & Hd & Hn & Hk & Hin)].
    - destruct (named_offers s Hlow Hs') as (t & Ht). pose proof (offers_named t Ht) as Hn. now rewrite (Hu t Hn) in Ht.
    - destruct (first_index_some _ (fun s => startswith (bin_to_hex s) (lower digits)) (k_shas k) s Hin (proj2 Hs')) as (i & Hi). pose proof Hi as Hi'. apply first_index_at in Hi' as (t & Ht & Htin & Hb). exists r'. split; [easy|]. right. exists R, d. split; [easy|]. split; [easy|]. exists n, k, i. split; [easy|]. split; [easy|]. split; [easy|].
      rewrite Ht. f_equal. apply Hu. split; [|easy]. exists r'. split; [easy|]. left. now exists R, d, n, k.
  Qed.
  Lemma settles_completes x : settles (git_offers F U r digits) x -> completes F U r digits x.
  Proof.
    destruct x as [s|e|]; [| |easy].
    - intros [H _]. now apply offers_named.
    - destruct e; try easy; cbn [settles completes].
      + intros H Hlow s Hs. destruct (named_offers s Hlow Hs) as (t & Ht). now apply H in Ht.
      + intros (s & s' & H1 & H2 & H3). exists s, s'. split; [now apply offers_named|]. split; [now apply offers_named|easy].
  Qed.
  Lemma settles_none x : settles (git_offers F U r digits) x -> ~ lower_hex digits -> (forall r' s, reaches F r r' -> in_packs F U r' s -> ~ begins (lower digits) s) -> x = Raise BadObject.
  Proof.
    intros Hx Hup Hno. assert (Hn : forall s, ~ git_offers F U r digits s).
    { intros s (r' & Hr & [[_ Hb]|(R & d & HR & Hd & n & k & i & Hn & Hk & Hi & Hs)]); [now apply Hup, (begins_lower digits s)|].
      apply first_index_at in Hi as (t & Ht & Hin & Hf). apply (Hno r' t Hr); [now exists R, d, n, k|exact Hf]. }
    destruct x as [t|e|]; [now destruct Hx as [Hx _]; apply Hn in Hx| |easy]. destruct e; try easy. now destruct Hx as (s & _ & Hs & _); apply Hn in Hs.
  Qed.
  Lemma settles_only x s : settles (git_offers F U r digits) x -> named F U r digits s -> (forall t, named F U r digits t -> t = s) ->
    (lower_hex digits \/ exists r', reaches F r r' /\ in_packs F U r' s) -> x = Ok s.
  Proof.
    intros Hx Hs Hu Hk. pose proof (packed_offers s s Hs Hu Hk) as Ho. destruct x as [t|e|]; [| |easy].
    - f_equal. apply Hu. apply offers_named. apply Hx.
    - destruct e; try easy; cbn [settles] in Hx; [now apply Hx in Ho|]. destruct Hx as (a & b & Ha & Hb & Hne). apply offers_named in Ha, Hb. apply Hu in Ha, Hb. congruence.
  Qed.
End Found.

(** ** Histories *)
Section Run.
  Context (F : fs) (U : list Z -> bytes -> option pack) (K : zlib) (scope : list Z -> Prop).
  Hypothesis Horder : forall l, Permutation (f_order F l) l.
  Hypothesis Hscope : forall r, scope r -> proper_repo F U r.
  Hypothesis Hclosed : forall r p, scope r -> alternate F r p -> scope p.
  Lemma partial_right m fuel digits r d : any_hex digits -> 3 <= len digits <= 40 -> good F U scope (KGit r) d ->
    exists x d', db_partial F fuel digits d = (x, d') /\ good F U scope (KGit r) d' /\ (settles (git_offers F U r digits) x \/ ~ enough F m fuel (KGit r) /\ x = Diverge).
  Proof.
    intros Hd Hl H. unfold db_partial. destruct (open_ok F U scope Horder Hscope Hclosed m fuel (KGit r) d H) as (x & d1 & -> & H1 & [[Hx ->]| ->]); [eexists _, _; split; [reflexivity|]; split; [easy|now right]|].
    destruct (digits_bin digits Hd) as (b & -> & Hb).
    destruct (ask_ok F U K scope Horder Hscope Hclosed m digits b Hd Hl Hb fuel (KGit r) d1 (fun _ => False) [] H1) as (x & d2 & -> & H2 & Hx); [left; split; [easy|tauto]|].
    eexists _, _. split; [reflexivity|]. split; [easy|]. destruct Hx as [[Hx ->]|[(c & -> & Hc)|[-> (s & s' & Ha & Hb' & Hne)]]]; [now right|left..].
    - destruct Hc as [[-> Hn]|(Hc & Hs & Hu)]; cbn [settles].
      + intros s Hs. apply (Hn s). right. exact Hs.
      + destruct c as [|c0 c]; [easy|]. split; [now destruct Hs|]. intros s' Hs'. apply Hu. right. exact Hs'.
    - exists s, s'. split; [now destruct Ha|]. split; [now destruct Hb'|easy].
  Qed.
  Lemma a_do_right m fuel o r d : a_proper o -> good F U scope (KGit r) d -> exists a d', a_do F K fuel o d = (a, d') /\ good F U scope (KGit r) d' /\
    (a_right F U K m r o a \/ ~ enough F m fuel (KGit r) /\ (m = 0%nat -> a_never a)).
  Proof.
    intros Ho H. destruct o as [o|digits]; cbn [a_do a_proper] in *.
    - destruct (do_right F U K scope Horder Hscope Hclosed m fuel o r d Ho H) as (a & d' & -> & Hd & Ha). eexists _, _. split; [reflexivity|]. split; [easy|exact Ha].
    - destruct (partial_right m fuel digits r d (proj1 Ho) (proj2 Ho) H) as (x & d' & -> & Hd & Hx). eexists _, _. split; [reflexivity|]. split; [easy|]. destruct Hx as [Hx|[Hx ->]]; [now left|now right].
  Qed.
  Lemma a_run_right m fuel r ops : Forall a_proper ops -> forall d, good F U scope (KGit r) d -> exists l d', a_run F K fuel ops d = (l, d') /\ good F U scope (KGit r) d' /\
    Forall2 (fun o a => a_right F U K m r o a \/ ~ enough F m fuel (KGit r) /\ (m = 0%nat -> a_never a)) ops l.
  Proof.
    induction 1 as [|o ops Ho _ IH]; intros d H; cbn [a_run].
    - exists [], d. split; [easy|]. split; [easy|constructor].
    - destruct (a_do_right m fuel o r d Ho H) as (a & d1 & -> & H1 & Ha). destruct (IH d1 H1) as (l & d2 & -> & H2 & Hl). exists (a :: l), d2. split; [easy|]. split; [easy|now constructor].
  Qed.
  Section Endless.
    Context (S : list Z -> Prop) (HS : forall r, S r -> scope r /\ usable F r /\ exists p, alternate F r p /\ S p).
    Lemma walk_endless sel ksel (f : unit -> db -> res unit * db) k0 : (forall k d, good F U scope k d -> sel d = ksel k) ->
      (forall k d, good F U scope k d -> fst (f tt d) = Diverge \/ fst (f tt d) = Ok tt) ->
      (forall d, good F U scope k0 d -> fst (f tt d) = Diverge) -> ksel k0 = true ->
      forall ks l, Forall2 (good F U scope) ks l -> In k0 ks -> fst (walk sel f tt l) = Diverge.
    Proof.
      intros Hsel Hf H0 Hk0. induction 1 as [|k d ks l Hd Hl IH]; intros Hin; [easy|]. cbn [walk].
      assert (Hrest : In k0 ks -> forall a, fst (let (x, l') := walk sel f a l in (x, d :: l')) = Diverge) by (intros H []; specialize (IH H); destruct (walk sel f tt l); exact IH).
      rewrite (Hsel k d Hd). destruct (ksel k) eqn:Ek.
      - specialize (Hf k d Hd). destruct Hin as [-> |Hin].
        + specialize (H0 d Hd). destruct (f tt d) as [x d']. cbn [fst] in *. now subst x.
        + destruct (f tt d) as [x d']. cbn [fst] in *. destruct Hf as [-> | ->]; [easy|]. specialize (IH Hin). destruct (walk sel f tt l). exact IH.
      - destruct Hin as [-> |Hin]; [congruence|]. now apply Hrest.
    Qed.
    Lemma open_endless : forall fuel k d, endless S k -> good F U scope k d -> fst (db_open F fuel d) = Diverge.
    Proof.
      induction fuel as [|fuel IH]; intros k d He Hd; (destruct d as [r s|r known|r dbs|r dbs]; [inversion Hd; subst; easy..| |]); try easy.
      all: assert (Ha : forall k d, good F U scope k d -> fst (db_open F fuel d) = Diverge \/ fst (db_open F fuel d) = Ok tt)
        by (intros k2 d2 H2; destruct (open_ok F U scope Horder Hscope Hclosed 0 fuel k2 d2 H2) as (x & d' & -> & _ & [[_ ->]| ->]); [now left|now right]).
      all: assert (Hc : forall r k ks c, ready F r k ks -> state F U scope ks c -> endless S k -> fst (on_members (walk is_compound (fun _ => db_open F fuel) tt) c) = Diverge)
        by (intros r0 k0 ks c Hready Hst He0; destruct (endless_member F scope S HS r0 k0 ks Hready He0) as (k1 & Hk1 & He1);
            pose proof (walk_endless is_compound kcomp (fun _ => db_open F fuel) k1 (good_comp F U scope) Ha (fun d2 => IH k1 d2 He1) (ltac:(now destruct k1)) ks (c_dbs c) (proj1 Hst) Hk1) as Hw;
            unfold on_members; destruct (walk is_compound (fun _ => db_open F fuel) tt (c_dbs c)); exact Hw).
      - assert (k = KGit r) as -> by (inversion Hd; easy). cbn [db_open]. match goal with |- context [with_dbs _ _ ?f] => destruct (use_git F U scope r dbs f Hd) as (_ & c & -> & Hready & Hst) end.
        exact (Hc r _ _ c Hready Hst He).
      - assert (k = KRef r) as -> by (inversion Hd; easy). cbn [db_open]. match goal with |- context [with_dbs _ _ ?f] => destruct (use_ref F U scope Horder Hscope Hclosed r dbs f Hd) as (_ & c & ks & -> & Hready & Hst) end.
        exact (Hc r _ _ c Hready Hst He).
    Qed.
  End Endless.
End Run.

Section From.
  Context (F : fs) (U : list Z -> bytes -> option pack) (K : zlib) (r : list Z) (H : proper_from F U r).
  Let scope := reaches F r.
  Lemma a_from_run m fuel ops : Forall a_proper ops -> exists l d', a_run F K fuel ops (gitdb r) = (l, d') /\ good F U scope (KGit r) d' /\
    Forall2 (fun o a => a_right F U K m r o a \/ ~ enough F m fuel (KGit r) /\ (m = 0%nat -> a_never a)) ops l.
  Proof. intros Hops. apply (a_run_right F U K scope (from_order F U r H) (from_scope F U r H) (from_closed F r) m fuel r ops Hops). apply (from_new F U r H). Qed.
  Lemma a_any_graph fuel ops l d : Forall a_proper ops -> a_run F K fuel ops (gitdb r) = (l, d) -> Forall2 (fun o a => a_right F U K 0 r o a \/ a_never a) ops l.
  Proof.
    intros Hops E. destruct (a_from_run 0 fuel ops Hops) as (l' & d' & E' & _ & Hl). rewrite E in E'. injection E' as <- <-.
    clear - Hl. induction Hl as [|o a ops l Ha _ IH]; constructor; [|easy]. destruct Ha as [Ha|[_ Ha]]; [now left|right; now apply Ha].
  Qed.
  Lemma a_acyclic m : finite_acyclic F r -> exists N, forall fuel ops l d, (N <= fuel)%nat -> Forall a_proper ops ->
    a_run F K fuel ops (gitdb r) = (l, d) -> Forall2 (a_right F U K m r) ops l.
  Proof.
    intros Hac. destruct (from_enough F U r H m Hac) as (N & HN). exists N. intros fuel ops l d Hf Hops E. destruct (a_from_run m fuel ops Hops) as (l' & d' & E' & _ & Hl). rewrite E in E'. injection E' as <- <-.
    specialize (HN fuel Hf). clear - Hl HN. induction Hl as [|o a ops l Ha _ IH]; constructor; [|easy]. now destruct Ha as [Ha|[Ha _]].
  Qed.
  Lemma a_good fuel ops : Forall a_proper ops -> good F U scope (KGit r) (snd (a_run F K fuel ops (gitdb r))).
  Proof. intros Hops. destruct (a_from_run 0 fuel ops Hops) as (l & d & -> & Hd & _). exact Hd. Qed.
  (** Names are completed in any state, by any amount of fuel that is enough. *)
  Lemma a_partial : finite_acyclic F r -> exists N, forall fuel0 fuel ops digits, (N <= fuel)%nat -> Forall a_proper ops -> any_hex digits -> 3 <= len digits <= 40 ->
    settles (git_offers F U r digits) (fst (db_partial F fuel digits (snd (a_run F K fuel0 ops (gitdb r))))).
  Proof.
    intros Hac. destruct (from_enough F U r H 0 Hac) as (N & HN). exists N. intros fuel0 fuel ops digits Hf Hops Hd Hl.
    destruct (partial_right F U K scope (from_order F U r H) (from_scope F U r H) (from_closed F r) 0 fuel digits r _ Hd Hl (a_good fuel0 ops Hops)) as (x & d' & -> & _ & [Hx|[Hx _]]); [exact Hx|]. now elim Hx; apply HN.
  Qed.
  Lemma a_cycles fuel0 ops r' : reaches F r r' -> clos_trans _ (alternate F) r' r' -> Forall a_proper ops ->
    forall fuel digits, fst (db_partial F fuel digits (snd (a_run F K fuel0 ops (gitdb r)))) = Diverge.
  Proof.
    intros Hr Hc Hops fuel digits. pose proof (a_good fuel0 ops Hops) as Hd.
    set (S := fun x => reaches F r x /\ reaches F x r'). pose proof (to_cycle F U r H r' Hr Hc : forall x, S x -> scope x /\ usable F x /\ exists p, alternate F x p /\ S p) as HS.
    assert (He : endless S (KGit r)) by (split; [apply rt_refl|exact Hr]).
    pose proof (open_endless F U scope (from_order F U r H) (from_scope F U r H) (from_closed F r) S HS fuel (KGit r) _ He Hd) as Ho.
    unfold db_partial. destruct (db_open F fuel _) as [x d']. cbn [fst] in Ho. now subst x.
  Qed.
End From.
