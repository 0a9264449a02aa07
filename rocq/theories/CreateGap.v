(** The moment in PackEntity.create at which the pack has its name and the index has not. *)
From Coq Require Import ZifyBool ZifyNat Permutation.
From Verif Require Import Py PyFacts FunModel FunSpec IndexModel IndexSpec ZlibModel ReaderModel PackModel PackSpec OsModel OsProofs
  PackDbModel PackDbSpec PackDbProofs PackDbTop PackDbFail CreateModel CreateSpec CreateProofs CreateConc CreateRead.
Ltac Zify.zify_post_hook ::= Z.div_mod_to_equations.

Section Gap.
  Context {K : zlib} (sha1 : bytes -> bytes) (pagesize : Z) {R : Type} (oread : R -> Z -> res (bytes * R)) (fuel : nat).
  Context (O : os) (Hshort : may_fail O KShort = false) (base : path).
  Notation made := (made K sha1 pagesize oread fuel base).
  Notation guar := (guar K sha1 pagesize oread fuel base).

  (** The step that ends the creation. *)
  Lemma reach_done j A (p : prog A) s r s' Q : steps O p s (Ret r) s' -> forall g, wp O (others true) (guar j) p g s Q -> (forall g s, Q r g s -> g = Done) -> g <> Done ->
    forall I : phase -> world -> Prop, (forall g e g' a b, guar j g e g' a b -> I g a -> I g' b) -> I g s ->
    exists q s1 g1 e s2 q1, steps O p s q s1 /\ step O q s1 q1 s2 /\ steps O q1 s2 (Ret r) s' /\ I g1 s1 /\ guar j g1 e Done s1 s2 /\ g1 <> Done.
  Proof.
    intros H. remember (Ret r) as z eqn:Ez. induction H as [p s|p s p1 s1 p2 s2 H1 H2 IH]; intros g Hwp HQ Hg I HI Hi.
    - subst p. cbn [wp] in Hwp. now elim Hg; apply (HQ g s).
    - destruct p as [r0|B c k]; [easy|]. pose proof H1 as (a & Hs & ->). destruct (Hwp s a s1 (others_refl true g s) Hs) as (g' & HG & Hk).
      assert (Hdec : g' = Done \/ g' <> Done) by (destruct g'; auto; right; discriminate). destruct Hdec as [->|Hne].
      + exists (Call c k), s, g, (Ev c a), s1, (k a). split; [apply steps_refl|]. repeat (split; [easy|]). easy.
      + destruct (IH Ez g' Hk HQ Hne I HI (HI _ _ _ _ _ HG Hi)) as (q & t1 & g1 & e & t2 & q1 & J1 & J). exists q, t1, g1, e, t2, q1. split; [|exact J]. eapply steps_one; [exact H1|exact J1].
  Qed.

  Lemma gap level objs oc s0 pp s ip pack idx : wf s0 -> runs O (create_pack K sha1 pagesize oread fuel base level objs oc) s0 (Ok pp) s ->
    made (mk_job level objs oc) pp ip pack idx -> contents s0 ip = None ->
    exists q s1, steps O (create_pack K sha1 pagesize oread fuel base level objs oc) s0 q s1 /\ steps O q s1 (Ret (Ok pp)) s /\ contents s1 pp <> None /\ contents s1 ip = None /\
      (forall p, scanned base p -> p <> pp -> contents s1 p = contents s0 p) /\ (contents s0 pp = None -> contents s1 pp = Some pack).
  Proof.
    intros Hw Hr Hm Hn. set (j := mk_job level objs oc) in *.
    pose proof (wp_create K sha1 pagesize oread fuel O Hshort base true j s0 s0 Hw ltac:(easy)) as Hwp.
    assert (Hsc : scanned base pp /\ scanned base ip) by (apply (made_scanned K sha1 pagesize oread fuel base _ _ _ _ _ Hm)). destruct Hsc as [Hsp Hsi].
    assert (Hne : pp <> ip).
    { destruct Hm as (psha & isha & name & iname & _ & (-> & ->) & -> & ->). intros E. apply app_inj_tail in E as [_ E].
      apply app_inv_head in E. apply app_inv_head in E. discriminate. }
    assert (Hl0 : lookup s0 ip = None) by (unfold contents in Hn; destruct (lookup s0 ip); [discriminate|reflexivity]).
    set (I := fun (g : phase) (s : world) => match g with Done => True | Packed _ _ => lookup s ip = None /\ lookup s pp <> None | _ => lookup s ip = None end).
    destruct (reach_done j _ _ _ _ _ _ Hr Start Hwp) with (I := I) as (q & s1 & g1 & e & s2 & q1 & H1 & H2 & H3 & Hi & Hg & Hg1).
    - intros g s' [-> _]. reflexivity.
    - discriminate.
    - intros g e g' a b H Hi. destruct H as [g a|a t Ht _|a t1 f1 t Ht _|g a t fd d Hin Hl|a t1 f1 t2 f2 pp' ip' pack' idx' Hm' Hl Hd|a t2 f2 pp' ip' pack' idx' Hm' Hl Hd]; cbn [I] in *.
      + exact Hi.
      + rewrite lookup_create. destruct (path_eq_dec ip t) as [<-|]; [elim (scratch_not_scanned base _ Ht Hsi)|exact Hi].
      + rewrite lookup_create. destruct (path_eq_dec ip t) as [<-|]; [elim (scratch_not_scanned base _ Ht Hsi)|exact Hi].
      + destruct g; cbn [I]; rewrite ?lookup_set_data; exact Hi.
      + destruct (made_same K sha1 pagesize oread fuel base _ _ _ _ _ _ _ _ _ Hm Hm') as (<- & _ & _ & _). rewrite !lookup_link, !lookup_unlink.
        destruct (path_eq_dec ip pp) as [E|_]; [now elim Hne|]. destruct (path_eq_dec pp pp) as [_|E]; [|now elim E]. split; [destruct (path_eq_dec ip t1); [reflexivity|exact Hi]|discriminate].
      + exact Logic.I.
    - exact Hl0.
    - assert (Hs1 : lookup s1 ip = None /\ lookup s1 pp <> None).
      { revert Hi Hg1. unfold CreateProofs.guar in Hg. inversion Hg; subst; intros Hi Hg1; try (now elim Hg1). exact Hi. }
      assert (Hc : contents s1 ip = None) by (unfold contents; now rewrite (proj1 Hs1)).
      assert (Hvis : forall p, scanned base p -> p <> pp -> contents s1 p = contents s0 p).
      { intros p Hp Hpp. destruct (creators K sha1 pagesize oread fuel O Hshort base [j] s0 [q] s1 Hw) as (Hc1 & _); [now apply steps_interleaved|].
        destruct (Hc1 p) as [E|[[E _]|[E|E]]]; [exact E|elim (scratch_not_scanned base p E Hp)| |].
        - destruct E as (j' & ip' & pack' & idx' & [<-|[]] & Hm' & _). destruct (made_same K sha1 pagesize oread fuel base _ _ _ _ _ _ _ _ _ Hm Hm') as (E & _). now elim Hpp.
        - destruct E as (j' & pp' & pack' & idx' & [<-|[]] & Hm' & E & _). destruct (made_same K sha1 pagesize oread fuel base _ _ _ _ _ _ _ _ _ Hm Hm') as (_ & <- & _). congruence. }
      exists q, s1. split; [exact H1|]. split; [eapply steps_one; [exact H2|exact H3]|]. split; [unfold contents; destruct (lookup s1 pp); [discriminate|now elim (proj2 Hs1)]|].
      split; [exact Hc|]. split; [exact Hvis|]. intros Hpn.
      destruct (creators K sha1 pagesize oread fuel O Hshort base [j] s0 [q] s1 Hw) as (Hc1 & _); [now apply steps_interleaved|].
      destruct (Hc1 pp) as [E|[[E _]|[E|E]]].
      + rewrite Hpn in E. unfold contents in E. destruct (lookup s1 pp); [discriminate|now elim (proj2 Hs1)].
      + elim (scratch_not_scanned base pp E Hsp).
      + destruct E as (j' & ip' & pack' & idx' & [<-|[]] & Hm' & E). now destruct (made_same K sha1 pagesize oread fuel base _ _ _ _ _ _ _ _ _ Hm Hm') as (_ & _ & -> & _).
      + destruct E as (j' & pp' & pack' & idx' & [<-|[]] & Hm' & E & _). destruct (made_same K sha1 pagesize oread fuel base _ _ _ _ _ _ _ _ _ Hm Hm') as (_ & E' & _). now elim Hne.
  Qed.

  Lemma pack_head_of level objs oc pack psha idx isha : write_pack K sha1 pagesize oread fuel level objs oc = Ok (pack, psha, idx, isha) ->
    exists n rest, 0 <= n < 2 ^ 32 /\ pack = [80; 65; 67; 75] ++ be_enc 4 2 ++ be_enc 4 n ++ rest.
  Proof.
    intros Hw. unfold write_pack in Hw. cbv zeta in Hw. set (n := match oc with None => _ | Some x => _ end) in *.
    destruct (pack_L n) as [cnt| |] eqn:Ecnt; [|discriminate|discriminate]. cbn [bind] in Hw.
    destruct (write_objs _ _ _ _ _ _ _ _ _) as [[[d ens] k]| |]; [|discriminate|discriminate]. cbn [bind] in Hw. destruct (negb _); [discriminate|].
    unfold py_assert in Hw. destruct (len _ =? 20); [|discriminate]. destruct (index_write _ _ _) as [[i isha']| |]; [|discriminate|discriminate]. cbn [bind] in Hw.
    injection Hw as Hw _ _ _. unfold pack_L, pack_be in Ecnt. destruct ((0 <=? n) && _) eqn:E; [|discriminate]. injection Ecnt as <-.
    exists n. eexists. split; [change (2 ^ 32) with 4294967296; change (2 ^ (8 * Z.of_nat 4)) with 4294967296 in E; lia|]. rewrite <- Hw.
    change (be_enc 4 1346454347) with [80; 65; 67; 75]. rewrite <- !app_assoc. reflexivity.
  Qed.

  (** A database that is asked for the first time at that moment. *)
  Lemma gap_seen level objs oc s0 pp s : wf s0 -> runs O (create_pack K sha1 pagesize oread fuel base level objs oc) s0 (Ok pp) s ->
    exists name iname, pack_and_index name iname /\ pp = base ++ [name] /\ (contents s0 (base ++ [iname]) = None ->
    exists q s1, steps O (create_pack K sha1 pagesize oread fuel base level objs oc) s0 q s1 /\ steps O q s1 (Ret (Ok pp)) s /\ contents s1 pp <> None /\ contents s1 (base ++ [iname]) = None /\
      forall U m e, (forall n, packs_in (dir_at base m s0) n -> there U (dir_at base m s0) n) -> contents s0 pp = None -> proper_env e (dir_at base m s1) ->
        fst (size e packed_init) = Raise FileNotFound /\ fst (sha_iter e packed_init) = Raise FileNotFound /\
        forall sha, sha_ok sha -> (forall n k, packs_in (dir_at base m s0) n -> U n = Some k -> ~ In sha (k_shas k)) -> fst (has_object e sha packed_init) = Raise FileNotFound).
  Proof.
    intros Hw Hr. destruct (create_alone K sha1 pagesize oread O Hshort base fuel level objs oc s0 pp s Hw Hr) as (ip & pack & idx & Hm & _).
    pose proof Hm as (psha & isha & name & iname & Ew & Hnames & -> & ->). cbn [j_level j_objs j_count] in Ew.
    assert (Hpair : pack_and_index name iname).
    { destruct Hnames as [-> ->]. exists ([98; 39] ++ bin_to_hex psha ++ [39]). split; now rewrite <- !app_assoc. }
    exists name, iname. split; [exact Hpair|]. split; [reflexivity|]. intros Hn.
    destruct (gap level objs oc s0 _ s _ _ _ Hw Hr Hm Hn) as (q & s1 & H1 & H2 & H3 & H4 & Hvis & Hdata). exists q, s1. do 4 (split; [assumption|]).
    intros U m e Hold Hpn He. pose proof (steps_wf _ _ _ _ _ _ H1 Hw) as Hw1. specialize (Hdata Hpn). destruct (pack_head_of _ _ _ _ _ _ _ Ew) as (n & rest & Hcount & Hpack).
    set (d := dir_at base m s1) in *.
    assert (Hopen : openable d name n pack) by (split; [now apply dir_at_files|]; exists 2, rest; split; [lia|]; split; [exact Hcount|exact Hpack]).
    assert (Hin : packs_in d name) by (split; [apply dir_at_listed; [easy|congruence]|now exists iname]).
    assert (Hno : ~ listed d iname) by (intros H; apply dir_at_listed in H; [now apply H|easy]).
    assert (Hother : forall n', packs_in d n' -> n' <> name -> packs_in (dir_at base m s0) n' /\ there U d n').
    { intros n' (Hl & nidx & Hp) Hne. apply (dir_at_listed base m s1 n' Hw1) in Hl.
      assert (Hsame : forall x, (x = n' \/ x = nidx) -> x <> name -> contents s1 (base ++ [x]) = contents s0 (base ++ [x])).
      { intros x Hx Hxn. apply Hvis; [exists n', nidx; split; [exact Hp|]; destruct Hx as [-> | ->]; auto|]. intros E. apply app_inj_tail in E as [_ E]. easy. }
      assert (Hin0 : packs_in (dir_at base m s0) n') by (split; [apply dir_at_listed; [easy|]; rewrite <- (Hsame n' (or_introl eq_refl) Hne); exact Hl|now exists nidx]).
      split; [exact Hin0|]. destruct (Hold n' Hin0) as (k & x & E1 & E2 & E3 & E4 & E5). exists k, x. split; [exact E1|]. split; [exact E2|]. split; [exact E3|].
      assert (x = nidx) as ->. { destruct E3 as (y & -> & ->), Hp as (y' & E & ->). apply app_inv_head in E. apply app_inv_tail in E. now rewrite E. }
      apply dir_at_files in E4; [|exact Hw]. apply dir_at_files in E5; [|exact Hw]. split; apply dir_at_files; try exact Hw1; rewrite Hsame; auto.
      intros ->. destruct E3 as (y & _ & E), Hpair as (y' & E' & _). rewrite E' in E. apply (f_equal (fun l => last l 0)) in E.
      change [46; 112; 97; 99; 107] with ([46; 112; 97; 99] ++ [107]) in E. change [46; 105; 100; 120] with ([46; 105; 100] ++ [120]) in E. rewrite !app_assoc, !last_last in E. discriminate. }
    destruct (all_no_index U e d name iname n pack He Hin Hopen Hpair Hno (fun n' H1 H2 => proj2 (Hother n' H1 H2))) as [A B]. split; [exact A|]. split; [exact B|].
    intros sha Hs Hnone. apply (has_no_index U e d name iname n pack He Hin Hopen Hpair Hno (fun n' H1 H2 => proj2 (Hother n' H1 H2)) sha Hs).
    intros n' k v c rest' J1 J2 J3 J4. elim (Hnone n' k (proj1 (Hother n' J1 J2)) J3 J4).
  Qed.
End Gap.
