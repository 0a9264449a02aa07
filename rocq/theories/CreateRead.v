(** A created pack, seen by a database over the directory. *)
From Coq Require Import ZifyBool ZifyNat Permutation.
From Verif Require Import Py PyFacts FunModel FunSpec IndexModel IndexSpec ZlibModel ReaderModel PackModel PackSpec StreamSpec PackWriteProofs OsModel OsProofs
  PackDbModel PackDbSpec PackDbProofs PackDbTop CreateModel CreateSpec CreateProofs CreateConc.
Ltac Zify.zify_post_hook ::= Z.div_mod_to_equations.

Lemma assoc_in p i l : NoDup (map fst l) -> assoc p l = Some i <-> In (p, i) l.
Proof.
  induction l as [|[q j] l IH]; cbn [assoc map fst In]; intros Hn; [easy|]. inversion_clear Hn as [|? ? Hq Hl].
  destruct (path_eq_dec q p) as [->|Hne].
  - split; [intros [= ->]; now left|]. intros [[= ->]|Hin]; [easy|]. exfalso. apply Hq. apply in_map_iff. now exists (p, i).
  - rewrite (IH Hl). split; [now right|]. intros [[= -> ->]|Hin]; easy.
Qed.
Lemma dir_at_files base m s n c : wf s -> In (n, Ok c) (d_files (dir_at base m s)) <-> contents s (base ++ [n]) = Some c.
Proof.
  intros Hw. unfold dir_at, contents, lookup. cbn [d_files]. rewrite in_map_iff. split.
  - intros ([p i] & [= <- <-] & Hin). apply filter_In in Hin as [Hin E]. cbn [fst snd] in *. apply path_eqb_eq in E. rewrite <- E.
    apply (assoc_in p i _ (wf_nodup s Hw)) in Hin. now rewrite Hin.
  - destruct (assoc (base ++ [n]) (w_files s)) as [i|] eqn:E; [|easy]. cbn [option_map]. intros [= <-].
    apply (assoc_in _ i _ (wf_nodup s Hw)) in E. exists (base ++ [n], i). cbn [fst snd]. rewrite basename_app. split; [easy|].
    apply filter_In. split; [exact E|]. cbn [fst]. rewrite basename_app. apply path_eqb_refl.
Qed.
Lemma dir_at_nodup base m s : wf s -> NoDup (map fst (d_files (dir_at base m s))).
Proof.
  intros Hw. unfold dir_at. cbn [d_files]. rewrite map_map. cbn [fst]. pose proof (wf_nodup s Hw) as H.
  induction (w_files s) as [|[p i] l IH]; cbn [filter map fst]; [constructor|]. cbn [map fst] in H. inversion_clear H as [|? ? Hp Hl].
  destruct (path_eqb p (base ++ [basename p])) eqn:E; [|now apply IH]. cbn [map fst]. constructor; [|now apply IH].
  intros Hin. apply in_map_iff in Hin as ([q j] & Eb & Hin). cbn [fst] in Eb. apply filter_In in Hin as [Hin Eq]. cbn [fst] in Eq.
  apply path_eqb_eq in E, Eq. rewrite Eb, <- E in Eq. apply Hp. apply in_map_iff. exists (q, j). split; [exact Eq|exact Hin].
Qed.
Lemma dir_at_listed base m s n : wf s -> listed (dir_at base m s) n <-> contents s (base ++ [n]) <> None.
Proof.
  intros Hw. split.
  - intros (c & Hin). assert (exists d, c = Ok d) as (d & ->).
    { unfold dir_at in Hin. cbn [d_files] in Hin. apply in_map_iff in Hin as ([p i] & [= _ <-] & _). now eexists. }
    apply (dir_at_files base m s n d Hw) in Hin. congruence.
  - destruct (contents s (base ++ [n])) as [c|] eqn:E; [|easy]. intros _. exists (Ok c). now apply dir_at_files.
Qed.

Section Alone.
  Context (K : zlib) (sha1 : bytes -> bytes) (pagesize : Z) {R : Type} (oread : R -> Z -> res (bytes * R)).
  Context (O : os) (Hshort : may_fail O KShort = false) (base : path).
  (** What one process that ran alone has done. *)
  Lemma create_alone fuel level objs oc s0 pp s : wf s0 -> runs O (create_pack K sha1 pagesize oread fuel base level objs oc) s0 (Ok pp) s ->
    exists ip pack idx, made K sha1 pagesize oread fuel base (mk_job level objs oc) pp ip pack idx /\
      contents s pp = Some pack /\ contents s ip = Some idx /\ forall p, p <> pp -> p <> ip -> contents s p = contents s0 p.
  Proof.
    intros Hw Hr. set (j := mk_job level objs oc).
    destruct (creators K sha1 pagesize oread fuel O Hshort base [j] s0 [Ret (Ok pp)] s Hw) as (_ & H2 & H3); [now apply steps_interleaved|].
    inversion H2 as [|? ? ? ? Hout]; subst. destruct Hout as (ip & pack & idx & Hm & Hp & Hi). specialize (H3 ltac:(repeat constructor; now exists pp)).
    exists ip, pack, idx. split; [exact Hm|]. split; [|split].
    - destruct Hp as (j' & ip' & pack' & idx' & [<-|[]] & Hm' & E). now destruct (made_same K sha1 pagesize oread fuel base _ _ _ _ _ _ _ _ _ Hm Hm') as (_ & _ & -> & _).
    - destruct Hi as (j' & pp' & pack' & idx' & [<-|[]] & Hm' & E & _). now destruct (made_same K sha1 pagesize oread fuel base _ _ _ _ _ _ _ _ _ Hm Hm') as (_ & _ & _ & ->).
    - clear H2. intros p H1 H2. destruct (H3 p) as [E|[E|E]]; [exact E| |].
      + destruct E as (j' & ip' & pack' & idx' & [<-|[]] & Hm' & _). now destruct (made_same K sha1 pagesize oread fuel base _ _ _ _ _ _ _ _ _ Hm Hm') as (-> & _).
      + destruct E as (j' & pp' & pack' & idx' & [<-|[]] & Hm' & _). now destruct (made_same K sha1 pagesize oread fuel base _ _ _ _ _ _ _ _ _ Hm Hm') as (_ & -> & _).
  Qed.

End Alone.

Section Read.
  Context {K : zlib} (L : zlib_laws K) (sha1 : bytes -> bytes) (Hsha : forall d, len (sha1 d) = 20) (pagesize : Z) (Hps : 0 < pagesize).
  Context {R : Type} (oread : R -> Z -> res (bytes * R)) (content : R -> bytes) (Hrd : chunk_reader pagesize oread content).

  Lemma written_good fuel level objs pack psha idx isha :
    Forall (good_obj content) objs -> Forall sha_ok (map wo_binsha objs) -> NoDup (map wo_binsha objs) -> len objs <= 2 ^ 31 ->
    write_pack K sha1 pagesize oread fuel level objs None = Ok (pack, psha, idx, isha) -> len pack < 2 ^ 64 ->
    exists k ix, good_pack k /\ k_data k = pack /\ k_idx k = idx /\ Permutation (map wo_binsha objs) (k_shas k) /\
      index_open idx = Ok ix /\ forall o, In o objs -> reads_back L content level (mk_entity ix pack) o.
  Proof.
    intros Hg Hok Hnd Hn Hw Hl. destruct (write_read_any L sha1 Hsha pagesize Hps oread content Hrd level objs None Hg Hok Hnd Hn eq_refl) as (v & Hv & Hm).
    rewrite (write_pack_unique sha1 Hsha pagesize oread fuel level objs None _ v Hw ltac:(easy) Hv) in Hm.
    destruct Hm as (_ & Hm). destruct (Hm Hl) as (ix & Ho & Hb & _ & _ & shas & crcs & offs & Hperm & Hsort & Hfile).
    exists (mk_pack 2 shas crcs offs idx pack), ix. cbn [k_data k_idx k_shas]. split; [|easy]. split; [exact Hfile|]. split; [exact Hsort|]. cbn [k_data].
    unfold write_pack in Hw. cbv zeta in Hw. pose proof (len_nonneg _ objs).
    destruct (pack_L (len objs)) as [cnt| |] eqn:Ecnt; [|easy|easy]. cbn [bind] in Hw.
    destruct (write_objs _ _ _ _ _ _ _ _ _) as [[[d ens] n]| |]; [|easy|easy]. cbn [bind] in Hw. destruct (negb _); [easy|].
    unfold py_assert in Hw. destruct (len _ =? 20); [|easy]. destruct (index_write _ _ _) as [[i isha']| |]; [|easy|easy]. cbn [bind] in Hw.
    injection Hw as Hw _ _ _. exists 2, (len objs). eexists. split; [lia|]. split; [change (2 ^ 31) with 2147483648 in Hn; change (2 ^ 32) with 4294967296; lia|].
    rewrite <- Hw. unfold pack_L, pack_be in Ecnt. destruct (_ && _); [|easy]. injection Ecnt as <-.
    change (be_enc 4 1346454347) with [80; 65; 67; 75]. rewrite <- !app_assoc. reflexivity.
  Qed.

  Context (O : os) (Hshort : may_fail O KShort = false) (base : path).
  (** What a database over the directory then finds, if the process has written what [objs] are
      written as. *)
  Lemma created_found_as {R1 : Type} (oread1 : R1 -> Z -> res (bytes * R1)) objs1 fuel level objs s0 pp s U m0 m e :
    (forall v, write_pack K sha1 pagesize oread1 fuel level objs1 None = Ok v -> write_pack K sha1 pagesize oread fuel level objs None = Ok v) ->
    Forall (good_obj content) objs -> Forall sha_ok (map wo_binsha objs) -> NoDup (map wo_binsha objs) -> len objs <= 2 ^ 31 ->
    wf s0 -> wf s -> (forall n, packs_in (dir_at base m0 s0) n -> there U (dir_at base m0 s0) n) ->
    (forall n k, packs_in (dir_at base m0 s0) n -> base ++ [n] = pp -> U n = Some k -> incl (k_shas k) (map wo_binsha objs)) ->
    runs O (create_pack K sha1 pagesize oread1 fuel base level objs1 None) s0 (Ok pp) s ->
    (forall pack, contents s pp = Some pack -> len pack < 2 ^ 64) -> proper_env e (dir_at base m s) ->
    let old sha := exists n k, packs_in (dir_at base m0 s0) n /\ U n = Some k /\ In sha (k_shas k) in
    (forall sha, sha_ok sha -> exists b, fst (has_object e sha packed_init) = Ok b /\ (b = true <-> In sha (map wo_binsha objs) \/ old sha)) /\
    (forall o, In o objs -> (forall n k, packs_in (dir_at base m0 s0) n -> base ++ [n] <> pp -> U n = Some k -> ~ In (wo_binsha o) (k_shas k)) ->
       exists ent, reads_back L content level ent o /\
       (forall f, fst (info K f e (wo_binsha o) packed_init) = entity_info K f ent (wo_binsha o)) /\
       (forall f, fst (stream K f e (wo_binsha o) packed_init) = entity_stream K f ent (wo_binsha o))).
  Proof.
    intros Has Hg Hok Hnd Hn Hw0 Hw Hold Hsame Hr Hsize He old.
    destruct (create_alone K sha1 pagesize oread1 O Hshort base fuel level objs1 None s0 pp s Hw0 Hr) as (ip & pack & idx & Hm & Hp & Hi & Hrest).
    destruct Hm as (psha & isha & name & iname & Ew & Hnames & -> & ->). cbn [j_level j_objs j_count] in Ew. apply Has in Ew.
    destruct (written_good fuel level objs pack psha idx isha Hg Hok Hnd Hn Ew (Hsize _ Hp)) as (k & ix & Hk & <- & <- & Hperm & Hopen & Hback).
    set (d := dir_at base m s) in *.
    assert (Hpair : pack_and_index name iname).
    { destruct Hnames as [-> ->]. exists ([98; 39] ++ bin_to_hex psha ++ [39]). split; now rewrite <- !app_assoc. }
    set (U' := fun n => if beq n name then Some k else U n).
    assert (HU' : U' name = Some k) by (unfold U'; now rewrite beq_refl).
    assert (Hin : packs_in d name) by (split; [apply dir_at_listed; [easy|congruence]|now exists iname]).
    assert (Hin_name : In (name, Ok (k_data k)) (d_files d)) by now apply dir_at_files.
    assert (Hin_iname : In (iname, Ok (k_idx k)) (d_files d)) by now apply dir_at_files.
    assert (Hother : forall n, n <> name -> base ++ [n] <> base ++ [name]) by (intros n Hne E; now apply app_inj_tail in E as [_ E]).
    assert (Hsplit : forall n, packs_in d n <-> n = name \/ packs_in (dir_at base m0 s0) n).
    { intros n. split.
      - intros (H1 & nidx & H2). destruct (list_eq_dec Z.eq_dec n name) as [->|Hne]; [now left|right]. split; [|now exists nidx].
        apply dir_at_listed; [easy|]. apply (dir_at_listed base m s n Hw) in H1. rewrite <- Hrest; [exact H1| |].
        + intros E. apply app_inj_tail in E as [_ E]. easy.
        + intros E. apply app_inj_tail in E as [_ ->]. clear - H2 Hpair. destruct H2 as (x & -> & _), Hpair as (y & _ & E).
          apply (f_equal (fun l => last l 0)) in E. change [46; 112; 97; 99; 107] with ([46; 112; 97; 99] ++ [107]) in E.
          change [46; 105; 100; 120] with ([46; 105; 100] ++ [120]) in E. rewrite !app_assoc, !last_last in E. discriminate.
      - intros [->|(H1 & nidx & H2)]; [exact Hin|]. split; [|now exists nidx]. apply dir_at_listed; [easy|]. apply dir_at_listed in H1; [|easy].
        destruct (list_eq_dec Z.eq_dec n name) as [->|Hne]; [rewrite Hp; discriminate|]. rewrite Hrest; [exact H1| |].
        + intros E. apply app_inj_tail in E as [_ E]. easy.
        + intros E. apply app_inj_tail in E as [_ ->]. clear - H2 Hpair. destruct H2 as (x & -> & _), Hpair as (y & _ & E).
          apply (f_equal (fun l => last l 0)) in E. change [46; 112; 97; 99; 107] with ([46; 112; 97; 99] ++ [107]) in E.
          change [46; 105; 100; 120] with ([46; 105; 100] ++ [120]) in E. rewrite !app_assoc, !last_last in E. discriminate. }
    assert (Hthere : forall n, packs_in d n -> there U' d n).
    { intros n Hnp. destruct (list_eq_dec Z.eq_dec n name) as [->|Hne].
      - exists k, iname. easy.
      - apply Hsplit in Hnp as [->|Hnp]; [easy|]. destruct (Hold n Hnp) as (k' & nidx & H1 & H2 & H3 & H4 & H5). exists k', nidx.
        split; [unfold U'; destruct (beq n name) eqn:E; [apply beq_eq in E; easy|exact H1]|]. split; [exact H2|]. split; [exact H3|].
        apply dir_at_files in H4, H5; try easy.
        assert (Hni : n <> iname /\ nidx <> name /\ nidx <> iname).
        { destruct H3 as (x & -> & ->), Hpair as (y & -> & ->).
          assert (Hl : forall a b, a ++ [46; 112; 97; 99; 107] <> b ++ [46; 105; 100; 120]).
          { intros a b E. apply (f_equal (fun l => last l 0)) in E. change [46; 112; 97; 99; 107] with ([46; 112; 97; 99] ++ [107]) in E.
            change [46; 105; 100; 120] with ([46; 105; 100] ++ [120]) in E. rewrite !app_assoc, !last_last in E. discriminate. }
          split; [rewrite !app_assoc; apply Hl|]. split; [rewrite !app_assoc; intros E; symmetry in E; now apply Hl in E|].
          intros E. apply app_inv_head, app_inv_tail in E as ->. easy. }
        split; apply dir_at_files; try easy; (rewrite Hrest; [easy| |]); intros E; apply app_inj_tail in E as [_ E]; easy. }
    assert (Hprop : forall q, proper_op U' (Query e q) (mk_view None 0)) by (intros q; exists d; split; [exact He|]; split; [intros _; exact Hthere|easy]).
    assert (Hhas : forall sha, (exists n k', pack_has U' (packs_in d) n k' sha) <-> In sha (map wo_binsha objs) \/ old sha).
    { intros sha. split.
      - intros (n & k' & H1 & H2 & H3). apply Hsplit in H1 as [->|H1].
        + left. rewrite HU' in H2. injection H2 as <-. now apply (Permutation_in _ (Permutation_sym Hperm)).
        + unfold U' in H2. destruct (beq n name) eqn:E; [left; injection H2 as <-; now apply (Permutation_in _ (Permutation_sym Hperm))|]. right. now exists n, k'.
      - intros [H1|(n & k' & H1 & H2 & H3)].
        + exists name, k. split; [exact Hin|]. split; [exact HU'|]. now apply (Permutation_in _ Hperm).
        + destruct (beq n name) eqn:E.
          * apply beq_eq in E as ->. exists name, k. split; [exact Hin|]. split; [exact HU'|]. apply (Permutation_in _ Hperm). now apply (Hsame name k' H1 eq_refl H2).
          * exists n, k'. split; [apply Hsplit; now right|]. split; [unfold U'; now rewrite E|exact H3]. }
    assert (Hans : forall q, exists a s', do_op K (Query e q) packed_init = (a, s') /\ right_answer U' (packs_in d) q a).
    { intros q. destruct (run_right U' K [Query e q] (mk_view None 0) packed_init) as (l & s' & v & E & H & _); [split; [apply Hprop|easy]|now split|].
      cbn [run_ops] in E. destruct (do_op K (Query e q) packed_init) as [a s'']. injection E as <- <-.
      inversion H as [|? ? ? ? ? ? ? P HP HR Hrest'|]; subst. exists a, s''. split; [reflexivity|].
      unfold view_after in HP. cbn [op_env] in HP. rewrite (proj1 He) in HP. cbn in HP. injection HP as <-. exact HR. }
    split.
    - intros sha Hsh. destruct (Hans (QHas sha)) as (a & s' & E & H). cbn [do_op] in E. unfold tag in E. injection E as <- _. cbn [right_answer] in H.
      destruct (H Hsh) as (b & E & Hb). exists b. split; [exact E|]. now rewrite Hb, Hhas.
    - intros o Ho Hno. exists (mk_entity ix (k_data k)). split; [now apply Hback|].
      assert (Hsh : sha_ok (wo_binsha o)) by (rewrite Forall_forall in Hok; apply Hok; now apply in_map).
      assert (Hone : forall A (g : entity -> res A) r, by_some_pack U' (packs_in d) (wo_binsha o) g r -> r = g (mk_entity ix (k_data k))).
      { intros A g r [(n & k' & ent & (H1 & H2 & H3) & (H4 & H5) & ->)|(H1 & _)].
        - destruct (list_eq_dec Z.eq_dec n name) as [->|Hne].
          + rewrite HU' in H2. injection H2 as <-. rewrite Hopen in H4. injection H4 as H4. destruct ent. cbn in H4, H5. now subst.
          + apply Hsplit in H1 as [->|H1]; [easy|]. exfalso. apply (Hno n k' H1 (Hother n Hne)); [|exact H3]. unfold U' in H2. destruct (beq n name) eqn:E; [apply beq_eq in E; easy|exact H2].
        - elim (H1 name k). split; [exact Hin|]. split; [exact HU'|]. apply (Permutation_in _ Hperm). now apply in_map. }
      split; intros f.
      + destruct (Hans (QInfo f (wo_binsha o))) as (a & s' & E & H). cbn [do_op] in E. unfold tag in E. injection E as <- _. cbn [right_answer] in H. exact (Hone _ (fun en => entity_info K f en (wo_binsha o)) _ (H Hsh)).
      + destruct (Hans (QStream f (wo_binsha o))) as (a & s' & E & H). cbn [do_op] in E. unfold tag in E. injection E as <- _. cbn [right_answer] in H. exact (Hone _ (fun en => entity_stream K f en (wo_binsha o)) _ (H Hsh)).
  Qed.
  Lemma created_found fuel level objs s0 pp s U m0 m e :
    Forall (good_obj content) objs -> Forall sha_ok (map wo_binsha objs) -> NoDup (map wo_binsha objs) -> len objs <= 2 ^ 31 ->
    wf s0 -> wf s -> (forall n, packs_in (dir_at base m0 s0) n -> there U (dir_at base m0 s0) n) ->
    (forall n k, packs_in (dir_at base m0 s0) n -> base ++ [n] = pp -> U n = Some k -> incl (k_shas k) (map wo_binsha objs)) ->
    runs O (create_pack K sha1 pagesize oread fuel base level objs None) s0 (Ok pp) s ->
    (forall pack, contents s pp = Some pack -> len pack < 2 ^ 64) -> proper_env e (dir_at base m s) ->
    let old sha := exists n k, packs_in (dir_at base m0 s0) n /\ U n = Some k /\ In sha (k_shas k) in
    (forall sha, sha_ok sha -> exists b, fst (has_object e sha packed_init) = Ok b /\ (b = true <-> In sha (map wo_binsha objs) \/ old sha)) /\
    (forall o, In o objs -> (forall n k, packs_in (dir_at base m0 s0) n -> base ++ [n] <> pp -> U n = Some k -> ~ In (wo_binsha o) (k_shas k)) ->
       exists ent, reads_back L content level ent o /\
       (forall f, fst (info K f e (wo_binsha o) packed_init) = entity_info K f ent (wo_binsha o)) /\
       (forall f, fst (stream K f e (wo_binsha o) packed_init) = entity_stream K f ent (wo_binsha o))).
  Proof. now apply created_found_as. Qed.
End Read.
