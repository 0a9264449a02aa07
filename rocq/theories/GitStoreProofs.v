(** Proofs about GitStoreModel: only loose objects are added, so what was known stays right. *)
From Coq Require Import ZifyBool ZifyNat Permutation Relations Sorting.Sorted.
From Verif Require Import Py PyFacts FunModel FunSpec FunProofs IndexModel IndexSpec ZlibModel ReaderModel StreamSpec ReaderProofs PackModel PackSpec PackCheckProofs OsModel OsProofs LooseModel LooseSpec LooseProofs LooseTop LooseQuery LooseMain
  PackDbModel PackDbSpec PackDbProofs PackDbTop CreateSpec CreateRead MemModel MemProofs CompoundModel CompoundSpec CompoundProofs GitModel GitSpec GitProofs GitTop GitMain GitGrow GitRoots GitFinal
  GitStoreModel GitStoreSpec.
Ltac Zify.zify_post_hook ::= Z.div_mod_to_equations.
Local Notation contents := OsModel.contents.

(** ** Only loose objects added *)
Section Good.
  Context (F : fs) (U : list Z -> bytes -> option pack) (scope : list Z -> Prop).
  Section Ind.
    Context (P : GitTop.kind -> db -> Prop).
    Context (Hp : forall r s v R d, scope r -> f_repo F r = Some R -> r_pack R = Some d -> rep (U r) v s ->
      (v_known v = None \/ exists P, v_known v = Some P /\ forall n, P n <-> packs_in d n) -> P (KPacked r) (Packed r s)).
    Context (Hl : forall r known R, scope r -> f_repo F r = Some R -> (forall sha, In sha known -> is_loose_in F r sha) -> P (KLoose r) (Loose r known)).
    Context (Hgn : forall r, scope r -> usable F r -> P (KGit r) (Git r None)).
    Context (Hg : forall r c, scope r -> usable F r -> Forall2 P (kinds F r) (c_dbs c) -> cache_ok F U (kinds F r) c -> P (KGit r) (Git r (Some c))).
    Context (Hrn : forall r R, scope r -> f_repo F r = Some R -> P (KRef r) (Ref r None)).
    Context (Hr : forall r R ks c, scope r -> f_repo F r = Some R -> ref_kinds F r ks -> Forall2 P ks (c_dbs c) -> cache_ok F U ks c -> P (KRef r) (Ref r (Some c))).
    Fixpoint good_ind' k d (x : good F U scope k d) : P k d :=
      match x in good _ _ _ k d return P k d with
      | good_packed _ _ _ r s v R d H1 H2 H3 H4 H5 => Hp r s v R d H1 H2 H3 H4 H5
      | good_loose _ _ _ r known R H1 H2 H3 => Hl r known R H1 H2 H3
      | good_git_new _ _ _ r H1 H2 => Hgn r H1 H2
      | good_git _ _ _ r c H1 H2 H3 H4 => Hg r c H1 H2
          ((fix go ks l (y : Forall2 (good F U scope) ks l) : Forall2 P ks l :=
              match y in Forall2 _ ks l return Forall2 P ks l with
              | Forall2_nil _ => Forall2_nil P
              | Forall2_cons k d h t => Forall2_cons k d (good_ind' k d h) (go _ _ t)
              end) _ _ H3) H4
      | good_ref_new _ _ _ r R H1 H2 => Hrn r R H1 H2
      | good_ref _ _ _ r R ks c H1 H2 H3 H4 H5 => Hr r R ks c H1 H2 H3
          ((fix go ks l (y : Forall2 (good F U scope) ks l) : Forall2 P ks l :=
              match y in Forall2 _ ks l return Forall2 P ks l with
              | Forall2_nil _ => Forall2_nil P
              | Forall2_cons k d h t => Forall2_cons k d (good_ind' k d h) (go _ _ t)
              end) _ _ H4) H5
      end.
  End Ind.
End Good.

(** Loose objects were added, and nothing else happened. *)
Definition only_loose (F F' : fs) : Prop :=
  f_order F' = f_order F /\
  forall r, match f_repo F r, f_repo F' r with
            | None, None => True
            | Some R, Some R' => (match r_pack R, r_pack R' with None, None => True | Some d, Some d' => forall n, packs_in d n <-> packs_in d' n | _, _ => False end) /\
                r_alt R' = r_alt R /\ incl (map fst (r_loose R)) (map fst (r_loose R'))
            | _, _ => False
            end.
Section Added.
  Context (F F' : fs) (U : list Z -> bytes -> option pack) (H : only_loose F F').
  Lemma add_repo r R : f_repo F r = Some R -> exists R', f_repo F' r = Some R' /\
    (match r_pack R, r_pack R' with None, None => True | Some d, Some d' => forall n, packs_in d n <-> packs_in d' n | _, _ => False end) /\
    r_alt R' = r_alt R /\ incl (map fst (r_loose R)) (map fst (r_loose R')).
  Proof. intros HR. destruct H as [_ Hr]. specialize (Hr r). rewrite HR in Hr. destruct (f_repo F' r) as [R'|]; [now exists R'|easy]. Qed.
  Lemma add_repo' r R' : f_repo F' r = Some R' -> exists R, f_repo F r = Some R.
  Proof. intros HR. destruct H as [_ Hr]. specialize (Hr r). rewrite HR in Hr. destruct (f_repo F r) as [R|]; [now exists R|easy]. Qed.
  Lemma add_usable r : usable F r <-> usable F' r.
  Proof.
    split; intros [Hne (R & HR)]; (split; [easy|]).
    - destruct (add_repo r R HR) as (R' & HR' & _). now exists R'.
    - exact (add_repo' r R HR).
  Qed.
  Lemma add_alternate r p : alternate F r p <-> alternate F' r p.
  Proof.
    unfold alternate. rewrite <- add_usable. split; intros ((R & text & HR & Ha & Hl) & Hu); (split; [|easy]).
    - destruct (add_repo r R HR) as (R' & HR' & _ & Ha' & _). exists R', text. now rewrite Ha'.
    - destruct (add_repo' r R HR) as (R0 & HR0). destruct (add_repo r R0 HR0) as (R' & HR' & _ & Ha' & _). rewrite HR in HR'. injection HR' as <-.
      exists R0, text. now rewrite <- Ha'.
  Qed.
  Lemma add_reaches r p : reaches F r p <-> reaches F' r p.
  Proof.
    split; intros Hr; (induction Hr as [x y Hxy|x|x y z _ IH1 _ IH2]; [apply rt_step; now apply add_alternate|apply rt_refl|now apply rt_trans with y]).
  Qed.
  Lemma add_kinds r : kinds F' r = kinds F r.
  Proof.
    unfold kinds, git_members. destruct H as [_ Hr]. specialize (Hr r). destruct (f_repo F r) as [R|], (f_repo F' r) as [R'|]; try easy.
    destruct Hr as (Hp & Ha & _). rewrite Ha. destruct (r_pack R), (r_pack R'); easy.
  Qed.
  Lemma add_packs r sha : in_packs F U r sha <-> in_packs F' U r sha.
  Proof.
    split; intros (R & d & n & k & HR & Hd & Hn & Hk).
    - destruct (add_repo r R HR) as (R' & HR' & Hp & _). rewrite Hd in Hp. destruct (r_pack R') as [d'|] eqn:Ed; [|easy]. exists R', d', n, k. split; [easy|]. split; [easy|].
      split; [now apply Hp|easy].
    - destruct (add_repo' r R HR) as (R0 & HR0). destruct (add_repo r R0 HR0) as (R' & HR' & Hp & _). rewrite HR in HR'. injection HR' as <-.
      rewrite Hd in Hp. destruct (r_pack R0) as [d0|] eqn:Ed; [|easy]. exists R0, d0, n, k. split; [easy|]. split; [easy|]. split; [now apply Hp|easy].
  Qed.
  Lemma add_loose r sha : is_loose_in F r sha -> is_loose_in F' r sha.
  Proof.
    intros (R & c & HR & Hin). destruct (add_repo r R HR) as (R' & HR' & _ & _ & Hi).
    assert (In sha (map fst (r_loose R'))) as H' by (apply Hi; apply in_map_iff; now exists (sha, c)). apply in_map_iff in H' as ([x c'] & E & H'). cbn [fst] in E. subst x. now exists R', c'.
  Qed.
  Lemma add_found r sha : found F U r sha -> found F' U r sha.
  Proof.
    intros (r' & Hr & [Hh|Hh]); exists r'; (split; [now apply add_reaches|]); [left; now apply add_packs|right; now apply add_loose].
  Qed.
  Lemma add_content sha k : content F U sha k -> content F' U sha k.
  Proof.
    destruct k as [r|r|r|r]; cbn [content]; [apply add_packs|apply add_loose|apply add_found|]. intros (p & Hp & Hf). exists p. split; [now apply add_alternate|now apply add_found].
  Qed.
  Lemma add_cache ks c : cache_ok F U ks c -> cache_ok F' U ks c.
  Proof. intros Hc sha i Hs Hi. destruct (Hc sha i Hs Hi) as (k & Hk1 & Hk2). exists k. split; [easy|now apply add_content]. Qed.
  Lemma add_good (scope scope' : list Z -> Prop) k d : (forall r, scope r -> scope' r) -> good F U scope k d -> good F' U scope' k d.
  Proof.
    intros Hsc Hd. induction Hd as [r s v R d Hr HR Hp Hrep Hv|r known R Hr HR Hk|r Hr Hu|r c Hr Hu Hl Hc|r R Hr HR|r R ks c Hr HR Hks Hl Hc] using good_ind'.
    - destruct (add_repo r R HR) as (R' & HR' & Hpk & _). rewrite Hp in Hpk. destruct (r_pack R') as [d'|] eqn:Ed; [|easy].
      apply (good_packed F' U scope' r s v R' d'); try easy; [now apply Hsc|]. destruct Hv as [Hv|(P & Hv & HP)]; [now left|right]. exists P. split; [easy|]. intros n. now rewrite HP.
    - destruct (add_repo r R HR) as (R' & HR' & _). apply (good_loose F' U scope' r known R'); [now apply Hsc|easy|]. intros sha Hs. apply add_loose. now apply Hk.
    - apply good_git_new; [now apply Hsc|now apply add_usable].
    - apply good_git; [now apply Hsc|now apply add_usable|now rewrite add_kinds|]. rewrite add_kinds. now apply add_cache.
    - destruct (add_repo r R HR) as (R' & HR' & _). apply (good_ref_new F' U scope' r R'); [now apply Hsc|easy].
    - destruct (add_repo r R HR) as (R' & HR' & _). apply (good_ref F' U scope' r R' ks); [now apply Hsc|easy| |easy|now apply add_cache].
      destruct Hks as (ps & -> & Hn & Hps). exists ps. split; [easy|]. split; [easy|]. intros p. rewrite <- add_alternate. apply Hps.
  Qed.
  Lemma add_enough m n k : enough F m n k -> enough F' m n k.
  Proof.
    induction 1 as [n r Hm|n r|n r _ IH|n r _ IH]; constructor; [easy| |].
    - intros k Hk. apply IH. now rewrite add_kinds in Hk.
    - intros p Hp. apply IH. now apply add_alternate.
  Qed.
End Added.
Lemma only_loose_refl F : only_loose F F.
Proof. split; [easy|]. intros r. destruct (f_repo F r) as [R|]; [|easy]. split; [now destruct (r_pack R)|]. split; [easy|apply incl_refl]. Qed.

(** ** What a store does to the repositories *)
Lemma bin_hex_ok sha : sha_ok sha -> hex_to_bin (bin_to_hex sha) = Ok sha.
Proof. intros [_ H]. now apply hex_to_bin_to_hex. Qed.
Lemma hex_val_range c v : hex_val c = Some v -> 0 <= v < 16.
Proof.
  unfold hex_val. destruct ((48 <=? c) && (c <=? 57)) eqn:E1; [intros [= <-]; lia|]. destruct ((97 <=? c) && (c <=? 102)) eqn:E2; [intros [= <-]; lia|].
  destruct ((65 <=? c) && (c <=? 70)) eqn:E3; [intros [= <-]; lia|easy].
Qed.
Lemma hex_to_bin_bytes : forall n h b, (length h <= n)%nat -> hex_to_bin h = Ok b -> is_bytes b.
Proof.
  induction n as [|n IH]; intros [|x [|y h]] b Hn E; cbn [length] in Hn; try lia; cbn [hex_to_bin] in E; try (injection E as <-; constructor); try discriminate.
  destruct (hex_val x) as [vx|] eqn:Ex; [|discriminate]. destruct (hex_val y) as [vy|] eqn:Ey; [|discriminate].
  destruct (hex_to_bin h) as [r| |] eqn:Eh; cbn [bind] in E; try discriminate. apply hex_val_range in Ex, Ey. assert (b = 16 * vx + vy :: r) as -> by (injection E as <-; now destruct vx).
  constructor; [unfold is_byte; lia|]. apply (IH h); [lia|easy].
Qed.
Lemma object_last root sha root' a b : object_file root sha = root' ++ [a; b] -> root = root' /\ a = firstn 2 (bin_to_hex sha) /\ b = skipn 2 (bin_to_hex sha).
Proof.
  unfold object_file. intros E. change [firstn 2 (bin_to_hex sha); skipn 2 (bin_to_hex sha)] with ([firstn 2 (bin_to_hex sha)] ++ [skipn 2 (bin_to_hex sha)]) in E.
  change [a; b] with ([a] ++ [b]) in E. rewrite !app_assoc in E. apply app_inj_tail in E as [E E2]. apply app_inj_tail in E as [E E1]. now subst.
Qed.
Section Disk.
  Context (D : disk).
  Lemma loose_at_in p s sha c : wf s -> In (sha, c) (loose_at p s) <-> sha_ok sha /\ exists z, contents s (object_file p sha) = Some z /\ c = mapped z.
  Proof.
    intros Hw. unfold loose_at. rewrite in_flat_map. split.
    - intros ([q i] & Hin & H). cbn [fst snd] in H. destruct (hex_to_bin _) as [x| |] eqn:Eh; [|easy..]. destruct (path_eqb q (object_file p x) && (len x =? 20)) eqn:Eb; [|easy].
      destruct H as [[= -> <-]|[]]. apply andb_true_iff in Eb as [E1 E2]. apply path_eqb_eq in E1. subst q. split; [split; [lia|now apply (hex_to_bin_bytes _ _ _ (Nat.le_refl _)) in Eh]|].
      exists (w_data s i). split; [|easy]. unfold contents, lookup. now apply (assoc_in _ i _ (wf_nodup s Hw)) in Hin as ->.
    - intros (Hs & z & Hz & ->). unfold contents, lookup in Hz. destruct (assoc (object_file p sha) (w_files s)) as [i|] eqn:E; [|easy]. cbn [option_map] in Hz. injection Hz as <-.
      apply (assoc_in _ i _ (wf_nodup s Hw)) in E. exists (object_file p sha, i). split; [easy|]. cbn [fst snd]. destruct (object_name_parts p sha Hs) as (-> & _).
      rewrite bin_hex_ok by easy. unfold path_eqb. destruct (path_eq_dec _ _); [|easy]. destruct Hs as [Hl _]. replace (len sha =? 20) with true by lia. now left.
  Qed.
  Lemma loose_at_nodup p s : wf s -> NoDup (map fst (loose_at p s)).
  Proof.
    intros Hw. unfold loose_at. pose proof (wf_nodup s Hw) as H. induction (w_files s) as [|[q i] l IH]; [constructor|]. cbn [flat_map fst snd]. cbn [map fst] in H. inversion_clear H as [|? ? Hq Hl].
    specialize (IH Hl). destruct (hex_to_bin _) as [x| |]; [|easy..]. destruct (path_eqb q (object_file p x) && (len x =? 20)) eqn:Eb; [|easy]. cbn [app map fst]. constructor; [|easy].
    apply andb_true_iff in Eb as [E1 _]. apply path_eqb_eq in E1. intros Hin. apply in_map_iff in Hin as ([x' c] & E & Hin). cbn [fst] in E. subst x'. apply Hq. rewrite E1.
    apply in_flat_map in Hin as ([q' i'] & Hin & Hx). cbn [fst snd] in Hx. destruct (hex_to_bin _) as [y| |]; [|easy..]. destruct (path_eqb q' (object_file p y) && (len y =? 20)) eqn:Eb; [|easy].
    destruct Hx as [[= -> _]|[]]. apply andb_true_iff in Eb as [E2 _]. apply path_eqb_eq in E2. rewrite <- E2. apply in_map_iff. now exists (q', i').
  Qed.
  (** Object files and temporary files appear, nothing else changes. *)
  Definition added (s s' : world) : Prop :=
    wf s' /\ forall p, contents s' p = contents s p \/
      (contents s p = None /\ ((exists root sha, sha_ok sha /\ p = object_file root sha /\ contents s' p <> None) \/ exists root, temp_file root p)).
  Lemma added_refl s : wf s -> added s s.
  Proof. intros Hw. split; [easy|]. intros p. now left. Qed.
  Lemma added_object s s' p sha z : sha_ok sha -> added s s' -> contents s (object_file p sha) = Some z -> contents s' (object_file p sha) = Some z.
  Proof. intros Hs [_ H] Hz. destruct (H (object_file p sha)) as [E|(E & _)]; congruence. Qed.
  Lemma added_pack_file s s' p n idx : added s s' -> pack_and_index n idx -> contents s' (pack_dir p ++ [n]) = contents s (pack_dir p ++ [n]) /\ contents s' (pack_dir p ++ [idx]) = contents s (pack_dir p ++ [idx]).
  Proof.
    intros [_ H] (x & -> & ->).
    assert (Hgen : forall y, contents s' (pack_dir p ++ [112 :: y]) = contents s (pack_dir p ++ [112 :: y])).
    { intros y. destruct (H (pack_dir p ++ [112 :: y])) as [E|(_ & [(root & sha & Hs & E & _)|(root & suf & _ & E)])]; [easy| |]; exfalso.
      - unfold pack_dir in E. rewrite <- app_assoc in E. symmetry in E. apply object_last in E as (_ & E & _). apply (f_equal len) in E. rewrite len_firstn, bin_to_hex_len in E. destruct Hs as [Hl _]. rewrite Hl in E. discriminate.
      - apply app_inj_tail in E as [_ E]. discriminate. }
    split; apply Hgen.
  Qed.
  Lemma added_alternates s s' p : added s s' -> contents s' (alternates_file p) = contents s (alternates_file p).
  Proof.
    intros [_ H]. destruct (H (alternates_file p)) as [E|(_ & [(root & sha & Hs & E & _)|(root & suf & _ & E)])]; [easy| |]; exfalso.
    - unfold alternates_file in E. symmetry in E. apply object_last in E as (_ & E & _). apply (f_equal len) in E. rewrite len_firstn, bin_to_hex_len in E. destruct Hs as [Hl _]. rewrite Hl in E. discriminate.
    - unfold alternates_file in E. change [[105; 110; 102; 111]; [97; 108; 116; 101; 114; 110; 97; 116; 101; 115]] with ([[105; 110; 102; 111]] ++ [[97; 108; 116; 101; 114; 110; 97; 116; 101; 115]]) in E.
      rewrite app_assoc in E. apply app_inj_tail in E as [_ E]. discriminate.
  Qed.
  Lemma added_packs_in s s' p m n : wf s -> added s s' -> packs_in (dir_at (pack_dir p) m s) n <-> packs_in (dir_at (pack_dir p) m s') n.
  Proof.
    intros Hw Ha. assert (Hw' : wf s') by apply Ha. unfold packs_in. split; intros (Hn & idx & Hi); (split; [|now exists idx]);
      apply (dir_at_listed (pack_dir p) m _ n) in Hn; try easy; apply (dir_at_listed (pack_dir p) m _ n); try easy; destruct (added_pack_file s s' p n idx Ha Hi) as [E _]; congruence.
  Qed.
  Lemma added_there s s' p m U n : wf s -> added s s' -> there U (dir_at (pack_dir p) m s) n -> there U (dir_at (pack_dir p) m s') n.
  Proof.
    intros Hw Ha (k & idx & H1 & H2 & H3 & H4 & H5). assert (Hw' : wf s') by apply Ha. destruct (added_pack_file s s' p n idx Ha H3) as [E1 E2].
    exists k, idx. split; [easy|]. split; [easy|]. split; [easy|]. apply dir_at_files in H4, H5; try easy. split; apply dir_at_files; try easy; congruence.
  Qed.
  Lemma fs_repo s r : f_repo (fs_at D s) r = option_map (fun x => repo_at D (fst x) (snd x) s) (k_place D r).
  Proof. reflexivity. Qed.
  Lemma added_only s s' : wf s -> added s s' -> only_loose (fs_at D s) (fs_at D s').
  Proof.
    intros Hw Ha. split; [easy|]. intros r. rewrite !fs_repo. destruct (k_place D r) as [[p b]|]; cbn [option_map]; [|easy]. unfold repo_at. cbn [fst snd r_pack r_alt r_loose]. split; [|split].
    - destruct b; [|easy]. intros n. now apply added_packs_in.
    - now rewrite (added_alternates s s').
    - intros sha Hin. apply in_map_iff in Hin as ([x c] & E & Hin). cbn [fst] in E. subst x. apply (loose_at_in p s) in Hin as (Hs & z & Hz & ->); [|easy].
      apply in_map_iff. exists (sha, mapped z). split; [easy|]. apply loose_at_in; [apply Ha|]. split; [easy|]. exists z. split; [|easy]. now apply (added_object s).
  Qed.
  Lemma added_proper U s s' r : wf s -> added s s' -> proper_from (fs_at D s) U r -> proper_from (fs_at D s') U r.
  Proof.
    intros Hw Ha (H1 & H2 & H3). pose proof (added_only s s' Hw Ha) as Hol. split; [exact H1|]. split; [now apply (add_usable _ _ Hol)|]. intros r' Hr'. apply (add_reaches _ _ Hol) in Hr'.
    specialize (H3 r' Hr'). intros R' HR'. rewrite fs_repo in HR'. unfold proper_repo in H3. specialize (H3 (match k_place D r' with Some (p, b) => repo_at D p b s | None => R' end)). rewrite fs_repo in H3.
    destruct (k_place D r') as [[p b]|]; [|discriminate]. cbn [option_map fst snd] in *. injection HR' as <-. destruct (H3 eq_refl) as (P1 & P2 & P3). unfold repo_at in *. cbn [r_pack r_alt r_loose] in *. split; [|split].
    - intros d Hd. destruct b; [|discriminate]. injection Hd as <-. split; [apply dir_at_nodup; apply Ha|]. intros n Hn. apply (added_there s); try easy. destruct (P1 _ eq_refl) as [_ P]. apply P. now apply (added_packs_in s s').
    - apply loose_at_nodup. apply Ha.
    - now rewrite (added_alternates s s').
  Qed.
End Disk.

(** ** Storing through a GitDB *)
Section Store.
  Context (K : zlib) (sha1 : bytes -> bytes) (pagesize : Z) {R : Type} (read : R -> Z -> res (bytes * R)) (O : os) (D : disk).
  Context (Hsha : forall d, sha_ok (sha1 d)).
  Notation git_store := (git_store K sha1 pagesize read (at_of D)).
  Notation store := (LooseModel.store K sha1 pagesize read).

  Lemma stored_sha root i p z : named i -> stored_as K sha1 pagesize read O root i p z -> exists sha, sha_ok sha /\ p = object_file root sha.
  Proof.
    intros Hn H. unfold stored_as in H. destruct (is_binsha i) as [sha|] eqn:E.
    - destruct H as (_ & -> & _). exists sha. split; [now apply Hn|easy].
    - destruct H as (ch & r' & _ & H). cbv zeta in H. destruct H as [-> _]. eexists. split; [|reflexivity]. apply Hsha.
  Qed.
  Lemma named_bytes (i : istream R) : named i -> forall sha, is_binsha i = Some sha -> is_bytes sha.
  Proof. intros Hn sha E. now apply Hn in E as [_ E]. Qed.
  Lemma store_added n root noatime i s s' : named i -> wf s -> stops O (store n (loose_init root noatime) None i) s s' -> added s s'.
  Proof.
    intros Hn Hw Hst. destruct (store_stops K sha1 pagesize read (fun d => proj2 (Hsha d)) O n (loose_init root noatime) i (named_bytes i Hn) s s' Hw Hst) as (Hw' & _ & tmp & Ht & Hc).
    split; [easy|]. intros p. destruct tmp as [t|].
    - destruct (path_eq_dec p t) as [-> |Hne].
      + destruct (Ht t eq_refl) as [H1 H2]. right. split; [easy|]. right. now exists root.
      + destruct (Hc p) as [Hq|(Hq & z & Hz & HP)]; [congruence|now left|right]. split; [easy|]. left. apply stored_sha in HP as (sha & Hs & ->); [|easy]. exists root, sha. split; [easy|]. split; [easy|]. cbn [l_root loose_init] in *. congruence.
    - destruct (Hc p) as [Hq|(Hq & z & Hz & HP)]; [easy|now left|right]. split; [easy|]. left. apply stored_sha in HP as (sha & Hs & ->); [|easy]. exists root, sha. split; [easy|]. split; [easy|]. cbn [l_root loose_init] in *. congruence.
  Qed.
  Definition through (n : nat) (root : path) (i : istream R) : prog (istream R) :=
    do! (i, _) := store n (loose_init root true) None i in ret i.
  Lemma runs_stops n root i s x s' : runs O (through n root i) s x s' -> stops O (store n (loose_init root true) None i) s s' /\
    (forall i', x = Ok i' -> exists out, runs O (store n (loose_init root true) None i) s (Ok (i', out)) s').
  Proof.
    intros H. apply runs_after in H as (r1 & s1 & H1 & H2). assert (s1 = s' /\ match r1 with Ok (i', _) => x = Ok i' | Raise e => x = Raise e | Diverge => x = Diverge end) as [-> Hx].
    { destruct r1 as [[i' out]| |]; apply runs_ret in H2 as [-> ->]; easy. }
    split; [now exists (Ret r1)|]. intros i' ->. destruct r1 as [[i2 out]| |]; [|easy..]. injection Hx as ->. now exists out.
  Qed.

  Section Member.
    Context (F : fs) (U : list Z -> bytes -> option pack) (scope : list Z -> Prop).
    Lemma find_loose r l : usable F r -> Forall2 (good F U scope) (kinds F r) l -> exists known, List.find is_loose l = Some (Loose r known).
    Proof.
      intros [Hne (R0 & HR)] H. unfold kinds, git_members in H. rewrite HR in H. destruct r as [|c r]; [easy|]. rewrite !map_app in H. apply Forall2_app_inv_l in H as (l1 & l2 & H1 & H2 & ->).
      assert (List.find is_loose l1 = None) as Hf.
      { destruct (r_pack R0); cbn [map] in H1; inversion H1 as [|? m ? l' Hm Hl]; subst; [|easy]. inversion Hl; subst. inversion Hm; subst. easy. }
      assert (Happ : forall a b : list db, List.find is_loose a = None -> List.find is_loose (a ++ b) = List.find is_loose b).
      { intros a b. induction a as [|x a IH]; [easy|]. cbn [List.find app]. destruct (is_loose x); [discriminate|easy]. }
      rewrite Happ by easy. cbn [map app] in H2. inversion H2 as [|? d ? l' Hd Hl]; subst. inversion Hd as [|? known ? ? ? ?| | | |]; subst. now exists known.
    Qed.
    Lemma loose_db_ok r dbs : good F U scope (KGit r) (Git r dbs) -> exists d', loose_db F r dbs = (Ok r, d') /\ good F U scope (KGit r) d'.
    Proof.
      intros H. inversion H as [| |? Hr Hu|? c Hr Hu Hl Hc| |]; subst; unfold loose_db.
      - rewrite git_load_ok by easy. pose proof (members_good F U scope r Hr Hu) as Hl. destruct (find_loose r _ Hu Hl) as (known & ->). eexists. split; [reflexivity|].
        now apply (new_git_good F U scope).
      - destruct (find_loose r _ Hu Hl) as (known & ->). eexists. split; [reflexivity|easy].
    Qed.
    Lemma git_store_ok n r d i : good F U scope (KGit r) d -> exists d', git_store F n d i = (through n (at_of D r) i, d') /\ good F U scope (KGit r) d'.
    Proof.
      intros H. assert (exists dbs, d = Git r dbs) as (dbs & ->) by (inversion H; subst; eauto). destruct (loose_db_ok r dbs H) as (d' & E & Hd'). cbn [GitStoreModel.git_store]. rewrite E. now exists d'.
    Qed.
  End Member.
End Store.

(** ** Histories *)
Section Histories.
  Context {K : zlib} (L : zlib_laws K) (sha1 : bytes -> bytes) (Hsha : forall d, sha_ok (sha1 d)) (pagesize : Z) (Hpage : 0 < pagesize).
  Context {R : Type} (read : R -> Z -> res (bytes * R)) (content : R -> bytes) (HR : stream_reader read content).
  Context (O : os) (D : disk) (U : list Z -> bytes -> option pack) (r : list Z).
  Notation F s := (fs_at D s).
  Notation file sha := (object_file (at_of D r) sha).
  Definition inv (m fuel : nat) (s : world) (d : db) : Prop :=
    wf s /\ proper_from (F s) U r /\ good (F s) U (reaches (F s) r) (KGit r) d /\ enough (F s) m fuel (KGit r).
  Lemma inv_added m fuel s s' d : added s s' -> inv m fuel s d -> inv m fuel s' d.
  Proof.
    intros Ha (Hw & Hp & Hd & He). pose proof (added_only D s s' Hw Ha) as Hol. split; [apply Ha|]. split; [now apply (added_proper D U s)|]. split.
    - apply (add_good _ _ U Hol (reaches (F s) r)); [|easy]. intros x. apply (add_reaches _ _ Hol).
    - now apply (add_enough _ _ Hol).
  Qed.
  Lemma loose_file s sha : wf s -> (exists x, k_place D r = Some x) -> is_loose_in (F s) r sha <-> sha_ok sha /\ exists z, contents s (file sha) = Some z.
  Proof.
    intros Hw ([p b] & Hx). unfold is_loose_in. rewrite fs_repo. unfold at_of. rewrite Hx. cbn [option_map fst snd]. split.
    - intros (R0 & c & [= <-] & Hin). cbn [repo_at r_loose] in Hin. apply (loose_at_in p s) in Hin as (Hs & z & Hz & _); [|easy]. split; [easy|now exists z].
    - intros (Hs & z & Hz). eexists _, (mapped z). split; [reflexivity|]. cbn [repo_at r_loose]. apply loose_at_in; [easy|]. split; [easy|now exists z].
  Qed.
  (** What a store that succeeded has done. *)
  Definition did_store (s : world) (i i' : istream R) (s' : world) : Prop :=
    exists sha, is_binsha i' = Some sha /\ sha_ok sha /\ is_type i' = is_type i /\ is_size i' = is_size i /\
      (exists z, stored_as K sha1 pagesize read O (at_of D r) i (file sha) z) /\
      match contents s (file sha) with
      | Some z => contents s' (file sha) = Some z
      | None => exists z, contents s' (file sha) = Some z /\ stored_as K sha1 pagesize read O (at_of D r) i (file sha) z
      end.
  Lemma through_ok n i s i' s' : named i -> wf s -> runs O (through K sha1 pagesize read n (at_of D r) i) s (Ok i') s' -> did_store s i i' s'.
  Proof.
    intros Hn Hw H. apply runs_stops in H as [_ H]. destruct (H i' eq_refl) as (out & Hr).
    destruct (store_ok K sha1 pagesize read (fun d => proj2 (Hsha d)) O n (loose_init (at_of D r) true) i (named_bytes i Hn) s i' out s' Hw Hr) as (Hw' & sha & z & H1 & H2 & H3 & H4 & H5 & H6 & H7).
    cbn [loose_init l_root] in *. exists sha. split; [easy|]. split.
    - destruct (stored_sha K sha1 pagesize read O Hsha (at_of D r) i _ z Hn H5) as (sha' & Hs' & E). apply object_file_inj in E; [now subst|easy|apply Hs'].
    - split; [easy|]. split; [easy|]. split; [now exists z|]. destruct (H6 (file sha)) as [E|(E & z' & Ez & HP)].
      + rewrite E in H7. destruct (contents s (file sha)) as [z'|]; [easy|now exfalso].
      + rewrite E. now exists z'.
  Qed.
  Lemma did_file s i i' s' : did_store s i i' s' -> exists sha z, is_binsha i' = Some sha /\ sha_ok sha /\ contents s' (file sha) = Some z.
  Proof. intros (sha & H1 & H2 & _ & _ & _ & H). destruct (contents s (file sha)) as [z|]; [now exists sha, z|]. destruct H as (z & H & _). now exists sha, z. Qed.

  Definition note_right (m : nat) (x : note (R := R)) : Prop :=
    match x with Asked s o a => g_right (F s) U K m r o a | Stored s i i' s' => did_store s i i' s' end.
  Definition note_at (x : note (R := R)) : world := match x with Asked s _ _ => s | Stored _ _ _ s' => s' end.
  Lemma proper_place s : proper_from (F s) U r -> exists x, k_place D r = Some x.
  Proof. intros (_ & [_ (R0 & HR0)] & _). rewrite fs_repo in HR0. destruct (k_place D r) as [x|]; [now exists x|discriminate]. Qed.
  Lemma history_ok m fuel d s l d2 s2 : history K sha1 pagesize read O D fuel d s l d2 s2 -> inv m fuel s d ->
    inv m fuel s2 d2 /\ Forall (note_right m) l /\ forall sha, is_loose_in (F s) r sha -> is_loose_in (F s2) r sha /\ forall x, In x l -> is_loose_in (F (note_at x)) r sha.
  Proof.
    intros H. induction H as [d s|d s o a d1 l d2 s2 Ho E _ IH|n d s i p d1 i' s1 l d2 s2 Hn E Hr _ IH|n d s i p d1 x s1 l d2 s2 Hn E Hr _ IH|n q root b na d s i s1 l d2 s2 Hn Hq Hst _ IH]; intros Hi.
    - split; [easy|]. split; [constructor|easy].
    - destruct Hi as (Hw & Hp & Hd & He).
      destruct (do_right (F s) U K (reaches (F s) r) (from_order _ _ _ Hp) (from_scope _ _ _ Hp) (from_closed (F s) r) m fuel o r d Ho Hd) as (a' & d' & E' & Hd' & Ha).
      rewrite E in E'. injection E' as <- <-. destruct IH as (I1 & I2 & I3); [now split|]. split; [easy|]. split.
      + constructor; [|easy]. destruct Ha as [Ha|[Ha _]]; [easy|contradiction].
      + intros sha Hl. destruct (I3 sha Hl) as [J1 J2]. split; [easy|]. intros x [<- |Hx]; [exact Hl|now apply J2].
    - pose proof Hi as (Hw & Hp & Hd & He). destruct (git_store_ok K sha1 pagesize read D (F s) U (reaches (F s) r) n r d i Hd) as (d' & E' & Hd'). rewrite E in E'. injection E' as -> ->.
      pose proof (through_ok n i s i' s1 Hn Hw Hr) as Hdid. apply runs_stops in Hr as [Hst _]. pose proof (store_added K sha1 pagesize read O Hsha n _ true i s s1 Hn Hw Hst) as Hadd.
      destruct IH as (I1 & I2 & I3); [apply (inv_added m fuel s s1 d' Hadd); now split|]. split; [easy|]. split; [now constructor|].
      intros sha Hl. apply (add_loose _ _ (added_only D s s1 Hw Hadd)) in Hl. destruct (I3 sha Hl) as [J1 J2]. split; [easy|]. intros x [<- |Hx]; [exact Hl|now apply J2].
    - pose proof Hi as (Hw & Hp & Hd & He). destruct (git_store_ok K sha1 pagesize read D (F s) U (reaches (F s) r) n r d i Hd) as (d' & E' & Hd'). rewrite E in E'. injection E' as -> ->.
      apply runs_stops in Hr as [Hst _]. pose proof (store_added K sha1 pagesize read O Hsha n _ true i s s1 Hn Hw Hst) as Hadd.
      destruct IH as (I1 & I2 & I3); [apply (inv_added m fuel s s1 d' Hadd); now split|]. split; [easy|]. split; [easy|].
      intros sha Hl. apply (add_loose _ _ (added_only D s s1 Hw Hadd)) in Hl. now apply I3.
    - pose proof Hi as (Hw & _). pose proof (store_added K sha1 pagesize read O Hsha n root na i s s1 Hn Hw Hst) as Hadd.
      destruct IH as (I1 & I2 & I3); [now apply (inv_added m fuel s s1)|]. split; [easy|]. split; [easy|].
      intros sha Hl. apply (add_loose _ _ (added_only D s s1 Hw Hadd)) in Hl. now apply I3.
  Qed.
  Lemma history_start m s0 : wf s0 -> proper_from (F s0) U r -> finite_acyclic (F s0) r -> exists N, forall fuel, (N <= fuel)%nat -> inv m fuel s0 (gitdb r).
  Proof.
    intros Hw Hp Hac. destruct (from_enough (F s0) U r Hp m Hac) as (N & HN). exists N. intros fuel Hf. split; [easy|]. split; [easy|]. split; [now apply from_new|now apply HN].
  Qed.
  Lemma history_split fuel d s l1 l2 d2 s2 : history K sha1 pagesize read O D fuel d s (l1 ++ l2) d2 s2 ->
    exists d1 s1, history K sha1 pagesize read O D fuel d s l1 d1 s1 /\ history K sha1 pagesize read O D fuel d1 s1 l2 d2 s2.
  Proof.
    intros H. remember (l1 ++ l2) as l eqn:El. revert l1 El. induction H as [d s|d s o a d1 l d2 s2 Ho E H IH|n d s i p d1 i' s1 l d2 s2 Hn E Hr H IH|n d s i p d1 x s1 l d2 s2 Hn E Hr H IH|n q root b na d s i s1 l d2 s2 Hn Hq Hst H IH]; intros l1 El.
    - symmetry in El. apply app_eq_nil in El as [-> ->]. exists d, s. split; constructor.
    - destruct l1 as [|x l1]; cbn [app] in El; [subst l2; exists d, s; split; [constructor|now apply (h_ask _ _ _ _ _ _ _ d s o a d1)]|].
      injection El as <- El. destruct (IH l1 El) as (d3 & s3 & H1 & H2). exists d3, s3. split; [|easy]. now apply (h_ask _ _ _ _ _ _ _ d s o a d1).
    - destruct l1 as [|x l1]; cbn [app] in El; [subst l2; exists d, s; split; [constructor|now apply (h_store _ _ _ _ _ _ _ n d s i p d1)]|].
      injection El as <- El. destruct (IH l1 El) as (d3 & s3 & H1 & H2). exists d3, s3. split; [|easy]. now apply (h_store _ _ _ _ _ _ _ n d s i p d1).
    - destruct (IH l1 El) as (d3 & s3 & H1 & H2). exists d3, s3. split; [|easy]. now apply (h_fail _ _ _ _ _ _ _ n d s i p d1 x s1).
    - destruct (IH l1 El) as (d3 & s3 & H1 & H2). exists d3, s3. split; [|easy]. now apply (h_other _ _ _ _ _ _ _ n q root b na d s i s1).
  Qed.
  (** *** The answers *)
  Lemma history_answers s0 m : wf s0 -> proper_from (F s0) U r -> finite_acyclic (F s0) r -> exists N, forall fuel l d s, (N <= fuel)%nat ->
    history K sha1 pagesize read O D fuel (gitdb r) s0 l d s -> forall s1 o a, In (Asked s1 o a) l -> g_right (F s1) U K m r o a.
  Proof.
    intros Hw Hp Hac. destruct (history_start m s0 Hw Hp Hac) as (N & HN). exists N. intros fuel l d s Hf H s1 o a Hin.
    destruct (history_ok m fuel _ _ _ _ _ H (HN fuel Hf)) as (_ & H1 & _). rewrite Forall_forall in H1. exact (H1 _ Hin).
  Qed.
  Lemma did_complete s i i' s' : storable content i -> is_binsha i = None \/ may_fail O KShort = false -> did_store s i i' s' ->
    exists sha, is_binsha i' = Some sha /\ sha_ok sha /\ is_type i' = is_type i /\ is_size i' = is_size i /\
      (exists z, LooseSpec.complete L sha1 content (at_of D r) i (file sha) z) /\
      match contents s (file sha) with
      | Some z => contents s' (file sha) = Some z
      | None => exists z, contents s' (file sha) = Some z /\ LooseSpec.complete L sha1 content (at_of D r) i (file sha) z
      end.
  Proof.
    intros Hst Hk (sha & H1 & H2 & H3 & H4 & (z & H5) & H6).
    pose proof (fun p z => store_complete L sha1 Hsha pagesize Hpage read content HR O (loose_init (at_of D r) true) i p z Hst Hk) as Hcomp. cbn [loose_init l_root] in Hcomp.
    exists sha. split; [easy|]. split; [easy|]. split; [easy|]. split; [easy|]. split; [exists z; now apply Hcomp|].
    destruct (contents s (file sha)) as [z0|]; [easy|]. destruct H6 as (z0 & Hz0 & H6). exists z0. split; [easy|]. now apply Hcomp.
  Qed.
  Lemma history_stores s0 : wf s0 -> proper_from (F s0) U r -> finite_acyclic (F s0) r -> exists N, forall fuel l d s, (N <= fuel)%nat ->
    history K sha1 pagesize read O D fuel (gitdb r) s0 l d s -> forall s1 i i' s2, In (Stored s1 i i' s2) l -> storable content i -> is_binsha i = None \/ may_fail O KShort = false ->
    exists sha, is_binsha i' = Some sha /\ sha_ok sha /\ is_type i' = is_type i /\ is_size i' = is_size i /\
      (exists z, LooseSpec.complete L sha1 content (at_of D r) i (file sha) z) /\
      match contents s1 (file sha) with
      | Some z => contents s2 (file sha) = Some z
      | None => exists z, contents s2 (file sha) = Some z /\ LooseSpec.complete L sha1 content (at_of D r) i (file sha) z
      end.
  Proof.
    intros Hw Hp Hac. destruct (history_start 0 s0 Hw Hp Hac) as (N & HN). exists N. intros fuel l d s Hf H s1 i i' s2 Hin Hst Hk.
    destruct (history_ok 0 fuel _ _ _ _ _ H (HN fuel Hf)) as (_ & H1 & _). rewrite Forall_forall in H1. exact (did_complete _ _ _ _ Hst Hk (H1 _ Hin)).
  Qed.
  Lemma stored_stays m fuel d s l d2 s2 : history K sha1 pagesize read O D fuel d s l d2 s2 -> inv m fuel s d ->
    forall l1 s1 i i' s1' l2 sha, l = l1 ++ Stored s1 i i' s1' :: l2 -> is_binsha i' = Some sha -> forall x, In x l2 -> is_loose_in (F (note_at x)) r sha.
  Proof.
    intros H. induction H as [d s|d s o a d1 l d2 s2 Ho E _ IH|n d s i p d1 i' s1 l d2 s2 Hn E Hr H IH|n d s i p d1 x s1 l d2 s2 Hn E Hr _ IH|n q root b na d s i s1 l d2 s2 Hn Hq Hst _ IH]; intros Hi l1 w1 j j' w2 l2 sha El Hj x0 Hx0.
    - now destruct l1.
    - destruct l1 as [|y l1]; [discriminate|]. injection El as _ ->. destruct Hi as (Hw & Hp & Hd & He).
      destruct (do_right (F s) U K (reaches (F s) r) (from_order _ _ _ Hp) (from_scope _ _ _ Hp) (from_closed (F s) r) m fuel o r d Ho Hd) as (a' & d' & E' & Hd' & Ha).
      rewrite E in E'. injection E' as <- <-. apply (IH ltac:(now split) l1 w1 j j' w2 l2 sha eq_refl Hj x0 Hx0).
    - pose proof Hi as (Hw & Hp & Hd & He). destruct (git_store_ok K sha1 pagesize read D (F s) U (reaches (F s) r) n r d i Hd) as (d' & E' & Hd'). rewrite E in E'. injection E' as -> ->.
      pose proof (through_ok n i s i' s1 Hn Hw Hr) as Hdid. apply runs_stops in Hr as [Hst _]. pose proof (store_added K sha1 pagesize read O Hsha n _ true i s s1 Hn Hw Hst) as Hadd.
      assert (Hi1 : inv m fuel s1 d') by (apply (inv_added m fuel s s1 d' Hadd); now split).
      destruct l1 as [|y l1]; [|injection El as _ ->; apply (IH Hi1 l1 w1 j j' w2 l2 sha eq_refl Hj x0 Hx0)].
      injection El as -> -> -> -> ->. apply did_file in Hdid as (sha' & z & Es & Hs & Hz). rewrite Hj in Es. injection Es as <-.
      destruct (history_ok m fuel _ _ _ _ _ H Hi1) as (_ & _ & Hk). apply (Hk sha); [|easy]. apply loose_file; [apply Hadd|now apply (proper_place w1)|]. split; [easy|now exists z].
    - pose proof Hi as (Hw & Hp & Hd & He). destruct (git_store_ok K sha1 pagesize read D (F s) U (reaches (F s) r) n r d i Hd) as (d' & E' & Hd'). rewrite E in E'. injection E' as -> ->.
      apply runs_stops in Hr as [Hst _]. pose proof (store_added K sha1 pagesize read O Hsha n _ true i s s1 Hn Hw Hst) as Hadd.
      apply (IH ltac:(apply (inv_added m fuel s s1 d' Hadd); now split) l1 w1 j j' w2 l2 sha El Hj x0 Hx0).
    - pose proof Hi as (Hw & _). pose proof (store_added K sha1 pagesize read O Hsha n root na i s s1 Hn Hw Hst) as Hadd.
      apply (IH ltac:(now apply (inv_added m fuel s s1)) l1 w1 j j' w2 l2 sha El Hj x0 Hx0).
  Qed.
  Lemma ever_after s0 : wf s0 -> proper_from (F s0) U r -> finite_acyclic (F s0) r -> exists N, forall fuel l1 s1 i i' s2 l2 d s sha, (N <= fuel)%nat ->
    history K sha1 pagesize read O D fuel (gitdb r) s0 (l1 ++ Stored s1 i i' s2 :: l2) d s -> is_binsha i' = Some sha -> forall s3 o a, In (Asked s3 o a) l2 ->
    match o with
    | GHas sha' => sha' = sha -> a = HHas (Ok true)
    | GIter => exists names, a = HIter (Ok names) /\ In sha names
    | _ => True
    end.
  Proof.
    intros Hw Hp Hac. destruct (history_start 0 s0 Hw Hp Hac) as (N & HN). exists N. intros fuel l1 s1 i i' s2 l2 d s sha Hf H Hi' s3 o a Hin.
    pose proof (stored_stays 0 fuel _ _ _ _ _ H (HN fuel Hf) l1 s1 i i' s2 l2 sha eq_refl Hi' _ Hin) as Hl. cbn [note_at] in Hl.
    destruct (history_ok 0 fuel _ _ _ _ _ H (HN fuel Hf)) as (_ & Hall & _). rewrite Forall_forall in Hall. specialize (Hall (Asked s3 o a)). cbn [note_right] in Hall.
    assert (Hf' : found (F s3) U r sha) by (exists r; split; [apply rt_refl|now right]).
    assert (Hr : g_right (F s3) U K 0 r o a) by (apply Hall; apply in_app_iff; right; now right). clear - Hr Hf'. destruct o as [sha'|sha'| | |force]; try exact I; destruct a; try easy; cbn [g_right] in Hr.
    - intros ->. destruct Hr as (b & -> & Hb). replace b with true; [easy|]. symmetry. now apply Hb.
    - destruct Hr as (l & l' & -> & Hl & Hp). exists l. split; [easy|]. apply (Permutation_in sha (Permutation_sym Hp)). now apply (listing_in (F s3) U r l' Hl).
  Qed.

  (** *** What info says about a new object *)
  Lemma info_new s0 : wf s0 -> proper_from (F s0) U r -> finite_acyclic (F s0) r -> exists N, forall fuel n l d s i p d1 i' s1 sha, (N <= fuel)%nat ->
    history K sha1 pagesize read O D fuel (gitdb r) s0 l d s -> proper content i -> len (loose_object_header (is_type i) (is_size i)) <= 8192 ->
    git_store K sha1 pagesize read (at_of D) (F s) n d i = (p, d1) -> runs O p s (Ok i') s1 -> is_binsha i' = Some sha -> ~ found (F s) U r sha ->
    fst (db_info K (F s1) fuel sha d1) = Ok (mk_oinfo sha (PBytes (is_type i)) (is_size i)).
  Proof.
    intros Hw Hp Hac. destruct (history_start 0 s0 Hw Hp Hac) as (N & HN). exists N. intros fuel n l d s i p d1 i' s1 sha Hf H Hpr Hlen E Hr Hi' Hnf.
    destruct (history_ok 0 fuel _ _ _ _ _ H (HN fuel Hf)) as ((Hws & Hps & Hd & He) & _ & _). clear H HN N Hf Hw Hp Hac.
    destruct (git_store_ok K sha1 pagesize read D (F s) U (reaches (F s) r) n r d i Hd) as (d' & E' & Hd'). rewrite E in E'. injection E' as -> ->.
    assert (Hn : named i) by (intros x Ex; destruct Hpr as (Hb & _); congruence).
    pose proof (through_ok n i s i' s1 Hn Hws Hr) as Hdid. apply runs_stops in Hr as [Hst Hok]. pose proof (store_added K sha1 pagesize read O Hsha n _ true i s s1 Hn Hws Hst) as Hadd.
    destruct (Hok i' eq_refl) as (out & Hr). clear Hok Hst.
    destruct (store_ok K sha1 pagesize read (fun d => proj2 (Hsha d)) O n (loose_init (at_of D r) true) i (named_bytes i Hn) s i' out s1 Hws Hr) as (_ & sha' & z' & H1 & _ & _ & _ & _ & H6 & _). rewrite Hi' in H1. injection H1 as <-. clear Hr z'.
    pose proof (added_only D s s1 Hws Hadd) as Hol. destruct (inv_added 0 fuel s s1 d' Hadd) as (Hw1 & Hp1 & Hd1 & He1); [now split|].
    apply did_file in Hdid as (sha' & z & Es & Hs & Hz). rewrite Hi' in Es. injection Es as <-.
    assert (Hl1 : is_loose_in (F s1) r sha) by (apply loose_file; [easy|now apply (proper_place s)|]; split; [easy|now exists z]).
    destruct (do_right (F s1) U K (reaches (F s1) r) (from_order _ _ _ Hp1) (from_scope _ _ _ Hp1) (from_closed (F s1) r) 0 fuel (GInfo sha) r d' Hs Hd1) as (a & d2 & Ea & _ & Ha).
    cbn [g_do] in Ea. destruct (db_info K (F s1) fuel sha d') as [x d3] eqn:Ex. injection Ea as <- <-. cbn [fst]. destruct Ha as [Ha|[Ha _]]; [|contradiction]. cbn [g_right] in Ha.
    destruct Ha as [(r' & Hr' & _ & Hsay)|(Hno & _)]; [|exfalso; apply Hno; exists r; split; [apply rt_refl|now right]]. apply (add_reaches _ _ Hol) in Hr'.
    destruct Hsay as [(R0 & dd & nm & k & e & f & HR0 & Hdd & Hph & _)|(R0 & c & HR0 & Hin & Hc)].
    - exfalso. apply Hnf. exists r'. split; [easy|]. left. apply (add_packs _ _ U Hol). now exists R0, dd, nm, k.
    - rewrite fs_repo in HR0. destruct (k_place D r') as [[p' b']|] eqn:Epl; [|discriminate]. cbn [option_map fst snd] in HR0. injection HR0 as <-. cbn [repo_at r_loose] in Hin.
      apply (loose_at_in p' s1) in Hin as (_ & z1 & Hz1 & ->); [|easy]. destruct (H6 (object_file p' sha)) as [E6|(_ & z2 & E2 & HP)].
      + exfalso. apply Hnf. exists r'. split; [easy|]. right. exists (repo_at D p' b' s), (mapped z1). rewrite fs_repo, Epl. split; [easy|]. cbn [repo_at r_loose]. apply loose_at_in; [easy|]. split; [easy|]. exists z1. split; [congruence|easy].
      + rewrite Hz1 in E2. injection E2 as <-. assert (Hsto : storable content i) by (unfold storable; destruct Hpr as (Hb & Hrest); rewrite Hb; now split).
        pose proof (store_complete L sha1 Hsha pagesize Hpage read content HR O (loose_init (at_of D r) true) i _ z1 Hsto (or_introl (proj1 Hpr)) HP) as Hcomp. unfold LooseSpec.complete in Hcomp.
        destruct Hpr as (Hb & Hsz & _ & _ & Hn32 & Hn0). rewrite Hb in Hcomp. destruct Hcomp as (form & Hform & _ & Hzs).
        assert (form = loose_object_header (is_type i) (len (content (is_stream i))) ++ content (is_stream i)) as -> by (eapply loose_form_unique; [exact Hform|apply loose_form_header]).
        destruct (zl_start K L _ _ Hzs) as (Hne & _). rewrite Hsz in Hlen. pose proof (header_info_ok L (is_type i) (content (is_stream i)) z1 [] Hzs Hn32 Hn0 Hlen) as Hi. rewrite app_nil_r in Hi.
        destruct z1 as [|b z1]; [easy|]. cbn [mapped] in Hc. rewrite Hc, Hi. cbn [bind]. now rewrite Hsz.
  Qed.
  Lemma delegates s0 : wf s0 -> proper_from (F s0) U r -> finite_acyclic (F s0) r -> exists N, forall fuel n l d s i, (N <= fuel)%nat ->
    history K sha1 pagesize read O D fuel (gitdb r) s0 l d s -> exists d', git_store K sha1 pagesize read (at_of D) (F s) n d i = (through K sha1 pagesize read n (at_of D r) i, d').
  Proof.
    intros Hw Hp Hac. destruct (history_start 0 s0 Hw Hp Hac) as (N & HN). exists N. intros fuel n l d s i Hf H.
    destruct (history_ok 0 fuel _ _ _ _ _ H (HN fuel Hf)) as ((Hws & Hps & Hd & He) & _ & _). destruct (git_store_ok K sha1 pagesize read D (F s) U (reaches (F s) r) n r d i Hd) as (d' & E' & _). now exists d'.
  Qed.
End Histories.

(** ** The two models of a loose database *)
Lemma map_yields_empty O db sha s : faultless O -> contents s (object_file (l_root db) sha) = Some [] -> yields O (map_loose_object db sha) s (Raise ValueError).
Proof.
  intros Hf Hz. apply yields_ro; [apply ro_map|]. intros r H. unfold map_loose_object in H. rewrite object_path_file in H. unfold OsModel.contents in Hz. destruct (lookup s (object_file (l_root db) sha)) as [i|] eqn:El; [|easy]. cbn in Hz.
  apply runs_after in H as (r1 & s1 & H1 & H2). unfold file_contents_ro_filepath in H1. apply runs_bind in H1 as (r2 & s2 & H3 & H4).
  inversion H3 as [|? ? p1 s3 ? ? H5 H6]; subst. destruct H5 as (a & Hs & ->). apply runs_ret in H6 as [-> ->]. cbn [sys] in Hs.
  destruct Hs as [(E & _)|[(_ & E & _)|Hs]]; [now rewrite Hf in E|now rewrite Hf in E|]. rewrite El in Hs. destruct Hs as [-> ->]. unfold finally in H4. apply runs_after in H4 as (r3 & s3 & H5 & H6).
  inversion H5 as [|? ? p1 s4 ? ? H7 H8]; subst. destruct H7 as (a & Hs & ->). apply runs_ret in H8 as [-> ->]. cbn [sys] in Hs. injection Hz as Hz. rewrite Hz in Hs. destruct Hs as [-> ->].
  apply runs_bind in H6 as (r4 & s4 & H7 & H8). inversion H7 as [|? ? p1 s5 ? ? H9 H10]; subst. destruct H9 as (a & Hs & ->). apply runs_ret in H10 as [-> ->]. cbn [sys] in Hs.
  destruct Hs as [(E & _)|[-> ->]]; [now rewrite Hf in E|]. apply runs_ret in H8 as [-> ->]. cbn [is_oserror] in H2. now apply runs_ret in H2 as [-> _].
Qed.
Section Agree.
  Context (K : zlib) (D : disk) (O : os) (Hf : faultless O) (s : world) (Hw : wf s) (r : list Z) (p : path) (b : bool) (Hr : k_place D r = Some (p, b)).
  Lemma names_file sha : In sha (loose_names (fs_at D s) r) <-> sha_ok sha /\ contents s (object_file p sha) <> None.
  Proof.
    unfold loose_names. rewrite fs_repo, Hr. cbn [option_map fst snd repo_at r_loose]. split.
    - intros H. apply in_map_iff in H as ([x c] & E & H). cbn [fst] in E. subst x. apply (loose_at_in p s) in H as (H1 & z & H2 & _); [|easy]. split; [easy|congruence].
    - intros (H1 & H2). destruct (contents s (object_file p sha)) as [z|] eqn:E; [|easy]. apply in_map_iff. exists (sha, mapped z). split; [easy|]. apply loose_at_in; [easy|]. split; [easy|now exists z].
  Qed.
  Lemma agree_has noatime sha known : sha_ok sha -> is_dir s (object_file p sha) = false -> (forall x, In x known -> In x (loose_names (fs_at D s) r)) ->
    exists db', yields O (LooseModel.has_object (loose_init p noatime) sha) s (Ok (fst (loose_has (fs_at D s) r sha known), db')).
  Proof.
    intros Hs Hd Hk. destruct (has_yields O (loose_init p noatime) sha s) as (db' & Hy & _); [intros h q; easy|]. exists db'. cbn [loose_init l_root] in Hy.
    replace (fst (loose_has (fs_at D s) r sha known)) with (path_exists s (object_file p sha)); [exact Hy|]. unfold path_exists. rewrite Hd, orb_false_r.
    assert (Hfile : is_file s (object_file p sha) = true <-> In sha (loose_names (fs_at D s) r)).
    { rewrite names_file, is_file_true. split; [intros H; split; [easy|]; intros E; apply contents_none in E; congruence|intros [_ H] E; apply contents_none in E; congruence]. }
    unfold loose_has. destruct (mem sha known) eqn:E1; [apply mem_in in E1; apply Hfile; now apply Hk|].
    destruct (mem sha (loose_names (fs_at D s) r)) eqn:E2; cbn [fst]; [apply mem_in in E2; now apply Hfile|]. apply mem_out in E2. destruct (is_file s (object_file p sha)); [|easy]. exfalso. apply E2. now apply Hfile.
  Qed.
  Lemma named_at sha : sha_ok sha -> loose_map (fs_at D s) r sha = match contents s (object_file p sha) with Some z => mapped z | None => Raise BadObject end.
  Proof.
    intros Hs. unfold loose_map. rewrite fs_repo, Hr. cbn [option_map fst snd repo_at r_loose]. destruct (contents s (object_file p sha)) as [z|] eqn:E.
    - rewrite (file_named_in _ (mapped z)); [now destruct z|now apply loose_at_nodup|]. apply loose_at_in; [easy|]. split; [easy|now exists z].
    - replace (file_named sha (loose_at p s)) with (@Raise bytes FileNotFound); [easy|]. assert (Hno : forall c, ~ In (sha, c) (loose_at p s)).
      { intros c H. apply (loose_at_in p s) in H as (_ & z & Hz & _); [congruence|easy]. }
      clear - Hno. induction (loose_at p s) as [|[x c] l IH]; [easy|]. cbn [file_named]. destruct (beq x sha) eqn:Eb; [apply beq_eq in Eb; subst x; exfalso; apply (Hno c); now left|].
      apply IH. intros c' H. apply (Hno c'). now right.
  Qed.
  Lemma agree_info noatime sha fuel known : sha_ok sha ->
    yields O (LooseModel.info K (loose_init p noatime) sha) s
      (match fst (db_info K (fs_at D s) fuel sha (Loose r known)) with Ok (mk_oinfo sha' (PBytes typ) size) => Ok (sha', typ, size) | Ok _ => Raise AttributeError | Raise e => Raise e | Diverge => Diverge end).
  Proof.
    intros Hs. assert (Hcr : can_read O) by (split; apply Hf).
    assert (E : fst (db_info K (fs_at D s) fuel sha (Loose r known)) = (let! m := loose_map (fs_at D s) r sha in let! (typ, size) := loose_object_header_info K m in Ok (mk_oinfo sha (PBytes typ) size))) by now destruct fuel.
    rewrite E, (named_at sha Hs). unfold LooseModel.info. destruct (contents s (object_file p sha)) as [[|x z]|] eqn:Ez; cbn [mapped bind].
    - apply yields_bind_raise; [apply ro_info|]. now apply map_yields_empty.
    - eapply yields_bind; [apply ro_info|apply map_yields with (z := x :: z); [easy|exact Ez|easy]|].
      destruct (loose_object_header_info K (x :: z)) as [[typ size]| |]; cbn [bind]; apply yields_ret.
    - apply yields_bind_raise; [apply ro_info|]. apply map_yields_none. now apply contents_none.
  Qed.
End Agree.

(** ** Paths that are no repository, output streams *)
Section Nowhere.
  Context (K : zlib) (sha1 : bytes -> bytes) (pagesize : Z) {R : Type} (read : R -> Z -> res (bytes * R)) (at_path : list Z -> path).
  Definition no_members (dbs : option (compound db)) : Prop := match dbs with None => True | Some c => c_dbs c = [] end.
  Lemma loose_db_nowhere F r dbs : no_members dbs -> f_repo F r = None -> exists c, loose_db F r dbs = (Raise InvalidDBRoot, Git r (Some c)) /\ c_dbs c = [].
  Proof.
    intros Hd H. assert (E : git_load F r = (Raise InvalidDBRoot, [])) by (unfold git_load, git_members; now rewrite H). unfold loose_db. rewrite E.
    destruct dbs as [c|]; cbn [bind]; [|now eexists]. cbn [no_members] in Hd. rewrite Hd. cbn [List.find]. now eexists.
  Qed.
  Lemma store_nowhere F n r dbs i : no_members dbs -> f_repo F r = None ->
    exists c, GitStoreModel.git_store K sha1 pagesize read at_path F n (Git r dbs) i = (throw InvalidDBRoot, Git r (Some c)) /\ c_dbs c = [].
  Proof. intros Hd H. destruct (loose_db_nowhere F r dbs Hd H) as (c & E & Hc). exists c. cbn [GitStoreModel.git_store]. now rewrite E. Qed.
  Lemma loose_db_late F r dbs : no_members dbs -> usable F r -> exists d, loose_db F r dbs = (Ok r, d).
  Proof.
    intros Hd Hu. assert (Hl : List.find is_loose (git_members F r) = Some (Loose r [])).
    { destruct Hu as [Hne (R0 & HR)]. unfold git_members. rewrite HR. destruct r as [|c r]; [easy|]. now destruct (r_pack R0). }
    unfold loose_db. rewrite git_load_ok by easy. cbn [bind]. rewrite Hl. destruct dbs as [c|]; [|now eexists]. cbn [no_members] in Hd. rewrite Hd. cbn [List.find]. now eexists.
  Qed.
  Lemma store_late F n r dbs i : no_members dbs -> usable F r ->
    fst (GitStoreModel.git_store K sha1 pagesize read at_path F n (Git r dbs) i) = (do! (i, _) := LooseModel.store K sha1 pagesize read n (loose_init (at_path r) true) None i in ret i).
  Proof. intros Hd Hu. cbn [GitStoreModel.git_store]. now destruct (loose_db_late F r dbs Hd Hu) as (d & ->). Qed.
  Lemma set_ostream_keeps F (out stream : option (writer K)) r x out' d : usable F r -> git_set_ostream K at_path F out stream r None = (x, out', d) ->
    (match stream with Some (WFD _ _) => x = Raise TypeError /\ out' = out | _ => x = Ok out /\ out' = stream end) /\
    exists dbs, d = Git r (Some dbs) /\ fst (git_ostream K at_path F out' r (Some dbs)) = Ok out'.
  Proof.
    intros Hu. assert (Hl : List.find is_loose (git_members F r) = Some (Loose r [])).
    { destruct Hu as [Hne (R0 & HR)]. unfold git_members. rewrite HR. destruct r as [|c r]; [easy|]. now destruct (r_pack R0). }
    assert (E : loose_db F r None = (Ok r, Git r (Some (mk_compound (git_members F r) [])))).
    { unfold loose_db. rewrite git_load_ok by easy. cbn [bind]. now rewrite Hl. }
    assert (E2 : forall o, fst (git_ostream K at_path F o r (Some (mk_compound (git_members F r) []))) = Ok o).
    { intros o. unfold git_ostream, loose_db. cbn [c_dbs]. now rewrite Hl. }
    unfold git_set_ostream. rewrite E. intros H. split.
    - destruct stream as [[]|]; cbn in H; now injection H as <- <- _.
    - exists (mk_compound (git_members F r) []). split; [|apply E2]. destruct stream as [[]|]; cbn in H; now injection H as _ _ <-.
  Qed.
End Nowhere.
