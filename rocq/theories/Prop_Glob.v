(** C90: which files a PackedDB finds. *)
From Verif Require Import Py PyFacts FunModel IndexModel ZlibModel ReaderModel PackModel PackDbModel PackDbSpec PackDbProofs GlobModel GlobSpec GlobProofs.

(** Full statement: for every path of a directory, glob gives the paths of its files
    "pack-….pack" and no others.  False: special characters in the path are a pattern.  The
    PackedDB of the directory "pre[x]post" uses the packs of "prexpost", and none of its own. *)
Theorem C90_bracket_refuted :
  forall (T : tree) (parent pre post : str) (x : Z),
  parent <> [] -> tidy parent -> plain parent -> plain pre -> plain post -> ~ In slash (pre ++ [x] ++ post) -> x <> 33 -> x <> 93 -> pre <> [] ->
  forall p, In p (pack_files T (path_join parent (pre ++ [91; x; 93] ++ post))) <->
  exists n, p = path_join (path_join parent (pre ++ [x] ++ post)) n /\ subdir T parent (pre ++ [x] ++ post) /\
    In n (names_in T (path_join parent (pre ++ [x] ++ post))) /\ exists idx, pack_and_index n idx.
Proof.
  intros T parent pre post x Hne Ht Hp H1 H2 Hs Hx1 Hx2 Hpre p.
  assert (~ In slash (pre ++ [91; x; 93] ++ post)) as Hs'.
  { intros H. apply Hs. rewrite !in_app_iff in *. cbn [In] in *. destruct H as [H|[[H|[H|[H|[]]]]|H]]; [tauto|discriminate|tauto|discriminate|tauto]. }
  rewrite in_component; try easy.
  2:{ unfold has_magic. rewrite existsb_app. cbn [app existsb]. now rewrite !orb_true_r. }
  split.
  - intros (m & n & -> & Hsub & _ & Hm & Hn & Hidx). apply bracket_matches in Hm as ->; [|easy..]. now exists n.
  - intros (n & -> & Hsub & Hn & Hidx). exists (pre ++ [x] ++ post), n. split; [easy|]. split; [easy|]. split; [|split; [now apply bracket_matches|now split]].
    destruct pre as [|c pre]; [easy|]. cbn [app is_hidden]. destruct (c =? dot); [now left|now right].
Qed.
Print Assumptions C90_bracket_refuted.
(** That of "pre*post" uses the packs of all directories beside it whose names begin and end
    like this. *)
Theorem C90_star_refuted :
  forall (T : tree) (parent pre post : str),
  parent <> [] -> tidy parent -> plain parent -> plain pre -> plain post -> ~ In slash (pre ++ post) -> pre <> [] ->
  forall p, In p (pack_files T (path_join parent (pre ++ 42 :: post))) <->
  exists y n, p = path_join (path_join parent (pre ++ y ++ post)) n /\ subdir T parent (pre ++ y ++ post) /\
    In n (names_in T (path_join parent (pre ++ y ++ post))) /\ exists idx, pack_and_index n idx.
Proof.
  intros T parent pre post Hne Ht Hp H1 H2 Hs Hpre p.
  assert (~ In slash (pre ++ 42 :: post)) as Hs'.
  { intros H. apply Hs. rewrite !in_app_iff in *. cbn [In] in *. destruct H as [H|[H|H]]; [tauto|discriminate|tauto]. }
  rewrite in_component; try easy.
  2:{ unfold has_magic. rewrite existsb_app. cbn [existsb]. now rewrite !orb_true_r. }
  split.
  - intros (m & n & -> & Hsub & _ & Hm & Hn & Hidx). apply star_matches in Hm as (y & ->); [|easy..]. now exists y, n.
  - intros (y & n & -> & Hsub & Hn & Hidx). exists (pre ++ y ++ post), n. split; [easy|]. split; [easy|]. split; [|split; [apply star_matches; [easy..|now exists y]|now split]].
    destruct pre as [|c pre]; [easy|]. cbn [app is_hidden]. destruct (c =? dot); [now left|now right].
Qed.
Print Assumptions C90_star_refuted.
(** In general, with special characters in the last component: the packs of the directories
    beside it whose names the pattern stands for ([shell], GlobSpec.v), whether it is one of
    them or not.  Names with a dot at the start are only meant by such patterns. *)
Theorem C90_pattern_refuted :
  forall (T : tree) (parent comp : str), parent <> [] -> tidy parent -> plain parent -> ~ In slash comp -> ~ plain comp ->
  forall p, In p (pack_files T (path_join parent comp)) <->
  exists m n, p = path_join (path_join parent m) n /\ subdir T parent m /\ (hd 0 m = 46 -> hd 0 comp = 46) /\ shell comp m /\
    In n (names_in T (path_join parent m)) /\ exists idx, pack_and_index n idx.
Proof.
  intros T parent comp Hne Ht Hp Hs Hm p. assert (Hmag : has_magic comp = true).
  { destruct (has_magic comp) eqn:E; [easy|]. elim Hm. now apply not_magic. }
  rewrite in_component by easy.
  assert (Hh : forall m, (is_hidden comp = true \/ is_hidden m = false) <-> (hd 0 m = 46 -> hd 0 comp = 46)).
  { intros m. assert (Hd : forall q, is_hidden q = true <-> hd 0 q = 46). { intros [|c q]; [easy|]. cbn [is_hidden hd]. unfold dot. apply Z.eqb_eq. }
    rewrite <- !Hd. destruct (is_hidden comp), (is_hidden m); intuition congruence. }
  split; intros (m & n & H1 & H2 & H3 & H4 & H5); exists m, n; (split; [easy|]; split; [easy|]; split; [now apply Hh|]; split; [now apply fnmatch_iff|easy]).
Qed.
Print Assumptions C90_pattern_refuted.
(** What holds: without special characters in the path. *)
Theorem C90_plain_partial :
  forall (T : tree) (root : str), tidy root -> Forall (fun c => c <> 42 /\ c <> 63 /\ c <> 91) root ->
  (forall p, In p (pack_files T root) <-> exists n, p = path_join root n /\ (exists l b, t_list T root = Some l /\ In (n, b) l) /\ exists idx, pack_and_index n idx) /\
  forall d l, t_list T root = Some l -> map fst l = map fst (d_files d) -> pack_files T root = map (path_join root) (glob_packs d).
Proof.
  intros T root Ht Hp. split.
  - intros p. rewrite plain_glob by easy. rewrite in_map_iff. unfold names_in. split.
    + intros (n & <- & Hn). apply filter_In in Hn as [Hn Hpn]. apply pack_name_iff in Hpn. exists n. split; [easy|]. split; [|easy].
      destruct (t_list T root) as [l|]; [|easy]. apply in_map_iff in Hn as ([m b] & <- & Hn). now exists l, b.
    + intros (n & -> & (l & b & Hl & Hn) & Hidx). exists n. split; [easy|]. apply filter_In. split; [|now apply pack_name_iff]. rewrite Hl. change n with (fst (n, b)). now apply in_map.
  - intros d l Hl Hd. rewrite plain_glob by easy. unfold names_in, glob_packs. now rewrite Hl, Hd.
Qed.
Print Assumptions C90_plain_partial.
(** The index of a pack that was found is the file of that name in the same directory,
    whatever the path. *)
Theorem C90_files :
  forall (root n idx : str), pack_and_index n idx -> ~ In 47 n -> entity_files (path_join root n) = (path_join root idx, path_join root n).
Proof. exact entity_files_ok. Qed.
Print Assumptions C90_files.
(** A PackEntity of any other path: the last extension is replaced, unless there are only dots
    before it in the last component; if there is none, it is appended. *)
Theorem C90_other_names :
  forall h stem ext, (h = [] \/ last h 0 = 47) -> ~ In 47 (stem ++ ext) -> ~ In 46 ext ->
  ((exists c, In c stem /\ c <> 46) -> entity_files (h ++ stem ++ [46] ++ ext) = (h ++ stem ++ [46; 105; 100; 120], h ++ stem ++ [46; 112; 97; 99; 107])) /\
  (Forall (fun c => c = 46) stem ->
     entity_files (h ++ stem ++ [46] ++ ext) = (h ++ stem ++ [46] ++ ext ++ [46; 105; 100; 120], h ++ stem ++ [46] ++ ext ++ [46; 112; 97; 99; 107])) /\
  entity_files (h ++ ext) = (h ++ ext ++ [46; 105; 100; 120], h ++ ext ++ [46; 112; 97; 99; 107]).
Proof.
  intros h stem ext Hh Hs He. unfold entity_files. split; [|split].
  - intros (c & Hc & Hn). cbn [app]. change (46 :: ext) with (dot :: ext). rewrite (splitext_ext h stem ext Hh Hs He). replace (existsb (fun c => negb (c =? dot)) stem) with true; [cbn [fst]; now rewrite <- !app_assoc|].
    symmetry. apply existsb_exists. exists c. split; [easy|]. unfold dot. lia.
  - intros Hd. cbn [app]. change (46 :: ext) with (dot :: ext). rewrite (splitext_ext h stem ext Hh Hs He). replace (existsb (fun c => negb (c =? dot)) stem) with false; [cbn [fst]; now rewrite <- !app_assoc|].
    symmetry. clear - Hd. induction Hd as [|c l -> _ IH]; [easy|]. exact IH.
  - rewrite splitext_plain; [cbn [fst]; now rewrite <- !app_assoc|easy| |easy]. intros H. apply Hs, in_or_app. now right.
Qed.
Print Assumptions C90_other_names.

(** "/r/[a]" with pack-1.pack, "/r/a" with pack-2.pack, "/r/a.b" with pack-3.pack and more *)
Definition glob_ex : tree :=
  let p c := [112; 97; 99; 107; 45; c; 46; 112; 97; 99; 107] in
  let i c := [112; 97; 99; 107; 45; c; 46; 105; 100; 120] in
  mk_tree (fun d => if beq d [47; 114] then Some [([91; 97; 93], true); ([97], true); ([97; 46; 98], true)]
                    else if beq d [47; 114; 47; 91; 97; 93] then Some [(p 49, false); (i 49, false)]
                    else if beq d [47; 114; 47; 97] then Some [(p 50, false); (i 50, false)]
                    else if beq d [47; 114; 47; 97; 46; 98] then Some [(i 51, false); (p 51, false); ([112; 97; 99; 107; 45; 46; 112; 97; 99], false); ([46; 120], true)]
                    else None) (fun _ => true) (fun _ => true).
Example C90_example :
  pack_files glob_ex [47; 114; 47; 97; 46; 98] = [[47; 114; 47; 97; 46; 98; 47; 112; 97; 99; 107; 45; 51; 46; 112; 97; 99; 107]] /\
  pack_files glob_ex [47; 114; 47; 91; 97; 93] = [[47; 114; 47; 97; 47; 112; 97; 99; 107; 45; 50; 46; 112; 97; 99; 107]] /\
  len (pack_files glob_ex [47; 114; 47; 97; 42]) = 2 /\
  entity_files [47; 114; 47; 97; 46; 98; 47; 112; 97; 99; 107; 45; 51; 46; 112; 97; 99; 107] =
    ([47; 114; 47; 97; 46; 98; 47; 112; 97; 99; 107; 45; 51; 46; 105; 100; 120], [47; 114; 47; 97; 46; 98; 47; 112; 97; 99; 107; 45; 51; 46; 112; 97; 99; 107]) /\
  tidy [47; 114] /\ plain [47; 114] /\ tidy [47; 114; 47; 97; 46; 98] /\ subdir glob_ex [47; 114] [97] /\
  pack_files glob_ex [47; 114; 47; 91; 33; 97; 45; 122; 93; 42] = [[47; 114; 47; 91; 97; 93; 47; 112; 97; 99; 107; 45; 49; 46; 112; 97; 99; 107]] /\ ~ plain [91; 33; 97; 45; 122; 93; 42].
Proof.
  split; [reflexivity|]. split; [reflexivity|]. split; [reflexivity|]. split; [reflexivity|]. split; [right; discriminate|].
  split; [repeat constructor; discriminate|]. split; [right; discriminate|]. split; [eexists; split; [reflexivity|]; right; now left|]. split; [reflexivity|]. inversion 1; subst; tauto.
Qed.
