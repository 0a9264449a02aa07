(** Property C109 of properties.jsonl: moving loose objects into a pack. *)
From Coq Require Import ZifyBool ZifyNat.
From Verif Require Import Py PyFacts FunModel FunSpec FunProofs IndexModel IndexSpec ZlibModel ZlibProofs ReaderModel StreamSpec ReaderProofs DeflateModel DeflateProofs
  PackModel PackSpec PackCheckProofs PackWriteProofs OsModel OsProofs LooseModel LooseSpec LooseProofs LooseTop LooseQuery PackDbModel PackDbSpec CreateModel CreateSpec CreateRead
  RepackSpec RepackProofs MoveSpec MoveProofs Prop_Index Prop_Reader Prop_Pack Prop_Loose Prop_Repack.
Ltac Zify.zify_post_hook ::= Z.div_mod_to_equations.

(** ** C109 *)
(** Full statement: if PackEntity.create, given the streams of objects of a LooseObjectDB, returns,
    a PackedDB over the directory has these objects with their contents, and all loose objects are
    still there.

    Partial: for every zlib, however it delivers the contents and whatever their length (there are
    objects for which create fails, C106), if the sizes that LooseObjectDB.stream reports are right. *)
Theorem C109_moved_partial :
  forall (K : zlib) (L : zlib_laws K) (sha1 : bytes -> bytes) (pagesize : Z) (O : os) (fuel : nat) (db : ldb) (base : path) (level : Z)
    (xs : list (bytes * bytes * Z * bytes)) (s0 s : world) (pp : path) (U : bytes -> option pack) (m0 m : Z) (order : list bytes -> list bytes),
  (forall d, len (sha1 d) = 20) -> 0 < pagesize -> can_read O -> may_fail O KShort = false -> wf s0 ->
  Forall (has_file K L db s0) xs -> Forall (size_right K O db s0) xs ->
  Forall (fun x => let '(sha, t, n, c) := x in sha_ok sha /\ In t [str_commit_type; str_tree_type; str_blob_type; str_tag_type] /\ is_bytes c) xs ->
  NoDup (map sha_of xs) -> len xs <= 2 ^ 31 ->
  (forall n, packs_in (dir_at base m0 s0) n -> there U (dir_at base m0 s0) n) ->
  (forall n k, packs_in (dir_at base m0 s0) n -> base ++ [n] = pp -> U n = Some k -> incl (k_shas k) (map sha_of xs)) ->
  runs O (create_loose K sha1 pagesize fuel db base level (map sha_of xs)) s0 (Ok pp) s ->
  (forall pack, contents s pp = Some pack -> len pack < 2 ^ 64) -> (forall l, Permutation.Permutation (order l) l) ->
  let e := mk_env (Some (dir_at base m s)) order in
  let old sha := exists n k, packs_in (dir_at base m0 s0) n /\ U n = Some k /\ In sha (k_shas k) in
  (forall sha, sha_ok sha -> exists b, fst (PackDbModel.has_object e sha packed_init) = Ok b /\ (b = true <-> In sha (map sha_of xs) \/ old sha)) /\
  (forall x, In x xs -> (forall n k, packs_in (dir_at base m0 s0) n -> base ++ [n] <> pp -> U n = Some k -> ~ In (sha_of x) (k_shas k)) ->
     exists ent, reads_back L (fun c => c) level ent (in_memory x) /\
     (forall f, fst (PackDbModel.info K f e (sha_of x) packed_init) = entity_info K f ent (sha_of x)) /\
     (forall f, fst (PackDbModel.stream K f e (sha_of x) packed_init) = entity_stream K f ent (sha_of x))) /\
  (forall sha, sha_ok sha -> contents s (object_file (l_root db) sha) = contents s0 (object_file (l_root db) sha)).
Proof.
  intros K L sha1 pagesize O fuel db base level xs s0 s pp U m0 m order Hsha Hps Hcr Hs Hw Hx Hz Ht Hnd Hn Hold Hsame Hr Hsize Hord e old.
  assert (Hw' : wf s) by exact (steps_wf _ _ _ _ _ _ Hr Hw).
  assert (Hg : Forall (good_obj (fun c => c)) (map in_memory xs)).
  { apply Forall_forall. intros d Hd. apply in_map_iff in Hd as ([[[sha t] n] c] & <- & Hin).
    rewrite Forall_forall in Hx, Ht. destruct (Hx _ Hin) as (z & form & _ & -> & _). destruct (Ht _ Hin) as (_ & Hty & Hb).
    destruct Hty as [<- | [<- | [<- | [<- | []]]]]; [exists 1|exists 2|exists 3|exists 4]; (split; [cbn; tauto|]; split; [reflexivity|]; split; [reflexivity|exact Hb]). }
  assert (Hok : Forall sha_ok (map sha_of xs)).
  { apply Forall_map. refine (Forall_impl _ _ Ht). intros [[[sha t] n] c] (H & _). exact H. }
  assert (He : proper_env e (dir_at base m s)) by (split; [reflexivity|]; split; [now apply dir_at_nodup|exact Hord]).
  destruct (moved L sha1 Hsha pagesize Hps O Hcr Hs db base fuel level xs s0 pp s U m0 m e Hw Hw' Hx Hz Hg Hok Hnd Hn Hold Hsame Hr Hsize He) as (H1 & H2).
  split; [exact H1|]. split; [exact H2|]. exact (objects_stay L sha1 Hsha pagesize Hps O Hcr Hs db base fuel level xs s0 pp s Hw Hx Hz Hr).
Qed.
Print Assumptions C109_moved_partial.

(** The sizes are right for files of at most 8192 bytes, and for all whose zlib stream yields
    something for any 8 bytes. *)
Theorem C109_sizes :
  forall (K : zlib) (L : zlib_laws K) (O : os) (db : ldb) (s : world) (sha t c z form : bytes),
  can_read O -> contents s (object_file (l_root db) sha) = Some z -> loose_form t c form -> zl_stream L z form -> ~ In 32 t -> ~ In 0 t ->
  len form - len c <= 8192 -> dense L z form \/ len z <= 8192 -> size_right K O db s (sha, t, len c, c).
Proof.
  intros K L O db s sha t c z form Hcr Hz Hf Hs N1 N2 Hl Hd f o Ho.
  assert (form = loose_object_header t (len c) ++ c) as -> by (apply (loose_form_unique t c); [exact Hf|apply loose_form_header]).
  rewrite len_app in Hl. destruct (object_exact L t c z [] [] Hs N1 N2 ltac:(lia) Hd I) as (f0 & H0). rewrite app_nil_r in H0.
  specialize (H0 (max f f0) ltac:(lia)). unfold read_object in H0. apply bind_ok_inv in H0 as ([[t' n'] r'] & En & H0).
  apply bind_ok_inv in H0 as (outs & _ & H0). injection H0 as -> -> _. destruct Ho as [Ho _]. cbn [sha_of fst snd] in *.
  unfold LooseModel.stream in Ho. apply runs_bind in Ho as (r1 & s1 & R1 & R2).
  assert (Hne : z <> []) by now destruct (zl_start K L _ _ Hs).
  apply (yields_unique _ _ _ _ _ _ _ (map_yields O db sha s z Hcr Hz Hne)) in R1 as [-> ->]. apply runs_ret in R2 as [E _].
  symmetry in E. apply bind_ok_inv in E as ([[t2 n2] r2] & E2 & E). injection E as <-. cbn [ot_size].
  unfold reader_new in *. apply (parse_mono f (max f f0)) in E2; [|lia]. rewrite E2 in En. now injection En.
Qed.
Print Assumptions C109_sizes.

(** The two objects of the database of C38 are moved. *)
Definition move_base : path := [[112]].
Definition move_w0 : world := mk_world (w_files ex_w2) (move_base :: w_dirs ex_w2) (w_data ex_w2) (w_next ex_w2).
Definition move_run := run_plan (windows calm) [] (create_loose stored toy_sha 1 60 ex_db move_base 0 (map sha_of two_loose)) move_w0.
Lemma two_files : Forall (has_file stored stored_laws ex_db move_w0) two_loose /\ Forall (size_right stored calm ex_db move_w0) two_loose.
Proof.
  split; (apply Forall_cons; [|apply Forall_cons; [|apply Forall_nil]]).
  - exists (s_compress (str_blob_type ++ [32; 54; 0] ++ ex_hi)), (str_blob_type ++ [32; 54; 0] ++ ex_hi).
    split; [vm_compute; reflexivity|]. split; [reflexivity|]. split; [apply (loose_form_header str_blob_type ex_hi)|]. split; [apply s_compress_stream, bytes_check; reflexivity|]. split; not_in.
  - exists (s_compress (str_tree_type ++ [32; 50; 0] ++ [7; 8])), (str_tree_type ++ [32; 50; 0] ++ [7; 8]).
    split; [vm_compute; reflexivity|]. split; [reflexivity|]. split; [apply (loose_form_header str_tree_type [7; 8])|]. split; [apply s_compress_stream, bytes_check; reflexivity|]. split; not_in.
  - apply (C109_sizes stored stored_laws calm ex_db move_w0 ex_n1 str_blob_type ex_hi (s_compress (str_blob_type ++ [32; 54; 0] ++ ex_hi)) (str_blob_type ++ [32; 54; 0] ++ ex_hi));
      [now split|vm_compute; reflexivity|apply (loose_form_header str_blob_type ex_hi)|apply s_compress_stream, bytes_check; reflexivity|not_in|not_in|discriminate|right; discriminate].
  - apply (C109_sizes stored stored_laws calm ex_db move_w0 ex_n2 str_tree_type [7; 8] (s_compress (str_tree_type ++ [32; 50; 0] ++ [7; 8])) (str_tree_type ++ [32; 50; 0] ++ [7; 8]));
      [now split|vm_compute; reflexivity|apply (loose_form_header str_tree_type [7; 8])|apply s_compress_stream, bytes_check; reflexivity|not_in|not_in|discriminate|right; discriminate].
Qed.
Example C109_example :
  Forall (has_file stored stored_laws ex_db move_w0) two_loose /\ Forall (size_right stored calm ex_db move_w0) two_loose /\
  (forall n, ~ packs_in (dir_at move_base 0 move_w0) n) /\
  exists pp, runs calm (create_loose stored toy_sha 1 60 ex_db move_base 0 (map sha_of two_loose)) move_w0 (Ok pp) (snd move_run) /\
    map (fun sha => fst (PackDbModel.has_object (mk_env (Some (dir_at move_base 1 (snd move_run))) (fun l => l)) sha packed_init)) [ex_n1; ex_n2; repeat 3 20] = [Ok true; Ok true; Ok false].
Proof.
  split; [exact (proj1 two_files)|]. split; [exact (proj2 two_files)|]. split; [|exists (match fst move_run with Ok p => p | _ => [] end); split; [apply plan_runs; [easy|by_vm|by_vm]|by_vm]].
  intros n [(c & Hc) _]. vm_compute in Hc. tauto.
Qed.

(** The full statement is false: if the zlib stream has a gap after some digits of the size (empty
    blocks, 16384 bytes of them), the size is read from the digits before the last of these and
    the content from the header.  The object is packed with both, under its name. *)
Definition gap : bytes := concat (repeat [0; 0; 0; 255; 255] (Z.to_nat 3300)).
Definition gap_content : bytes := [104; 101; 108; 108; 111; 32; 119; 111; 114; 108; 100; 33].
Definition gap_form : bytes := str_blob_type ++ [32] ++ [49; 50] ++ [0] ++ gap_content.
Definition gap_file : bytes :=
  [120; 1] ++ s_block false (str_blob_type ++ [32] ++ [49; 50]) ++ gap ++ s_block true ([0] ++ gap_content) ++ adler_bytes (adler gap_form).
Definition gap_sha : bytes := repeat 6 20.
Definition gap_world : world := mk_world [(object_file ex_root gap_sha, 0%nat)] [ex_root; move_base] (fun _ => gap_file) 1%nat.
Definition gap_run := run_plan (windows calm) [] (create_loose deflate toy_sha 1 60 ex_db move_base 0 [gap_sha]) gap_world.
Theorem C109_gap_refuted :
  has_file deflate deflate_laws ex_db gap_world (gap_sha, str_blob_type, 12, gap_content) /\ wf gap_world /\ can_read calm /\
  fst (run_plan false [] (LooseModel.info deflate ex_db gap_sha) gap_world) = Ok (gap_sha, str_blob_type, 12) /\
  exists pp, runs calm (create_loose deflate toy_sha 1 60 ex_db move_base 0 [gap_sha]) gap_world (Ok pp) (snd gap_run) /\
    let e := mk_env (Some (dir_at move_base 1 (snd gap_run))) (fun l => l) in
    fst (PackDbModel.info deflate 60 e gap_sha packed_init) = Ok (mk_oinfo gap_sha (PBytes str_blob_type) 1) /\
    (let! st := fst (PackDbModel.stream deflate 60 e gap_sha packed_init) in run_stream (os_read 60) os_seek0 st [Read (-1)]) = Ok [[98]].
Proof.
  split.
  { exists gap_file, gap_form. split; [reflexivity|]. split; [reflexivity|]. split; [apply (loose_form_header str_blob_type gap_content)|]. split; [|split; not_in].
    split; [apply bytes_check; by_vm|]. split; [apply bytes_check; by_vm|by_vm]. }
  split.
  { assert (H : forall p i, lookup gap_world p = Some i -> p = object_file ex_root gap_sha /\ i = 0%nat).
    { intros p i. unfold lookup, gap_world. cbn [w_files assoc]. destruct (path_eq_dec (object_file ex_root gap_sha) p) as [<- |]; [|intros H; discriminate H].
      intros H. injection H as <-. now split. }
    split; [repeat constructor; easy| |].
    - intros p i Hp. apply H in Hp as [_ ->]. cbn. lia.
    - intros p q i Hp Hq. apply H in Hp as [-> _], Hq as [-> _]. reflexivity. }
  split; [now split|]. split; [by_vm|]. exists (match fst gap_run with Ok p => p | _ => [] end). split; [apply plan_runs; [easy|by_vm|by_vm]|]. split; by_vm.
Qed.
Print Assumptions C109_gap_refuted.
