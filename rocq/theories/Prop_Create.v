(** Properties C64, C80 and C81 of properties.jsonl: PackEntity.create (gitdb/pack.py:1007-1029),
    over every zlib satisfying the laws of ZlibModel.v, every hash function, every behaviour of
    the system allowed by OsModel.v and any number of processes. *)
From Coq Require Import Permutation.
From Verif Require Import Py PyFacts FunModel FunSpec FunProofs IndexModel IndexSpec ZlibModel ZlibProofs ReaderModel StreamSpec PackModel PackSpec PackWriteProofs
  OsModel OsProofs PackDbModel PackDbSpec PackDbProofs PackDbTop CreateModel CreateSpec CreateProofs CreateConc CreateLeft CreateRead CreateGap CreateShort Prop_Index Prop_Pack.

(** ** For the examples: two objects, an empty directory *)
Ltac by_vm := match goal with |- ?a = ?b => exact (@eq_refl _ b <: a = b) end.
Lemma plan_runs O A (p : prog A) plan s r : (plan <> [] -> may_fail O KShort = true) -> plan_ok (windows O) plan p s = true ->
  fst (run_plan (windows O) plan p s) = r -> runs O p s r (snd (run_plan (windows O) plan p s)).
Proof. intros H1 H2 <-. now apply run_plan_runs. Qed.
Definition ex_base : path := [[112]].
Definition ex_w0 : world := no_files [ex_base].
Definition ex_job : job bytes := mk_job 0 ex_wobjs None.
Notation ex_create := (create_pack stored toy_sha 1 file_read 20 ex_base 0 ex_wobjs None).
Notation ex_made := (made stored toy_sha 1 file_read 20 ex_base).
Definition ex_psha : bytes := match ex_written with Ok (_, psha, _, _) => psha | _ => [] end.
Definition ex_data : bytes := match ex_written with Ok (pack, _, _, _) => pack | _ => [] end.
Definition ex_index : bytes := match ex_written with Ok (_, _, idx, _) => idx | _ => [] end.
Definition ex_pp : path := ex_base ++ [new_name ex_psha str_dot_pack].
Definition ex_ip : path := ex_base ++ [new_name ex_psha str_dot_idx].
Definition ex_w1 : world := snd (run_plan (windows calm) [] ex_create ex_w0).
Lemma ex_job_made : ex_made ex_job ex_pp ex_ip ex_data ex_index.
Proof.
  exists ex_psha, (match ex_written with Ok (_, _, _, isha) => isha | _ => [] end), (new_name ex_psha str_dot_pack), (new_name ex_psha str_dot_idx).
  split; [vm_compute; reflexivity|]. split; [split; vm_compute; reflexivity|now split].
Qed.
Lemma ex_runs : runs calm ex_create ex_w0 (Ok ex_pp) ex_w1.
Proof. apply plan_runs; [easy|by_vm|by_vm]. Qed.

(** The first n calls, without faults. *)
Fixpoint first_calls (n : nat) {A} (p : prog A) (s : world) : prog A * world :=
  match n, p with
  | S n, Call c k => let (a, s') := OsModel.answer false None c s in first_calls n (k a) s'
  | _, _ => (p, s)
  end.
Fixpoint names_free (n : nat) {A} (p : prog A) (s : world) : bool :=
  match n, p with
  | S n, Call c k => name_free c s && let (a, s') := OsModel.answer false None c s in names_free n (k a) s'
  | _, _ => true
  end.
Lemma first_calls_steps n : forall A (p : prog A) s, names_free n p s = true -> steps calm p s (fst (first_calls n p s)) (snd (first_calls n p s)).
Proof.
  induction n as [|n IH]; intros A p s H; [constructor|]. destruct p as [r|B c k]; [constructor|]. cbn [first_calls names_free] in *.
  apply andb_prop in H as [H1 H2]. pose proof (answer_sys calm None B c s ltac:(easy) H1) as Hs. cbn [calm windows] in Hs.
  destruct (OsModel.answer false None c s) as [a s']. eapply steps_one; [exists a; split; [exact Hs|reflexivity]|]. now apply IH.
Qed.
Fixpoint count_calls (win : bool) {A} (p : prog A) (s : world) : nat :=
  match p with
  | Ret _ => O
  | Call c k => let (a, s') := OsModel.answer win None c s in S (count_calls win (k a) s')
  end.

(** ** C64 *)
(** One process, no faults: before the last call the new pack is visible without its index, and
    every query of a database that looks at the directory then raises FileNotFoundError. *)
Theorem C64_between_refuted : exists (s : world) (q : prog path),
  steps calm ex_create ex_w0 q s /\ contents s ex_pp = Some ex_data /\ contents s ex_ip = None /\
  packs_in (dir_at ex_base 1 s) (basename ex_pp) /\
  forall sha, fst (has_object (mk_env (Some (dir_at ex_base 1 s)) (fun l => l)) sha packed_init) = Raise FileNotFound.
Proof.
  set (n := (count_calls false ex_create ex_w0 - 1)%nat).
  exists (snd (first_calls n ex_create ex_w0)), (fst (first_calls n ex_create ex_w0)). split; [apply first_calls_steps; by_vm|].
  split; [by_vm|]. split; [by_vm|]. split; [apply glob_in; vm_compute; now left|]. intros sha. by_vm.
Qed.
Print Assumptions C64_between_refuted.
(** In general: every creation of a new pack that returns passes such a moment, on any system;
    a database that looks at the directory then raises FileNotFoundError for every object that
    is not in another pack, and cannot be listed. *)
Theorem C64_every_create_refuted :
  forall (K : zlib) (sha1 : bytes -> bytes) (pagesize : Z) (R : Type) (oread : R -> Z -> res (bytes * R)) (fuel : nat) (O : os) (base : path)
    (level : Z) (objs : list wobj) (object_count : option Z) (s0 s : world) (pp : path),
  let create := create_pack K sha1 pagesize oread fuel base level objs object_count in
  may_fail O KShort = false -> wf s0 -> runs O create s0 (Ok pp) s ->
  exists name iname, pack_and_index name iname /\ pp = base ++ [name] /\ (contents s0 (base ++ [iname]) = None ->
  exists q s1, steps O create s0 q s1 /\ steps O q s1 (Ret (Ok pp)) s /\ contents s1 pp <> None /\ contents s1 (base ++ [iname]) = None /\
    forall U m e, (forall n, packs_in (dir_at base m s0) n -> there U (dir_at base m s0) n) -> contents s0 pp = None -> proper_env e (dir_at base m s1) ->
      fst (size e packed_init) = Raise FileNotFound /\ fst (sha_iter e packed_init) = Raise FileNotFound /\
      forall sha, sha_ok sha -> (forall n k, packs_in (dir_at base m s0) n -> U n = Some k -> ~ In sha (k_shas k)) -> fst (has_object e sha packed_init) = Raise FileNotFound).
Proof. intros K sha1 pagesize R oread fuel O base level objs oc s0 s pp create Hs Hw Hr. exact (gap_seen sha1 pagesize oread fuel O Hs base level objs oc s0 pp s Hw Hr). Qed.
Print Assumptions C64_every_create_refuted.
Example C64_every_create_example : runs calm ex_create ex_w0 (Ok ex_pp) ex_w1 /\ wf ex_w0 /\ contents ex_w0 ex_pp = None /\ contents ex_w0 ex_ip = None /\
  (forall n, ~ packs_in (dir_at ex_base 1 ex_w0) n).
Proof.
  split; [exact ex_runs|]. split; [apply wf_empty|]. split; [reflexivity|]. split; [reflexivity|]. intros n ((c & H) & _). exact H.
Qed.
(** The names are never those git looks for: a run that returns (in any surroundings that only
    rename complete files to such names) has made pack-b'<hex>'.pack. *)
Theorem C64_names_refuted :
  forall (K : zlib) (sha1 : bytes -> bytes) (pagesize : Z) (R : Type) (oread : R -> Z -> res (bytes * R)) (fuel : nat) (O : os) (base : path)
    (level : Z) (objs : list wobj) (object_count : option Z) (s0 s : world) (pp : path),
  may_fail O KShort = false -> wf s0 ->
  runs O (create_pack K sha1 pagesize oread fuel base level objs object_count) s0 (Ok pp) s ->
  forall psha name idx, is_bytes psha -> git_names psha name idx -> pp <> base ++ [name].
Proof.
  intros K sha1 pagesize R oread fuel O base level objs oc s0 s pp Hs Hw Hr psha name idx Hb [-> _] ->.
  destruct (create_alone K sha1 pagesize oread O Hs base fuel level objs oc s0 _ s Hw Hr) as (ip & pack & ix & (psha' & isha & name & iname & _ & (-> & _) & E & _) & _).
  apply app_inj_tail in E as [_ E]. cbn [app] in E. injection E as E.
  destruct psha as [|b psha]; [discriminate|]. cbn in E. injection E as _ E _. revert E. inversion_clear Hb as [|? ? H _]. unfold is_byte in H.
  unfold hex_digit. pose proof (Z.mod_pos_bound b 16). destruct (_ <? 10) eqn:?; lia.
Qed.
Print Assumptions C64_names_refuted.
(** Short writes go unnoticed: both files get their final names, the pack is incomplete. *)
Theorem C64_short_writes_refuted : exists (s : world),
  runs short_writes ex_create ex_w0 (Ok ex_pp) s /\ ex_made ex_job ex_pp ex_ip ex_data ex_index /\
  contents s ex_pp = Some (skipn 12 ex_data) /\ contents s ex_ip = Some ex_index.
Proof.
  exists (snd (run_plan (windows short_writes) [Some 0] ex_create ex_w0)). split; [apply plan_runs; [easy|by_vm|by_vm]|].
  split; [apply ex_job_made|]. split; by_vm.
Qed.
Print Assumptions C64_short_writes_refuted.

(** So it is on every system with short writes, for all objects that can be written, and every
    part of the header: the pack lacks bytes, the index is complete, and the call returns. *)
Theorem C64_every_short_write_refuted :
  forall (K : zlib) (sha1 : bytes -> bytes) (pagesize : Z) (R : Type) (oread : R -> Z -> res (bytes * R)) (fuel : nat) (O : os) (base : path)
    (level : Z) (objs : list wobj) (object_count : option Z) (pack psha idx isha : bytes) (s : world) (k : Z),
  may_fail O KShort = true -> room O base s -> wf s -> free_name base s str_pack -> free_name base s str_index ->
  write_pack K sha1 pagesize oread fuel level objs object_count = Ok (pack, psha, idx, isha) -> 0 <= k < 12 ->
  exists pp ip s', runs O (create_pack K sha1 pagesize oread fuel base level objs object_count) s (Ok pp) s' /\
    made K sha1 pagesize oread fuel base (mk_job level objs object_count) pp ip pack idx /\
    contents s' pp = Some (firstn (Z.to_nat k) pack ++ skipn 12 pack) /\ contents s' ip = Some idx.
Proof.
  intros K sha1 pagesize R oread fuel O base level objs oc pack psha idx isha s k Hs Hr Hw H1 H2 Hp Hk.
  destruct (create_short K sha1 pagesize oread fuel O Hs base level objs oc pack psha idx isha s k Hr Hw H1 H2 Hp Hk) as (s' & H & Hc). eexists _, _, s'. split; [exact H|]. split; [|exact Hc].
  exists psha, isha, (new_name psha str_dot_pack), (new_name psha str_dot_idx). split; [exact Hp|]. split; [apply new_names|easy].
Qed.
Print Assumptions C64_every_short_write_refuted.
Example C64_every_short_write_example : room short_writes ex_base ex_w0 /\ free_name ex_base ex_w0 str_pack /\ free_name ex_base ex_w0 str_index /\
  exists psha isha, write_pack stored toy_sha 1 file_read 20 0 ex_wobjs None = Ok (ex_data, psha, ex_index, isha).
Proof.
  split; [split; [easy|]; split; [easy|]; intros n; destruct n; reflexivity|].
  split; [exists (tmp_name 0); split; [apply tmp_name_suffix|reflexivity]|]. split; [exists (tmp_name 0); split; [apply tmp_name_suffix|reflexivity]|].
  destruct ex_job_made as (psha & isha & _ & _ & E & _). now exists psha, isha.
Qed.

Section Creating.
  Context (K : zlib) (sha1 : bytes -> bytes) (pagesize : Z) (R : Type) (oread : R -> Z -> res (bytes * R)) (fuel : nat) (O : os) (base : path).
  Definition creating (j : job R) : prog path := create_pack K sha1 pagesize oread fuel base (j_level j) (j_objs j) (j_count j).
End Creating.
(** What is true instead, if writes are not short (every other call may fail).  At every moment
    of any number of processes creating packs in one directory, a file that a scanner of the
    directory looks at is as before, or is a complete new pack, or is the complete index of
    a complete new pack that is there. *)
Theorem C64_visible_partial :
  forall (K : zlib) (sha1 : bytes -> bytes) (pagesize : Z) (R : Type) (oread : R -> Z -> res (bytes * R)) (fuel : nat) (O : os) (base : path)
    (js : list (job R)) (s0 s : world) (l : list (prog path)),
  may_fail O KShort = false -> wf s0 ->
  interleaved O (map (creating K sha1 pagesize R oread fuel base) js) s0 l s ->
  forall p, scanned base p -> contents s p = contents s0 p \/
    new_pack K sha1 pagesize oread fuel base js s p \/ new_index K sha1 pagesize oread fuel base js s p.
Proof.
  intros K sha1 pagesize R oread fuel O base js s0 s l Hs Hw H p Hp.
  destruct (creators K sha1 pagesize oread fuel O Hs base js s0 l s Hw H) as (H1 & _). destruct (H1 p) as [E|[[E _]|E]]; [now left| |now right].
  elim (scratch_not_scanned base p E Hp).
Qed.
Print Assumptions C64_visible_partial.
(** Files of other names: only create's own temporary files, under names that were not in use. *)
Theorem C64_others_partial :
  forall (K : zlib) (sha1 : bytes -> bytes) (pagesize : Z) (R : Type) (oread : R -> Z -> res (bytes * R)) (fuel : nat) (O : os) (base : path)
    (js : list (job R)) (s0 s : world) (l : list (prog path)),
  may_fail O KShort = false -> wf s0 ->
  interleaved O (map (creating K sha1 pagesize R oread fuel base) js) s0 l s ->
  forall p, ~ scanned base p -> contents s p = contents s0 p \/ (scratch base p /\ contents s0 p = None).
Proof.
  intros K sha1 pagesize R oread fuel O base js s0 s l Hs Hw H p Hp.
  destruct (creators K sha1 pagesize oread fuel O Hs base js s0 l s Hw H) as (H1 & _). destruct (H1 p) as [E|[E|[E|E]]]; [now left|now right| |]; elim Hp.
  - destruct E as (j & ip & pack & idx & _ & Hm & _). apply (made_scanned K sha1 pagesize oread fuel base _ _ _ _ _ Hm).
  - destruct E as (j & pp & pack & idx & _ & Hm & _). apply (made_scanned K sha1 pagesize oread fuel base _ _ _ _ _ Hm).
Qed.
Print Assumptions C64_others_partial.
(** Each process, however the others interfere: if it returns, its pack and its index are there,
    complete; if no call can fail, it raises only what write_pack raises; if all have
    returned, no temporary file is left. *)
Theorem C64_result_partial :
  forall (K : zlib) (sha1 : bytes -> bytes) (pagesize : Z) (R : Type) (oread : R -> Z -> res (bytes * R)) (fuel : nat) (O : os) (base : path)
    (js : list (job R)) (s0 s : world) (l : list (prog path)),
  may_fail O KShort = false -> wf s0 ->
  interleaved O (map (creating K sha1 pagesize R oread fuel base) js) s0 l s ->
  Forall2 (fun j q => outcome K sha1 pagesize oread fuel O base js s0 j s q) js l /\
  (Forall returned l -> forall p, contents s p = contents s0 p \/
     new_pack K sha1 pagesize oread fuel base js s p \/ new_index K sha1 pagesize oread fuel base js s p).
Proof.
  intros K sha1 pagesize R oread fuel O base js s0 s l Hs Hw H.
  now destruct (creators K sha1 pagesize oread fuel O Hs base js s0 l s Hw H) as (_ & H2).
Qed.
Print Assumptions C64_result_partial.

(** Two processes, one after the other's first call. *)
Definition ex_job2 : job bytes := mk_job 0 (firstn 1 ex_wobjs) None.
Notation ex_creating := (creating stored toy_sha 1 bytes file_read 20 ex_base).
Lemma interleaved_left O A (p : prog A) l s p' s' l'' s'' : steps O p s p' s' -> interleaved O (p' :: l) s' l'' s'' -> interleaved O (p :: l) s l'' s''.
Proof. induction 1 as [|p s p1 s1 p2 s2 H1 _ IH]; [easy|]. intros H. apply (il_step O [] p l s p1 s1); [exact H1|]. now apply IH. Qed.
Lemma interleaved_right O A (q p : prog A) s p' s' l'' s'' : steps O p s p' s' -> interleaved O [q; p'] s' l'' s'' -> interleaved O [q; p] s l'' s''.
Proof. induction 1 as [|p s p1 s1 p2 s2 H1 _ IH]; [easy|]. intros H. apply (il_step O [q] p [] s p1 s1); [exact H1|]. now apply IH. Qed.
Definition ex_m1 : prog path * world := first_calls 9 (ex_creating ex_job) ex_w0.
Definition ex_m2 : prog path * world := first_calls 1000 (ex_creating ex_job2) (snd ex_m1).
Definition ex_m3 : prog path * world := first_calls 1000 (fst ex_m1) (snd ex_m2).
Definition listing (s : world) : list (path * Z) := map (fun e => (fst e, len (w_data s (snd e)))) (w_files s).
Example C64_ex : interleaved calm (map ex_creating [ex_job; ex_job2]) ex_w0 [fst ex_m3; fst ex_m2] (snd ex_m3) /\ wf ex_w0 /\ room calm ex_base ex_w0 /\
  fst ex_m3 = Ret (Ok ex_pp) /\ (exists pp, fst ex_m2 = Ret (Ok pp) /\ pp <> ex_pp) /\
  map snd (listing (snd ex_m1)) = [0; 48] /\ map snd (listing (snd ex_m3)) = [1128; len ex_data; 1100; 50].
Proof.
  split.
  { apply (interleaved_left _ _ _ _ _ (fst ex_m1) (snd ex_m1)); [apply first_calls_steps; by_vm|].
    apply (interleaved_right _ _ _ _ _ (fst ex_m2) (snd ex_m2)); [apply first_calls_steps; by_vm|].
    apply (interleaved_left _ _ _ _ _ (fst ex_m3) (snd ex_m3)); [apply first_calls_steps; by_vm|constructor]. }
  split; [apply wf_empty|]. split; [split; [easy|]; split; [reflexivity|]; intros n; now vm_compute|].
  split; [by_vm|]. split; [eexists; split; [vm_compute; reflexivity|vm_compute; discriminate]|]. split; vm_compute; reflexivity.
Qed.

(** ** C80 *)
(** The object's declared size is wrong: create raises and leaves its two temporary files. *)
Definition ex_bad : list (@wobj bytes) := [mk_wobj (PBytes str_blob_type) 5 ex_s3 ex_hi].
Theorem C80_leftovers_refuted : exists (s : world) (t1 t2 : path),
  runs calm (create_pack stored toy_sha 1 file_read 20 ex_base 0 ex_bad None) ex_w0 (Raise AssertionError) s /\
  t1 <> t2 /\ contents ex_w0 t1 = None /\ contents ex_w0 t2 = None /\ contents s t1 <> None /\ contents s t2 <> None.
Proof.
  set (p := create_pack stored toy_sha 1 file_read 20 ex_base 0 ex_bad None).
  exists (snd (run_plan (windows calm) [] p ex_w0)), (ex_base ++ [str_pack ++ tmp_name 0]), (ex_base ++ [str_index ++ tmp_name 1]).
  split; [apply plan_runs; [easy|by_vm|by_vm]|]. split; [vm_compute; discriminate|]. split; [reflexivity|]. split; [reflexivity|].
  split; vm_compute; discriminate.
Qed.
Print Assumptions C80_leftovers_refuted.
(** In general: whenever the objects cannot be written (write_pack raises) and the two temporary
    files can be made, create raises and both of them remain. *)
Theorem C80_every_leftovers_refuted :
  forall (K : zlib) (sha1 : bytes -> bytes) (pagesize : Z) (R : Type) (oread : R -> Z -> res (bytes * R)) (fuel : nat) (O : os) (base : path)
    (j : job R) (s0 s : world) (r : res path) (e : exn),
  may_fail O KShort = false -> may_fail O KCreate = false -> wf s0 -> is_dir s0 base = true ->
  write_pack K sha1 pagesize oread fuel (j_level j) (j_objs j) (j_count j) = Raise e ->
  runs O (creating K sha1 pagesize R oread fuel base j) s0 r s ->
  (exists e', r = Raise e' /\ (e' = e \/ e' = OSError)) /\
  exists t1 t2, t1 <> t2 /\ scratch base t1 /\ scratch base t2 /\
    contents s0 t1 = None /\ contents s0 t2 = None /\ contents s t1 <> None /\ contents s t2 <> None.
Proof. intros K sha1 pagesize R oread fuel O base j s0 s r e. exact (leftovers K sha1 pagesize R oread fuel O base j s0 s r e). Qed.
Print Assumptions C80_every_leftovers_refuted.
Example C80_every_example : may_fail calm KShort = false /\ may_fail calm KCreate = false /\ wf ex_w0 /\ is_dir ex_w0 ex_base = true /\
  write_pack stored toy_sha 1 file_read 20 0 ex_bad None = Raise AssertionError /\
  exists s, runs calm (creating stored toy_sha 1 bytes file_read 20 ex_base (mk_job 0 ex_bad None)) ex_w0 (Raise AssertionError) s.
Proof.
  do 2 (split; [reflexivity|]). split; [apply wf_empty|]. split; [reflexivity|]. split; [by_vm|].
  destruct C80_leftovers_refuted as (s & t1 & t2 & H & _). exists s. exact H.
Qed.
(** Partial: if the objects cannot be written (write_pack raises), then at no moment has any
    file that was there changed, nor is there any new one but temporary files, which a scanner
    does not look at.  If the system fails later, the pack may be there without its index. *)
Theorem C80_nothing_published_partial :
  forall (K : zlib) (sha1 : bytes -> bytes) (pagesize : Z) (R : Type) (oread : R -> Z -> res (bytes * R)) (fuel : nat) (O : os) (base : path)
    (j : job R) (s0 s : world) (q : prog path) (e : exn),
  may_fail O KShort = false -> wf s0 ->
  write_pack K sha1 pagesize oread fuel (j_level j) (j_objs j) (j_count j) = Raise e ->
  steps O (creating K sha1 pagesize R oread fuel base j) s0 q s ->
  forall p, contents s p = contents s0 p \/ (scratch base p /\ contents s0 p = None).
Proof.
  intros K sha1 pagesize R oread fuel O base j s0 s q e Hs Hw He H p.
  destruct (creators K sha1 pagesize oread fuel O Hs base [j] s0 [q] s Hw (steps_interleaved _ _ _ _ _ _ H)) as (H1 & _).
  destruct (H1 p) as [E|[E|[E|E]]]; [now left|now right| |]; exfalso.
  - destruct E as (j' & ip & pack & idx & [<-|[]] & (psha & isha & name & iname & E & _) & _). congruence.
  - destruct E as (j' & pp & pack & idx & [<-|[]] & (psha & isha & name & iname & E & _) & _). congruence.
Qed.
Print Assumptions C80_nothing_published_partial.
Example C80_ex : write_pack stored toy_sha 1 file_read 20 0 ex_bad None = Raise AssertionError /\
  stops calm (ex_creating (mk_job 0 ex_bad None)) ex_w0 (snd (first_calls 4 (ex_creating (mk_job 0 ex_bad None)) ex_w0)) /\
  map snd (listing (snd (first_calls 4 (ex_creating (mk_job 0 ex_bad None)) ex_w0))) = [0; 13].
Proof. split; [by_vm|]. split; [eexists; apply first_calls_steps; by_vm|by_vm]. Qed.

(** ** C81 *)
(** A pack with the name of the new one may have been there (the name is the sha of the pack), if
    all of its objects are in the new one. *)
Theorem C81_created_found :
  forall (K : zlib) (L : zlib_laws K) (sha1 : bytes -> bytes) (pagesize : Z) (R : Type) (oread : R -> Z -> res (bytes * R)) (content : R -> bytes),
  (forall d, len (sha1 d) = 20) -> 0 < pagesize -> stream_reader oread content ->
  forall (fuel : nat) (O : os) (base : path) (level : Z) (objs : list wobj) (s0 s : world) (pp : path)
    (U : bytes -> option pack) (m0 m : Z) (order : list bytes -> list bytes),
  may_fail O KShort = false -> wf s0 ->
  Forall (good_obj content) objs -> Forall sha_ok (map wo_binsha objs) -> NoDup (map wo_binsha objs) -> len objs <= 2 ^ 31 ->
  (forall n, packs_in (dir_at base m0 s0) n -> there U (dir_at base m0 s0) n) ->
  (forall n k, packs_in (dir_at base m0 s0) n -> base ++ [n] = pp -> U n = Some k -> incl (k_shas k) (map wo_binsha objs)) ->
  runs O (create_pack K sha1 pagesize oread fuel base level objs None) s0 (Ok pp) s ->
  (forall pack, contents s pp = Some pack -> len pack < 2 ^ 64) -> (forall l, Permutation (order l) l) ->
  let e := mk_env (Some (dir_at base m s)) order in
  let old sha := exists n k, packs_in (dir_at base m0 s0) n /\ U n = Some k /\ In sha (k_shas k) in
  (forall sha, sha_ok sha -> exists b, fst (has_object e sha packed_init) = Ok b /\ (b = true <-> In sha (map wo_binsha objs) \/ old sha)) /\
  (forall o, In o objs -> (forall n k, packs_in (dir_at base m0 s0) n -> base ++ [n] <> pp -> U n = Some k -> ~ In (wo_binsha o) (k_shas k)) ->
     exists ent, reads_back L content level ent o /\
     (forall f, fst (info K f e (wo_binsha o) packed_init) = entity_info K f ent (wo_binsha o)) /\
     (forall f, fst (stream K f e (wo_binsha o) packed_init) = entity_stream K f ent (wo_binsha o))).
Proof.
  intros K L sha1 pagesize R oread content Hsha Hps Hrd fuel O base level objs s0 s pp U m0 m order Hs Hw Hg Hok Hnd Hn Hold Hsame Hr Hsize Hord e old.
  assert (Hw' : wf s) by exact (steps_wf _ _ _ _ _ _ Hr Hw).
  apply (created_found L sha1 Hsha pagesize Hps oread content (reader_chunks pagesize Hps oread content Hrd) O Hs base fuel level objs s0 pp s U m0 m e); try assumption.
  split; [reflexivity|]. split; [now apply dir_at_nodup|exact Hord].
Qed.
Print Assumptions C81_created_found.
Example C81_ex : runs calm ex_create ex_w0 (Ok ex_pp) ex_w1 /\ contents ex_w0 ex_pp = None /\ (forall n, ~ packs_in (dir_at ex_base 0 ex_w0) n) /\
  map (fun sha => fst (has_object (mk_env (Some (dir_at ex_base 1 ex_w1)) (fun l => l)) sha packed_init)) [ex_s3; ex_s1; ex_s2] = [Ok true; Ok true; Ok false].
Proof.
  split; [apply ex_runs|]. split; [reflexivity|]. split; [intros n [(c & []) _]|]. by_vm.
Qed.
(** The same pack again. *)
Definition ex_w2 : world := snd (run_plan (windows calm) [] ex_create ex_w1).
Example C81_again_example : runs calm ex_create ex_w1 (Ok ex_pp) ex_w2 /\ contents ex_w1 ex_pp = Some ex_data /\ contents ex_w2 ex_pp = Some ex_data /\
  map (fun sha => fst (has_object (mk_env (Some (dir_at ex_base 1 ex_w2)) (fun l => l)) sha packed_init)) [ex_s3; ex_s1; ex_s2] = [Ok true; Ok true; Ok false].
Proof. split; [apply plan_runs; [easy|by_vm|by_vm]|]. split; [by_vm|]. split; by_vm. Qed.
