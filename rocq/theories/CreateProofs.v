(** What PackEntity.create writes, step by step, while others leave its files alone. *)
From Coq Require Import ZifyBool ZifyNat.
From Verif Require Import Py PyFacts FunModel FunSpec IndexModel ZlibModel ReaderModel Crc32 PackModel OsModel OsProofs PackDbModel PackDbSpec CreateModel CreateSpec.
Ltac Zify.zify_post_hook ::= Z.div_mod_to_equations.

(** ** The files of a process *)
Inductive phase := Start | One (t1 : path) (f1 : ino) | Two (t1 : path) (f1 : ino) (t2 : path) (f2 : ino) | Packed (t2 : path) (f2 : ino) | Done.
Definition owned (g : phase) : list (path * ino) :=
  match g with
  | Start | Done => []
  | One t1 f1 => [(t1, f1)]
  | Two t1 f1 t2 f2 => [(t1, f1); (t2, f2)]
  | Packed t2 f2 => [(t2, f2)]
  end.
(** What the others leave alone: the files of the process, and ([keep]) the directories. *)
Definition others (keep : bool) (g : phase) (s s' : world) : Prop :=
  (wf s -> wf s') /\ (keep = true -> w_dirs s' = w_dirs s) /\
  forall t fd, In (t, fd) (owned g) -> lookup s t = Some fd -> lookup s' t = Some fd /\ w_data s' fd = w_data s fd.
Lemma others_refl keep g s : others keep g s s.
Proof. easy. Qed.
Lemma others_trans keep g s1 s2 s3 : others keep g s1 s2 -> others keep g s2 s3 -> others keep g s1 s3.
Proof.
  intros (H1 & H0 & H2) (H3 & H5 & H4). split; [auto|]. split; [intros Hk; rewrite (H5 Hk); now apply H0|]. intros t fd E Hl.
  destruct (H2 t fd E Hl) as [Ha Hb]. destruct (H4 t fd E Ha) as [Hc Hd]. split; [easy|congruence].
Qed.

(** Names. *)
Lemma new_names sha : actual_names sha (new_name sha str_dot_pack) (new_name sha str_dot_idx).
Proof. unfold actual_names, new_name, quoted, str_pack_dash, str_dot_pack, str_dot_idx. rewrite <- !app_assoc. now split. Qed.

Lemma scratch_not_scanned base t : scratch base t -> ~ scanned base t.
Proof.
  intros (pre & suf & Hpre & [Hl Hf] & ->) (name & idx & (x & -> & ->) & H).
  assert (forall y, pre ++ suf <> [112; 97; 99; 107; 45] ++ y) as Hne.
  { intros y E. destruct Hpre as [-> | ->]; [|discriminate]. destruct suf as [|c suf]; [discriminate|]. cbn [app] in E. injection E as -> _.
    inversion Hf as [|? ? Hc _]; subst. unfold tmp_char in Hc. lia. }
  destruct H as [H|H]; apply app_inj_tail in H as [_ H]; now apply Hne in H.
Qed.
Lemma new_scanned base sha name idx : actual_names sha name idx -> scanned base (base ++ [name]) /\ scanned base (base ++ [idx]).
Proof.
  intros [-> ->]. split; (exists ([112; 97; 99; 107; 45; 98; 39] ++ bin_to_hex sha ++ [39; 46; 112; 97; 99; 107]), ([112; 97; 99; 107; 45; 98; 39] ++ bin_to_hex sha ++ [39; 46; 105; 100; 120]); split; [|auto]);
    exists ([98; 39] ++ bin_to_hex sha ++ [39]); rewrite <- !app_assoc; easy.
Qed.

Section Create.
  Context (K : zlib) (sha1 : bytes -> bytes) (pagesize : Z) {R : Type} (oread : R -> Z -> res (bytes * R)) (fuel : nat).
  Context (O : os) (Hshort : may_fail O KShort = false) (base : path) (keep : bool).

  (** What one step may do. *)
  Inductive cstep (j : job R) : phase -> phase -> world -> world -> Prop :=
  | c_same g s : cstep j g g s s
  | c_one s t : scratch base t -> path_exists s t = false -> cstep j Start (One t (w_next s)) s (OsModel.create s t)
  | c_two s t1 f1 t : scratch base t -> path_exists s t = false -> cstep j (One t1 f1) (Two t1 f1 t (w_next s)) s (OsModel.create s t)
  | c_write g s t fd d : In (t, fd) (owned g) -> lookup s t = Some fd -> cstep j g g s (set_data s fd d)
  | c_pack s t1 f1 t2 f2 pp ip pack idx : made K sha1 pagesize oread fuel base j pp ip pack idx ->
      lookup s t1 = Some f1 -> w_data s f1 = pack -> cstep j (Two t1 f1 t2 f2) (Packed t2 f2) s (link (unlink s t1) pp f1)
  | c_index s t2 f2 pp ip pack idx : made K sha1 pagesize oread fuel base j pp ip pack idx ->
      lookup s t2 = Some f2 -> w_data s f2 = idx -> cstep j (Packed t2 f2) Done s (link (unlink s t2) ip f2).
  Definition guar (j : job R) (g : phase) (e : event) (g' : phase) (s s' : world) : Prop := cstep j g g' s s'.
  Notation wpj j := (wp O (others keep) (guar j)).

  (** ** Writing the two files *)
  Section Files.
    Context (j : job R) (t1 : path) (f1 : ino) (t2 : path) (f2 : ino) (Hf : f1 <> f2).
    Notation g := (Two t1 f1 t2 f2).
    Definition st (s : world) (d1 d2 : bytes) : Prop := (lookup s t1 = Some f1 /\ w_data s f1 = d1) /\ lookup s t2 = Some f2 /\ w_data s f2 = d2.
    Lemma st_others s s' d1 d2 : st s d1 d2 -> others keep g s s' -> st s' d1 d2.
    Proof.
      intros [[A B] [C D]] (_ & _ & H). destruct (H t1 f1 (or_introl eq_refl) A) as [E F].
      destruct (H t2 f2 (or_intror (or_introl eq_refl)) C) as [G I]. repeat split; congruence.
    Qed.
    (** A program that appends to the pack (b) or the index, as the pure computation c says,
        unless a write fails. *)
    Definition fd_of (b : bool) : ino := if b then f1 else f2.
    Definition emits (b : bool) {A} (p : prog A) (c : res (A * bytes)) : Prop :=
      forall s d1 d2, st s d1 d2 -> wpj j p g s (fun r g' s' => g' = g /\
        match r with
        | Ok a => exists out, c = Ok (a, out) /\ st s' (if b then d1 ++ out else d1) (if b then d2 else d2 ++ out)
        | Raise e => (c = Raise e \/ (e = OSError /\ may_fail O KWrite = true)) /\ exists d1 d2, st s' d1 d2
        | Diverge => c = Diverge
        end).
    Lemma emits_eq b A (p : prog A) c c' : emits b p c -> c = c' -> emits b p c'.
    Proof. now intros H <-. Qed.
    Lemma emits_res b A (r : res A) : emits b (Ret r) (let! a := r in Ok (a, [])).
    Proof.
      intros s d1 d2 H. cbn [wp]. split; [easy|]. destruct r as [a|e|]; cbn [bind]; [|split; [now left|now exists d1, d2]|easy].
      exists []. split; [easy|]. rewrite !app_nil_r. now destruct b.
    Qed.
    Lemma emits_ok b A (a : A) : emits b (ret a) (Ok (a, [])).
    Proof. apply (emits_res b A (Ok a)). Qed.
    Lemma emits_bind b A B (p : prog A) (f : A -> prog B) c k : emits b p c -> (forall a, emits b (f a) (k a)) ->
      emits b (pbind p f) (let! (a, o) := c in let! (x, o') := k a in Ok (x, o ++ o')).
    Proof.
      intros H1 H2 s d1 d2 Hst. apply wp_bind. eapply wp_mono; [|exact (H1 s d1 d2 Hst)]. intros r g' s' [-> Hr].
      destruct r as [a|e|].
      - destruct Hr as (out & -> & Hst'). eapply wp_mono; [|exact (H2 a s' _ _ Hst')]. intros r g' s'' [-> Hr]. split; [easy|].
        cbn [bind]. destruct r as [x|e|]; [|destruct Hr as [[->|Hr] Hx]; (split; [|easy]); [now left|now right]|now rewrite Hr].
        destruct Hr as (out' & -> & Hst''). exists (out ++ out'). split; [easy|]. destruct b; now rewrite app_assoc.
      - split; [easy|]. destruct Hr as [[->|Hr] Hx]; (split; [|easy]); [now left|now right].
      - split; [easy|]. now rewrite Hr.
    Qed.
    Lemma emits_let b A B (r : res A) (f : A -> prog B) k : (forall a, r = Ok a -> emits b (f a) (k a)) ->
      emits b (pbind (Ret r) f) (let! a := r in k a).
    Proof.
      intros H s d1 d2 Hst. apply wp_bind. cbn [wp]. destruct r as [a|e|]; cbn [bind]; [now apply H| |easy].
      split; [easy|]. split; [now left|now exists d1, d2].
    Qed.
    Lemma emits_write b d : emits b (do! _ := sysr (Write (fd_of b) d) in ret tt) (Ok (tt, d)).
    Proof.
      intros s d1 d2 Hst. apply wp_bind, wp_sysr. intros s1 a s2 Hr Hc. pose proof (st_others _ _ _ _ Hst Hr) as Hst1.
      destruct Hc as [(Hk & -> & ->)|[(Hk & _)|(-> & ->)]].
      - exists g. split; [constructor|]. split; [easy|]. split; [now right|now exists d1, d2].
      - congruence.
      - exists g. split.
        + destruct Hst1 as [[A B] [C D]]. destruct b; [apply (c_write j g s1 t1 f1)|apply (c_write j g s1 t2 f2)]; try easy; cbn [owned In]; auto.
        + cbn [wp]. split; [easy|]. exists d. split; [easy|]. destruct Hst1 as [[A B] [C D]]. unfold st. rewrite !lookup_set_data, !data_set_data.
          destruct b; cbn [fd_of]; rewrite Nat.eqb_refl.
          * replace (Nat.eqb f2 f1) with false by lia. repeat split; congruence.
          * replace (Nat.eqb f1 f2) with false by lia. repeat split; congruence.
    Qed.
    Lemma emits_flex b seen d : emits b (flex_write (fd_of b) seen d) (Ok (seen ++ d, d)).
    Proof.
      intros s d1 d2 Hst. pose proof (emits_write b d s d1 d2 Hst) as H. unfold flex_write in *. cbn [pbind after sysr wp ret] in *.
      intros s1 a s2 H1 H2. destruct (H s1 a s2 H1 H2) as (g' & HG & Hw). exists g'. split; [easy|].
      destruct a as [n|e|]; cbn [after wp ret] in *.
      - destruct Hw as [-> (out & E & Hst')]. split; [easy|]. injection E as <-. now exists d.
      - destruct Hw as [-> [[Hw|Hw] Hx]]; [discriminate|]. split; [easy|]. split; [now right|easy].
      - destruct Hw as [_ Hw]. discriminate.
    Qed.
    Lemma emits_then b d A (p : prog A) c : emits b p c ->
      emits b (do! _ := sysr (Write (fd_of b) d) in p) (let! (a, o) := c in Ok (a, d ++ o)).
    Proof.
      intros Hp s d1 d2 Hst. pose proof (emits_write b d s d1 d2 Hst) as H. cbn [pbind after sysr wp ret] in *.
      intros s1 a s2 H1 H2. destruct (H s1 a s2 H1 H2) as (g' & HG & Hw). exists g'. split; [easy|].
      destruct a as [n|e|]; cbn [after wp ret] in *.
      - destruct Hw as [-> (out & E & Hst')]. injection E as <-. eapply wp_mono; [|exact (Hp s2 _ _ Hst')]. intros r g' s' [-> Hr]. split; [easy|].
        destruct r as [x|e|]; [|destruct Hr as [[->|Hr] Hx]; (split; [|easy]); [now left|now right]|now rewrite Hr].
        destruct Hr as (o & -> & Hr). exists (d ++ o). split; [easy|]. destruct b; now rewrite app_assoc.
      - destruct Hw as [-> [[Hw|Hw] Hx]]; [discriminate|]. split; [easy|]. split; [now right|easy].
      - destruct Hw as [_ Hw]. discriminate.
    Qed.
    (** The usual step: write, then go on. *)
    Lemma emits_flex_bind b seen d A (f : bytes -> prog A) k : emits b (f (seen ++ d)) (k (seen ++ d)) ->
      emits b (pbind (flex_write (fd_of b) seen d) f) (let! (x, o) := k (seen ++ d) in Ok (x, d ++ o)).
    Proof.
      intros H s d1 d2 Hst. apply wp_bind. eapply wp_mono; [|exact (emits_flex b seen d s d1 d2 Hst)]. intros r g' s' [-> Hr].
      destruct r as [a|e|].
      - destruct Hr as (out & E & Hst'). injection E as <- <-. eapply wp_mono; [|exact (H s' _ _ Hst')]. intros r g' s'' [-> Hr]. split; [easy|].
        destruct r as [x|e|]; [|destruct Hr as [[->|Hr] Hx]; (split; [|easy]); [now left|now right]|now rewrite Hr].
        destruct Hr as (o & -> & Hr). exists (d ++ o). split; [easy|]. destruct b; now rewrite app_assoc.
      - split; [easy|]. destruct Hr as [[Hr|Hr] Hx]; [discriminate|]. split; [now right|easy].
      - discriminate Hr.
    Qed.

    (** *** The pack *)
    Lemma wstp_acc : forall f r z br crc out,
      wstp_loop K pagesize oread f r z br crc out =
      let! (br, crc, out', z, r) := wstp_loop K pagesize oread f r z br crc [] in Ok (br, crc, out ++ out', z, r).
    Proof.
      induction f as [|f IH]; intros r z br crc out; [easy|]. cbn [wstp_loop]. destruct (oread r _) as [[chunk r']| |]; cbn [bind]; [|easy|easy].
      destruct (zc_compress K z chunk) as [c z']. destruct (negb _); [easy|]. cbn [app]. rewrite IH. rewrite (IH _ _ _ _ c).
      destruct (wstp_loop K pagesize oread f r' z' _ _ []) as [[[[[? ?] ?] ?] ?]| |]; cbn [bind]; [|easy|easy]. now rewrite app_assoc.
    Qed.
    Lemma emits_stream : forall f seen r z br bw crc,
      emits true (stream_to_fd K pagesize oread f f1 seen r z br bw crc)
        (let! (br, crc, out, z, r) := wstp_loop K pagesize oread f r z br crc [] in Ok ((seen ++ out, br, bw + len out, crc, z), out)).
    Proof.
      induction f as [|f IH]; intros seen r z br bw crc; [apply (emits_res true _ Diverge)|]. cbn [stream_to_fd wstp_loop].
      eapply emits_eq.
      - apply emits_let with (k := fun p : bytes * R => let (chunk, r) := p in let (c, z) := zc_compress K z chunk in
          let! (x, o) := (if negb (len chunk =? chunk_size pagesize) then Ok ((seen ++ c, br + len chunk, bw + len c, crc32 c crc, z), [])
            else let! (br, crc, out, z, r) := wstp_loop K pagesize oread f r z (br + len chunk) (crc32 c crc) [] in
                 Ok (((seen ++ c) ++ out, br, (bw + len c) + len out, crc, z), out)) in Ok (x, c ++ o)).
        intros [chunk r'] _. destruct (zc_compress K z chunk) as [c z'].
        apply (emits_flex_bind true seen c _ _ (fun seen => if negb (len chunk =? chunk_size pagesize) then Ok ((seen, br + len chunk, bw + len c, crc32 c crc, z'), [])
            else let! (br, crc, out, z, r) := wstp_loop K pagesize oread f r' z' (br + len chunk) (crc32 c crc) [] in
                 Ok ((seen ++ out, br, (bw + len c) + len out, crc, z), out))).
        destruct (negb _); [apply emits_ok|apply IH].
      - destruct (oread r _) as [[chunk r']| |]; cbn [bind]; [|easy|easy]. destruct (zc_compress K z chunk) as [c z'].
        destruct (negb _); cbn [bind app]; [now rewrite app_nil_r|]. rewrite (wstp_acc f r' z' _ _ c).
        destruct (wstp_loop K pagesize oread f r' z' _ _ []) as [[[[[? ?] ?] ?] ?]| |]; cbn [bind]; [|easy|easy]. now rewrite len_app, Z.add_assoc, app_assoc.
    Qed.
    Lemma emits_stream_to_pack f seen r z crc :
      emits true (stream_to_pack_fd K pagesize oread f f1 seen r z crc)
        (let! (br, crc, out) := write_stream_to_pack K pagesize oread f r z crc in Ok ((seen ++ out, br, len out, crc), out)).
    Proof.
      unfold stream_to_pack_fd, write_stream_to_pack. eapply emits_eq.
      - eapply emits_bind with (k := fun p => let '(seen, br, bw, crc, z) := p in
          let! (x, o) := Ok ((seen ++ zc_flush K z, br, bw + len (zc_flush K z), crc32 (zc_flush K z) crc), []) in Ok (x, zc_flush K z ++ o)); [apply emits_stream|].
        intros [[[[seen' br] bw] crc'] z']. apply (emits_flex_bind true seen' (zc_flush K z') _ _ (fun seen => Ok ((seen, br, bw + len (zc_flush K z'), crc32 (zc_flush K z') crc'), []))).
        apply emits_ok.
      - destruct (wstp_loop K pagesize oread f r z 0 crc []) as [[[[[? ?] out] ?] ?]| |]; cbn [bind]; [|easy|easy].
        rewrite app_nil_r, len_app, <- app_assoc. reflexivity.
    Qed.
    Lemma emits_objects f level count : forall objs seen actual ofs,
      emits true (objects_to_fd K pagesize oread f f1 seen level objs count actual ofs)
        (let! (out, ens, n) := write_objs K pagesize oread f level objs count actual ofs in Ok ((seen ++ out, ens, n), out)).
    Proof.
      induction objs as [|o objs IH]; intros seen actual ofs; cbn [objects_to_fd write_objs].
      { cbn [bind]. rewrite app_nil_r. apply emits_ok. }
      unfold write_one. eapply emits_eq.
      - apply emits_let with (k := fun tid => let! hdr := create_pack_object_header tid (wo_size o) in
          let! (x, o) :=
            (let! (p, o1) := (let! (br, crc, out) := write_stream_to_pack K pagesize oread f (wo_stream o) (zc_new K level) (crc32 hdr 0) in
                              Ok (((seen ++ hdr) ++ out, br, len out, crc), out)) in
             let! (x, o2) := (let '(seen, br, bw, crc) := p in
               if br =? wo_size o then
                 let en := (wo_binsha o, crc, ofs) in
                 if actual + 1 =? count then Ok ((seen, [en], actual + 1), [])
                 else
                   let! (q, o3) := (let! (out, ens, n) := write_objs K pagesize oread f level objs count (actual + 1) (ofs + (len hdr + bw)) in Ok ((seen ++ out, ens, n), out)) in
                   let! (x, o4) := (let '(seen, ens, n) := q in Ok ((seen, en :: ens, n), [])) in Ok (x, o3 ++ o4)
               else Raise AssertionError) in
             Ok (x, o1 ++ o2)) in Ok (x, hdr ++ o)).
        intros tid _. apply emits_let. intros hdr _.
        apply (emits_flex_bind true seen hdr _ _ (fun seen => 
            (let! (p, o1) := (let! (br, crc, out) := write_stream_to_pack K pagesize oread f (wo_stream o) (zc_new K level) (crc32 hdr 0) in
                              Ok ((seen ++ out, br, len out, crc), out)) in
             let! (x, o2) := (let '(seen, br, bw, crc) := p in
               if br =? wo_size o then
                 let en := (wo_binsha o, crc, ofs) in
                 if actual + 1 =? count then Ok ((seen, [en], actual + 1), [])
                 else
                   let! (q, o3) := (let! (out, ens, n) := write_objs K pagesize oread f level objs count (actual + 1) (ofs + (len hdr + bw)) in Ok ((seen ++ out, ens, n), out)) in
                   let! (x, o4) := (let '(seen, ens, n) := q in Ok ((seen, en :: ens, n), [])) in Ok (x, o3 ++ o4)
               else Raise AssertionError) in
             Ok (x, o1 ++ o2)))).
        apply emits_bind with (k := fun p => let '(seen, br, bw, crc) := p in
               if br =? wo_size o then
                 let en := (wo_binsha o, crc, ofs) in
                 if actual + 1 =? count then Ok ((seen, [en], actual + 1), [])
                 else
                   let! (q, o3) := (let! (out, ens, n) := write_objs K pagesize oread f level objs count (actual + 1) (ofs + (len hdr + bw)) in Ok ((seen ++ out, ens, n), out)) in
                   let! (x, o4) := (let '(seen, ens, n) := q in Ok ((seen, en :: ens, n), [])) in Ok (x, o3 ++ o4)
               else Raise AssertionError); [apply emits_stream_to_pack|].
        intros [[[seen' br] bw] crc]. destruct (br =? wo_size o); [|apply (emits_res true _ (Raise AssertionError))]. cbv zeta.
        destruct (actual + 1 =? count); [apply emits_ok|].
        apply emits_bind with (k := fun q => let '(seen, ens, n) := q in Ok ((seen, (wo_binsha o, crc, ofs) :: ens, n), [])); [apply IH|].
        intros [[seen'' ens] n]. apply emits_ok.
      - destruct (type_to_type_id (wo_type o)) as [tid| |]; cbn [bind]; [|easy|easy].
        destruct (create_pack_object_header tid (wo_size o)) as [hdr| |]; cbn [bind]; [|easy|easy].
        destruct (write_stream_to_pack K pagesize oread f (wo_stream o) (zc_new K level) (crc32 hdr 0)) as [[[br crc] out]| |]; cbn [bind]; [|easy|easy].
        unfold py_assert. destruct (br =? wo_size o); cbn [bind]; [|easy]. destruct (actual + 1 =? count); cbn [bind].
        + now rewrite app_nil_r, <- app_assoc.
        + rewrite len_app. destruct (write_objs K pagesize oread f level objs count (actual + 1) _) as [[[out' ens] n]| |]; cbn [bind]; [|easy|easy].
          now rewrite app_nil_r, <- !app_assoc.
    Qed.

    (** *** The index *)
    Lemma emits_each A (f : A -> res bytes) : forall l seen, emits false (each_to_fd f2 seen f l) (let! out := write_each f l in Ok (seen ++ out, out)).
    Proof.
      induction l as [|x l IH]; intros seen; cbn [each_to_fd write_each].
      { cbn [bind]. rewrite app_nil_r. apply emits_ok. }
      eapply emits_eq.
      - apply emits_let with (k := fun b => let! (x, o) := (let! out := write_each f l in Ok ((seen ++ b) ++ out, out)) in Ok (x, b ++ o)).
        intros b _. apply (emits_flex_bind false seen b _ _ (fun seen => let! out := write_each f l in Ok (seen ++ out, out))). apply IH.
      - destruct (f x) as [b| |]; cbn [bind]; [|easy|easy]. destruct (write_each f l) as [out| |]; cbn [bind]; [|easy|easy]. now rewrite app_assoc.
    Qed.
    Lemma emits_fanout : forall tmp carry seen, emits false (fanout_to_fd f2 seen carry tmp) (let! out := fanout_bytes carry tmp in Ok (seen ++ out, out)).
    Proof.
      induction tmp as [|v tmp IH]; intros carry seen; cbn [fanout_to_fd fanout_bytes].
      { cbn [bind]. rewrite app_nil_r. apply emits_ok. }
      eapply emits_eq.
      - apply emits_let with (k := fun b => let! (x, o) := (let! out := fanout_bytes (carry + v) tmp in Ok ((seen ++ b) ++ out, out)) in Ok (x, b ++ o)).
        intros b _. apply (emits_flex_bind false seen b _ _ (fun seen => let! out := fanout_bytes (carry + v) tmp in Ok (seen ++ out, out))). apply IH.
      - destruct (pack_L (carry + v)) as [b| |]; cbn [bind]; [|easy|easy]. destruct (fanout_bytes (carry + v) tmp) as [out| |]; cbn [bind]; [|easy|easy]. now rewrite app_assoc.
    Qed.
    Lemma emits_offsets : forall l big seen, emits false (offsets_to_fd f2 seen l big) (let! (out, big) := offset_table l big in Ok ((seen ++ out, big), out)).
    Proof.
      induction l as [|e l IH]; intros big seen; cbn [offsets_to_fd offset_table].
      { cbn [bind]. rewrite app_nil_r. apply emits_ok. }
      cbv zeta. set (big' := if 2147483647 <? e_ofs e then big ++ [e_ofs e] else big). set (v := Z.land _ 4294967295).
      eapply emits_eq.
      - apply emits_let with (k := fun b => let! (x, o) := (let! (out, big) := offset_table l big' in Ok (((seen ++ b) ++ out, big), out)) in Ok (x, b ++ o)).
        intros b _. apply (emits_flex_bind false seen b _ _ (fun seen => let! (out, big) := offset_table l big' in Ok ((seen ++ out, big), out))). apply IH.
      - destruct (pack_L v) as [b| |]; cbn [bind]; [|easy|easy]. destruct (offset_table l big') as [[out big'']| |]; cbn [bind]; [|easy|easy]. now rewrite app_assoc.
    Qed.
    (** Steps whose outcome is known. *)
    Lemma emits_flex_next b seen d A (f : bytes -> prog A) c : emits b (f (seen ++ d)) c ->
      emits b (pbind (flex_write (fd_of b) seen d) f) (let! (x, o) := c in Ok (x, d ++ o)).
    Proof. exact (emits_flex_bind b seen d A f (fun _ => c)). Qed.
    Lemma emits_next b A B (p : prog A) (f : A -> prog B) a o c : emits b p (Ok (a, o)) -> emits b (f a) c ->
      emits b (pbind p f) (let! (x, o') := c in Ok (x, o ++ o')).
    Proof.
      intros H1 H2 s d1 d2 Hst. apply wp_bind. eapply wp_mono; [|exact (H1 s d1 d2 Hst)]. intros r g' s' [-> Hr].
      destruct r as [a'|e|].
      - destruct Hr as (out & E & Hst'). injection E as <- <-. eapply wp_mono; [|exact (H2 s' _ _ Hst')]. intros r g' s'' [-> Hr]. split; [easy|].
        destruct r as [x|e|]; [|destruct Hr as [[->|Hr] Hx]; (split; [|easy]); [now left|now right]|now rewrite Hr].
        destruct Hr as (out' & -> & Hst''). exists (o ++ out'). split; [easy|]. destruct b; now rewrite app_assoc.
      - split; [easy|]. destruct Hr as [[Hr|Hr] Hx]; [discriminate|]. split; [now right|easy].
      - discriminate Hr.
    Qed.
    Lemma emits_stop b A B (p : prog A) (f : A -> prog B) e : emits b p (Raise e) -> emits b (pbind p f) (Raise e).
    Proof.
      intros H1 s d1 d2 Hst. apply wp_bind. eapply wp_mono; [|exact (H1 s d1 d2 Hst)]. intros r g' s' [-> Hr].
      destruct r as [a'|e'|]; [destruct Hr as (out & E & _); discriminate| |]; (split; [easy|]); [destruct Hr as [[Hr|Hr] Hx]; (split; [|exact Hx]); [left; congruence|now right]|congruence].
    Qed.
    Lemma emits_hang b A B (p : prog A) (f : A -> prog B) : emits b p Diverge -> emits b (pbind p f) Diverge.
    Proof.
      intros H1 s d1 d2 Hst. apply wp_bind. eapply wp_mono; [|exact (H1 s d1 d2 Hst)]. intros r g' s' [-> Hr].
      destruct r as [a'|e'|]; [destruct Hr as (out & E & _); discriminate| |]; (split; [easy|]); [destruct Hr as [[Hr|Hr] Hx]; (split; [|exact Hx]); [left; congruence|now right]|congruence].
    Qed.
    Lemma emits_ret_ok b A B (a : A) (f : A -> prog B) c : emits b (f a) c -> emits b (pbind (Ret (Ok a)) f) c.
    Proof. intros H s d1 d2 Hst. apply wp_bind. cbn [wp]. now apply H. Qed.
    Lemma emits_index ens psha : emits false (index_to_fd sha1 f2 ens psha) (let! (idx, sha) := index_write sha1 ens psha in Ok (sha, idx)).
    Proof.
      unfold index_to_fd, index_write. set (objs := sort_entries ens).
      change (pack_L index_version_default) with (Ok (be_enc 4 2)). cbn [bind].
      assert (Hfl : forall A seen d (f : bytes -> prog A) c, emits false (f (seen ++ d)) c -> emits false (pbind (flex_write f2 seen d) f) (let! (x, o) := c in Ok (x, d ++ o)))
        by (intros A seen d f c; apply (emits_flex_next false)).
      pose proof (fun l => emits_fanout l 0) as Hfan. pose proof (emits_each _ (fun e => pack_L (Z.land (e_crc e) 4294967295)) objs) as Hcrc.
      pose proof (emits_offsets objs []) as Hofs. pose proof (emits_each _ pack_Q) as Hbig.
      destruct (fanout_counts objs (repeat 0 256)) as [tmp|e|]; cbn [bind].
      2: (eapply emits_eq; [apply Hfl, emits_ret_ok, Hfl, emits_stop, (emits_res false _ (Raise e))|reflexivity]).
      2: (eapply emits_eq; [apply Hfl, emits_ret_ok, Hfl, emits_hang, (emits_res false _ Diverge)|reflexivity]).
      specialize (Hfan tmp). destruct (fanout_bytes 0 tmp) as [fan|e|]; cbn [bind] in *.
      2: (eapply emits_eq; [apply Hfl, emits_ret_ok, Hfl, emits_ret_ok; apply emits_stop, Hfan|reflexivity]).
      2: (eapply emits_eq; [apply Hfl, emits_ret_ok, Hfl, emits_ret_ok; apply emits_hang, Hfan|reflexivity]).
      destruct (write_each (fun e => pack_L (Z.land (e_crc e) 4294967295)) objs) as [crcs|e|]; cbn [bind] in *.
      2: (eapply emits_eq; [apply Hfl, emits_ret_ok, Hfl, emits_ret_ok; eapply emits_next; [apply Hfan|]; apply Hfl; apply emits_stop, Hcrc|reflexivity]).
      2: (eapply emits_eq; [apply Hfl, emits_ret_ok, Hfl, emits_ret_ok; eapply emits_next; [apply Hfan|]; apply Hfl; apply emits_hang, Hcrc|reflexivity]).
      destruct (offset_table objs []) as [[o32 big]|e|]; cbn [bind] in *.
      2: (eapply emits_eq; [apply Hfl, emits_ret_ok, Hfl, emits_ret_ok; eapply emits_next; [apply Hfan|]; apply Hfl; eapply emits_next; [apply Hcrc|]; apply emits_stop, Hofs|reflexivity]).
      2: (eapply emits_eq; [apply Hfl, emits_ret_ok, Hfl, emits_ret_ok; eapply emits_next; [apply Hfan|]; apply Hfl; eapply emits_next; [apply Hcrc|]; apply emits_hang, Hofs|reflexivity]).
      specialize (Hbig big). destruct (write_each pack_Q big) as [o64|e|]; cbn [bind] in *.
      2: (eapply emits_eq; [apply Hfl, emits_ret_ok, Hfl, emits_ret_ok; eapply emits_next; [apply Hfan|]; apply Hfl; eapply emits_next; [apply Hcrc|]; eapply emits_next; [apply Hofs|]; cbv beta iota; apply emits_stop, Hbig|reflexivity]).
      2: (eapply emits_eq; [apply Hfl, emits_ret_ok, Hfl, emits_ret_ok; eapply emits_next; [apply Hfan|]; apply Hfl; eapply emits_next; [apply Hcrc|]; eapply emits_next; [apply Hofs|]; cbv beta iota; apply emits_hang, Hbig|reflexivity]).
      unfold py_assert. destruct (len psha =? 20); cbn [bind].
      - eapply emits_eq.
        + apply Hfl, emits_ret_ok, Hfl, emits_ret_ok. eapply emits_next; [apply Hfan|]. apply Hfl. eapply emits_next; [apply Hcrc|]. eapply emits_next; [apply Hofs|]. cbv beta iota.
          eapply emits_next; [apply Hbig|]. apply Hfl. cbv zeta. apply (emits_then false), emits_ok.
        + cbn [bind app]. rewrite app_nil_r, <- !app_assoc. reflexivity.
      - eapply emits_eq.
        + apply Hfl, emits_ret_ok, Hfl, emits_ret_ok. eapply emits_next; [apply Hfan|]. apply Hfl. eapply emits_next; [apply Hcrc|]. eapply emits_next; [apply Hofs|]. cbv beta iota.
          eapply emits_next; [apply Hbig|]. apply (emits_res false _ (Raise AssertionError)).
        + reflexivity.
    Qed.

    (** *** Both *)
    Definition pure (f : nat) : res (bytes * bytes * bytes * bytes) := write_pack K sha1 pagesize oread f (j_level j) (j_objs j) (j_count j).
    Lemma wp_pack f s : st s [] [] ->
      wpj j (pack_to_fd K sha1 pagesize oread f f1 f2 (j_level j) (j_objs j) (j_count j)) g s (fun r g' s' => g' = g /\
        match r with
        | Ok (psha, isha) => exists pack idx, pure f = Ok (pack, psha, idx, isha) /\ st s' pack idx
        | Raise e => (pure f = Raise e \/ (e = OSError /\ may_fail O KWrite = true)) /\ exists d1 d2, st s' d1 d2
        | Diverge => pure f = Diverge
        end).
    Proof.
      intros Hst. unfold pure, pack_to_fd, write_pack. cbv zeta. set (count := match j_count j with None => _ | Some n => _ end).
      destruct (pack_L count) as [cnt|e|]; cbn [bind]; [|apply wp_bind; cbn [wp]; (split; [easy|]); split; [now left|now exists [], []]|apply wp_bind; cbn [wp]; now split].
      apply wp_bind. cbn [wp]. set (hdr := be_enc 4 1346454347 ++ be_enc 4 2 ++ cnt). clearbody hdr.
      apply wp_bind. eapply wp_mono; [|exact (emits_flex true [] hdr s [] [] Hst)]. clear s Hst. intros r g' s [-> Hr].
      destruct r as [seen|e|]; [|split; [easy|]; destruct Hr as [[Hr|Hr] Hx]; [discriminate|]; split; [now right|easy]|discriminate].
      destruct Hr as (out & E & Hst). injection E as <- <-.
      apply wp_bind. eapply wp_mono; [|exact (emits_objects f (j_level j) count (j_objs j) hdr 0 12 s _ _ Hst)]. clear s Hst. intros r g' s [-> Hr].
      destruct (write_objs K pagesize oread f (j_level j) (j_objs j) count 0 12) as [[[d ens] n]|e|]; cbn [bind] in *.
      2:{ destruct r as [a|e'|]; [destruct Hr as (o & E & _); discriminate| |discriminate]. split; [easy|]. destruct Hr as [[Hr|Hr] Hx]; (split; [|easy]); [left; now injection Hr as ->|now right]. }
      2:{ destruct r as [a|e'|]; [destruct Hr as (o & E & _); discriminate| |now split]. split; [easy|]. destruct Hr as [[Hr|Hr] Hx]; [discriminate|]. split; [now right|easy]. }
      destruct r as [[[seen ens'] n']|e'|]; [| |discriminate].
      2:{ split; [easy|]. destruct Hr as [[Hr|Hr] Hx]; [discriminate|]. split; [now right|easy]. }
      destruct Hr as (o & E & Hst). injection E as <- <- <- <-. rewrite app_nil_l in Hst.
      destruct (negb (n =? count)); [cbn [wp throw]; split; [easy|]; split; [now left|eauto]|].
      unfold py_assert. destruct (len (sha1 (hdr ++ d)) =? 20); [|cbn [wp throw]; split; [easy|]; split; [now left|eauto]].
      apply wp_bind, wp_sysr. pose proof (emits_write true (sha1 (hdr ++ d)) s _ _ Hst) as Hw. cbn [pbind after sysr wp ret fd_of] in Hw.
      intros s1 a s2 H1 H2. destruct (Hw s1 a s2 H1 H2) as (g' & HG & Hw'). exists g'. split; [easy|]. clear Hw.
      destruct a as [k|e|]; cbn [wp ret] in *; [|destruct Hw' as [-> [[Hw'|Hw'] Hx]]; [discriminate|]; split; [easy|]; split; [now right|easy]|destruct Hw' as [_ Hw']; discriminate].
      destruct Hw' as [-> (out & E & Hst')]. injection E as <-.
      apply wp_bind. eapply wp_mono; [|exact (emits_index ens (sha1 (hdr ++ d)) s2 _ _ Hst')]. intros r g' s' [-> Hr].
      destruct (index_write sha1 ens (sha1 (hdr ++ d))) as [[idx sha]|e|]; cbn [bind] in *.
      - destruct r as [a|e'|]; [| |discriminate].
        + destruct Hr as (o & E & Hst''). injection E as <- <-. cbn [wp ret]. split; [easy|]. exists ((hdr ++ d) ++ sha1 (hdr ++ d)), idx. split; [easy|exact Hst''].
        + split; [easy|]. destruct Hr as [[Hr|Hr] Hx]; [discriminate|]. split; [now right|easy].
      - destruct r as [a|e'|]; [destruct Hr as (o & E & _); discriminate| |discriminate]. split; [easy|]. destruct Hr as [[Hr|Hr] Hx]; (split; [|easy]); [left; now injection Hr as ->|now right].
      - destruct r as [a|e'|]; [destruct Hr as (o & E & _); discriminate| |now split]. split; [easy|]. destruct Hr as [[Hr|Hr] Hx]; [discriminate|]. split; [now right|easy].
    Qed.
  End Files.

  (** ** The whole program *)
  Lemma wp_inv (Rely : phase -> world -> world -> Prop) (Guar : phase -> event -> phase -> world -> world -> Prop) (I : world -> Prop) :
    (forall g a b, Rely g a b -> I a -> I b) -> (forall g e g' a b, Guar g e g' a b -> I a -> I b) ->
    forall A (p : prog A) g s Q, wp O Rely Guar p g s Q -> I s -> wp O Rely Guar p g s (fun r g s => Q r g s /\ I s).
  Proof.
    intros H1 H2 A p. induction p as [r|B c k IH]; intros g s Q H Hi; [now split|]. cbn [wp] in *. intros s1 a s2 Hr Hs.
    destruct (H s1 a s2 Hr Hs) as (g' & HG & Hk). exists g'. split; [exact HG|]. apply IH; [exact Hk|]. eapply H2; [exact HG|]. eapply H1; eauto.
  Qed.
  Lemma cstep_dirs j g g' s s' : cstep j g g' s s' -> w_dirs s' = w_dirs s.
  Proof. now destruct 1. Qed.
  Notation room := (room O base).
  Definition create_post (j : job R) (s0 : world) (r : res path) (g : phase) (s : world) : Prop :=
    match r with
    | Ok p => g = Done /\ exists ip pack idx, made K sha1 pagesize oread fuel base j p ip pack idx
    | Raise e => g <> Done /\ (keep = true -> room s0 -> pure j fuel = Raise e \/ exists k, may_fail O k = true)
    | Diverge => pure j fuel = Diverge
    end.
  Lemma wp_create j s0 s : wf s -> (keep = true -> w_dirs s = w_dirs s0) ->
    wpj j (create_pack K sha1 pagesize oread fuel base (j_level j) (j_objs j) (j_count j)) Start s (create_post j s0).
  Proof.
    intros Hw Hd. unfold create_pack.
    assert (Hroom : forall s, (keep = true -> w_dirs s = w_dirs s0) -> keep = true -> room s0 -> room s).
    { intros s1 H1 H2 (H3 & H4 & H5). specialize (H1 H2). unfold room, is_dir in *. rewrite H1. easy. }
    assert (Hot : forall g a b, others keep g a b -> (keep = true -> w_dirs a = w_dirs s0) -> keep = true -> w_dirs b = w_dirs s0).
    { intros g a b (_ & H1 & _) H2 Hk. rewrite H1 by exact Hk. now apply H2. }
    assert (Hgu : forall g e g' a b, guar j g e g' a b -> (keep = true -> w_dirs a = w_dirs s0) -> keep = true -> w_dirs b = w_dirs s0).
    { intros g e g' a b H1 H2 Hk. rewrite (cstep_dirs _ _ _ _ _ H1). now apply H2. }
    (* the pack's temporary file *)
    apply wp_bind, wp_sysr. intros s1 a s2 Hr Hc. pose proof (Hot _ _ _ Hr Hd) as Hd1. pose proof (proj1 Hr Hw) as Hw1. clear s Hw Hd Hr.
    cbn [sys] in Hc. destruct Hc as [(Hk & -> & ->)|Hc].
    { exists Start. split; [constructor|]. split; [easy|]. intros _ _. right. now exists KCreate. }
    destruct (is_dir s1 base) eqn:Eb.
    2:{ destruct Hc as [-> ->]. exists Start. split; [constructor|]. split; [easy|]. intros H1 H2. destruct (Hroom _ Hd1 H1 H2) as (_ & H3 & _). congruence. }
    destruct Hc as (suf & Hsuf & Hex & -> & ->). set (t1 := base ++ [str_pack ++ suf]) in *. set (f1 := w_next s1).
    exists (One t1 f1). split; [apply c_one; [exists str_pack, suf; split; [now left|easy]|easy]|].
    pose proof (wf_create s1 t1 Hw1) as Hw2. assert (Hl1 : lookup (OsModel.create s1 t1) t1 = Some f1) by (rewrite lookup_create; now destruct (path_eq_dec t1 t1)).
    assert (Hc1 : w_data (OsModel.create s1 t1) f1 = []) by (rewrite data_create; unfold f1; now rewrite Nat.eqb_refl).
    assert (Hd2 : keep = true -> w_dirs (OsModel.create s1 t1) = w_dirs s0) by (intros Hk; rewrite <- (Hd1 Hk); reflexivity).
    revert Hw2 Hl1 Hc1 Hd2. generalize (OsModel.create s1 t1). intros s2 Hw2 Hl1 Hc1 Hd2. clearbody t1 f1. clear s1 Hd1 Hw1 Eb Hex Hsuf suf.
    (* the index's *)
    apply wp_bind, wp_sysr. intros s3 a s4 Hr Hc. pose proof (Hot _ _ _ Hr Hd2) as Hd3. pose proof (proj1 Hr Hw2) as Hw3.
    destruct Hr as (_ & _ & Hr). destruct (Hr t1 f1 (or_introl eq_refl) Hl1) as [Hl3 Hc3]. rewrite Hc1 in Hc3. clear s2 Hw2 Hl1 Hc1 Hd2 Hr.
    cbn [sys] in Hc. destruct Hc as [(Hk & -> & ->)|Hc].
    { exists (One t1 f1). split; [constructor|]. split; [easy|]. intros _ _. right. now exists KCreate. }
    destruct (is_dir s3 base) eqn:Eb.
    2:{ destruct Hc as [-> ->]. exists (One t1 f1). split; [constructor|]. split; [easy|]. intros H1 H2. destruct (Hroom _ Hd3 H1 H2) as (_ & H3 & _). congruence. }
    destruct Hc as (suf & Hsuf & Hex & -> & ->). set (t2 := base ++ [str_index ++ suf]) in *. set (f2 := w_next s3).
    assert (Hsc : scratch base t2) by (exists str_index, suf; split; [now right|easy]).
    exists (Two t1 f1 t2 f2). split; [now apply c_two|].
    assert (Hf : f1 <> f2) by (apply (wf_next _ Hw3) in Hl3; unfold f2; lia).
    assert (Hne : t1 <> t2).
    { intros ->. apply orb_false_elim in Hex as [Hex _]. apply is_file_lookup in Hex. congruence. }
    assert (Hst : st t1 f1 t2 f2 (OsModel.create s3 t2) [] []).
    { unfold st. rewrite !lookup_create, !data_create. destruct (path_eq_dec t1 t2); [easy|]. destruct (path_eq_dec t2 t2); [|easy].
      fold f2. rewrite Nat.eqb_refl. replace (Nat.eqb f1 f2) with false by lia. easy. }
    assert (Hd4 : keep = true -> w_dirs (OsModel.create s3 t2) = w_dirs s0) by (intros Hk; rewrite <- (Hd3 Hk); reflexivity).
    revert Hst Hd4. generalize (OsModel.create s3 t2). intros s4 Hst Hd4. clearbody t2 f2. clear s3 Hd3 Hw3 Eb Hex Hsuf suf Hl3 Hc3.
    (* writing *)
    apply wp_bind. eapply wp_mono; [|apply (wp_inv _ _ (fun s => keep = true -> w_dirs s = w_dirs s0) Hot Hgu); [exact (wp_pack j t1 f1 t2 f2 Hf fuel s4 Hst)|exact Hd4]].
    clear s4 Hst Hd4. intros r g' s5 [[-> Hr] Hd5]. destruct r as [[psha isha]|e|]; [| |exact Hr].
    2:{ split; [easy|]. intros _ _. destruct Hr as [[Hr|[_ Hr]] _]; [now left|right; now exists KWrite]. }
    destruct Hr as (pack & idx & Hp & Hst).
    set (pp := base ++ [new_name psha str_dot_pack]). set (ip := base ++ [new_name psha str_dot_idx]).
    assert (Hmade : made K sha1 pagesize oread fuel base j pp ip pack idx).
    { exists psha, isha, (new_name psha str_dot_pack), (new_name psha str_dot_idx). split; [exact Hp|]. split; [apply new_names|easy]. }
    (* closing *)
    apply wp_bind, wp_sysr. intros s6 a s7 Hr Hc. pose proof (Hot _ _ _ Hr Hd5) as Hd6. pose proof (st_others _ _ _ _ _ _ _ _ Hst Hr) as Hst6. clear s5 Hd5 Hst Hr.
    exists (Two t1 f1 t2 f2). destruct Hc as [(Hk & -> & ->)|[-> ->]].
    { split; [constructor|]. split; [easy|]. intros _ _. right. now exists KClose. }
    split; [constructor|].
    apply wp_bind, wp_sysr. intros s7 a s8 Hr Hc. pose proof (Hot _ _ _ Hr Hd6) as Hd7. pose proof (st_others _ _ _ _ _ _ _ _ Hst6 Hr) as Hst7. clear s6 Hd6 Hst6 Hr.
    exists (Two t1 f1 t2 f2). destruct Hc as [(Hk & -> & ->)|[-> ->]].
    { split; [constructor|]. split; [easy|]. intros _ _. right. now exists KClose. }
    split; [constructor|]. cbv zeta. fold pp ip.
    (* renaming *)
    apply wp_bind, wp_sysr. intros s8 a s9 Hr Hc. pose proof (Hot _ _ _ Hr Hd7) as Hd8. destruct (st_others _ _ _ _ _ _ _ _ Hst7 Hr) as [[A B] [C D]]. clear s7 Hd7 Hst7 Hr.
    cbn [sys] in Hc. destruct Hc as [(Hk & -> & ->)|Hc].
    { exists (Two t1 f1 t2 f2). split; [constructor|]. split; [easy|]. intros _ _. right. now exists KRename. }
    rewrite A in Hc. replace (dirname pp) with base in Hc by (unfold pp; now rewrite dirname_app).
    destruct (is_dir s8 pp) eqn:E1.
    { destruct Hc as [-> ->]. exists (Two t1 f1 t2 f2). split; [constructor|]. split; [easy|]. intros H1 H2. destruct (Hroom _ Hd8 H1 H2) as (_ & _ & H3). unfold pp in E1. rewrite H3 in E1. discriminate. }
    destruct (is_dir s8 base) eqn:E2; cbn [negb] in Hc.
    2:{ destruct Hc as [-> ->]. exists (Two t1 f1 t2 f2). split; [constructor|]. split; [easy|]. intros H1 H2. destruct (Hroom _ Hd8 H1 H2) as (_ & H3 & _). congruence. }
    destruct (windows O && is_file s8 pp) eqn:E3.
    { destruct Hc as [-> ->]. exists (Two t1 f1 t2 f2). split; [constructor|]. split; [easy|]. intros H1 H2. destruct (Hroom _ Hd8 H1 H2) as (H3 & _). rewrite H3 in E3. discriminate. }
    destruct Hc as [-> ->]. exists (Packed t2 f2). split; [exact (c_pack j s8 t1 f1 t2 f2 pp ip pack idx Hmade A B)|].
    assert (Hpt : t2 <> pp).
    { intros E. apply (scratch_not_scanned base t2 Hsc). rewrite E. apply (new_scanned base psha (new_name psha str_dot_pack) (new_name psha str_dot_idx)), new_names. }
    assert (C' : lookup (link (unlink s8 t1) pp f1) t2 = Some f2).
    { rewrite lookup_link, lookup_unlink. destruct (path_eq_dec t2 pp); [congruence|]. destruct (path_eq_dec t2 t1); congruence. }
    assert (D' : w_data (link (unlink s8 t1) pp f1) f2 = idx) by exact D.
    assert (Hd9 : keep = true -> w_dirs (link (unlink s8 t1) pp f1) = w_dirs s0) by (intros Hk; rewrite <- (Hd8 Hk); reflexivity).
    revert C' D' Hd9. generalize (link (unlink s8 t1) pp f1). clear s8 Hd8 A B C D E1 E2 E3. intros s8 C D Hd8.
    apply wp_bind, wp_sysr. intros s9 a s10 Hr Hc. pose proof (Hot _ _ _ Hr Hd8) as Hd9. destruct Hr as (_ & _ & Hr).
    destruct (Hr t2 f2 (or_introl eq_refl) C) as [C' D']. rewrite D in D'. clear s8 C D Hd8 Hr.
    cbn [sys] in Hc. destruct Hc as [(Hk & -> & ->)|Hc].
    { exists (Packed t2 f2). split; [constructor|]. split; [easy|]. intros _ _. right. now exists KRename. }
    rewrite C' in Hc. replace (dirname ip) with base in Hc by (unfold ip; now rewrite dirname_app).
    destruct (is_dir s9 ip) eqn:E1.
    { destruct Hc as [-> ->]. exists (Packed t2 f2). split; [constructor|]. split; [easy|]. intros H1 H2. destruct (Hroom _ Hd9 H1 H2) as (_ & _ & H3). unfold ip in E1. rewrite H3 in E1. discriminate. }
    destruct (is_dir s9 base) eqn:E2; cbn [negb] in Hc.
    2:{ destruct Hc as [-> ->]. exists (Packed t2 f2). split; [constructor|]. split; [easy|]. intros H1 H2. destruct (Hroom _ Hd9 H1 H2) as (_ & H3 & _). congruence. }
    destruct (windows O && is_file s9 ip) eqn:E3.
    { destruct Hc as [-> ->]. exists (Packed t2 f2). split; [constructor|]. split; [easy|]. intros H1 H2. destruct (Hroom _ Hd9 H1 H2) as (H3 & _). rewrite H3 in E3. discriminate. }
    destruct Hc as [-> ->]. exists Done. split; [exact (c_index j s9 t2 f2 pp ip pack idx Hmade C' D')|].
    cbn [wp ret]. split; [easy|]. now exists ip, pack, idx.
  Qed.
End Create.
