(** PackEntity.create when the first write takes less than it is given. *)
From Coq Require Import ZifyBool ZifyNat.
From Verif Require Import Py PyFacts FunModel FunSpec IndexModel IndexSpec ZlibModel ReaderModel Crc32 PackModel PackSpec OsModel OsProofs
  PackDbModel PackDbSpec CreateModel CreateSpec CreateProofs StoreShort.

(** A system on which nothing fails is part of every system. *)
Definition no_faults (O : os) : os := mk_os (fun _ => false) (windows O).
Lemma sys_faults O B (c : call B) s a s' : sys (no_faults O) c s a s' -> sys O c s a s'.
Proof.
  destruct c; cbn [sys]; unfold no_faults, fails; cbn [may_fail windows]; intros H; try exact H;
    repeat match goal with H : _ \/ _ |- _ => destruct H as [H|H] end; try (now destruct H); try (now destruct H as (_ & H & _)); auto.
Qed.
Lemma runs_faults O A (p : prog A) s r s' : runs (no_faults O) p s r s' -> runs O p s r s'.
Proof.
  unfold runs. induction 1 as [|p s p1 s1 p2 s2 H1 _ IH]; [apply steps_refl|]. eapply steps_one; [|exact IH].
  destruct p as [|B c k]; [easy|]. destruct H1 as (a & H1 & ->). exists a. split; [now apply sys_faults|reflexivity].
Qed.

(** Programs that come to an end wherever they start. *)
Section Total.
  Context (O : os).
  Definition total {A} (p : prog A) : Prop := forall s, exists r s', runs O p s r s'.
  Lemma total_ret A (r : res A) : total (Ret r).
  Proof. intros s. exists r, s. apply steps_refl. Qed.
  Lemma total_bind A B (p : prog A) (f : A -> prog B) : total p -> (forall a, total (f a)) -> total (pbind p f).
  Proof.
    intros H1 H2 s. destruct (H1 s) as (r & s1 & Hr). destruct r as [a|e|].
    - destruct (H2 a s1) as (r & s2 & Hr2). exists r, s2. exact (run_then O _ _ p _ s (Ok a) s1 r s2 Hr Hr2).
    - exists (Raise e), s1. apply (run_then O _ _ p _ s (Raise e) s1 _ s1 Hr). apply steps_refl.
    - exists Diverge, s1. apply (run_then O _ _ p _ s Diverge s1 _ s1 Hr). apply steps_refl.
  Qed.
  Lemma total_write fd d : total (sysr (Write fd d)).
  Proof. intros s. eexists _, _. apply (run_call O _ _ _ _ _ (Ok (len d)) (set_data s fd (w_data s fd ++ d))); [right; right; now split|apply steps_refl]. Qed.
  Lemma total_flex fd seen d : total (flex_write fd seen d).
  Proof. apply total_bind; [apply total_write|intros a; apply total_ret]. Qed.
  Context (K : zlib) (sha1 : bytes -> bytes) (pagesize : Z) {R : Type} (oread : R -> Z -> res (bytes * R)).
  Lemma total_stream fd : forall f seen r z br bw crc, total (stream_to_fd K pagesize oread f fd seen r z br bw crc).
  Proof.
    induction f as [|f IH]; intros seen r z br bw crc; cbn [stream_to_fd]; [apply total_ret|]. apply total_bind; [apply total_ret|]. intros [chunk r'].
    destruct (zc_compress K z chunk) as [c z']. apply total_bind; [apply total_flex|]. intros seen'. destruct (negb _); [apply total_ret|apply IH].
  Qed.
  Lemma total_stream_to_pack f fd seen r z crc : total (stream_to_pack_fd K pagesize oread f fd seen r z crc).
  Proof.
    apply total_bind; [apply total_stream|]. intros [[[[seen' br] bw] crc'] z']. apply total_bind; [apply total_flex|]. intros seen''. apply total_ret.
  Qed.
  Lemma total_objects f fd level count : forall objs seen actual ofs, total (objects_to_fd K pagesize oread f fd seen level objs count actual ofs).
  Proof.
    induction objs as [|o objs IH]; intros seen actual ofs; cbn [objects_to_fd]; [apply total_ret|].
    apply total_bind; [apply total_ret|]. intros tid. apply total_bind; [apply total_ret|]. intros hdr. apply total_bind; [apply total_flex|]. intros seen'.
    apply total_bind; [apply total_stream_to_pack|]. intros [[[seen'' br] bw] crc]. destruct (br =? wo_size o); [|apply total_ret]. cbv zeta.
    destruct (actual + 1 =? count); [apply total_ret|]. apply total_bind; [apply IH|]. intros [[x ens] n]. apply total_ret.
  Qed.
  Lemma total_each A fd (f : A -> res bytes) : forall l seen, total (each_to_fd fd seen f l).
  Proof.
    induction l as [|x l IH]; intros seen; cbn [each_to_fd]; [apply total_ret|]. apply total_bind; [apply total_ret|]. intros b. apply total_bind; [apply total_flex|]. intros seen'. apply IH.
  Qed.
  Lemma total_fanout fd : forall l carry seen, total (fanout_to_fd fd seen carry l).
  Proof.
    induction l as [|x l IH]; intros carry seen; cbn [fanout_to_fd]; [apply total_ret|]. apply total_bind; [apply total_ret|]. intros b. apply total_bind; [apply total_flex|]. intros seen'. apply IH.
  Qed.
  Lemma total_offsets fd : forall l big seen, total (offsets_to_fd fd seen l big).
  Proof.
    induction l as [|x l IH]; intros big seen; cbn [offsets_to_fd]; [apply total_ret|]. cbv zeta. apply total_bind; [apply total_ret|]. intros b. apply total_bind; [apply total_flex|]. intros seen'. apply IH.
  Qed.
  Lemma total_index fd ens psha : total (index_to_fd sha1 fd ens psha).
  Proof.
    unfold index_to_fd. cbv zeta. apply total_bind; [apply total_flex|]. intros s1. apply total_bind; [apply total_ret|]. intros s2. apply total_bind; [apply total_flex|]. intros s3.
    apply total_bind; [apply total_ret|]. intros s4. apply total_bind; [apply total_fanout|]. intros s5. apply total_bind; [apply total_flex|]. intros s6. apply total_bind; [apply total_each|]. intros s7.
    apply total_bind; [apply total_offsets|]. intros [s8 big]. apply total_bind; [apply total_each|]. intros s9. destruct (len psha =? 20); [|apply total_ret].
    apply total_bind; [apply total_flex|]. intros s10. apply total_bind; [apply total_write|]. intros s11. apply total_ret.
  Qed.
End Total.

Section Short.
  Context (K : zlib) (sha1 : bytes -> bytes) (pagesize : Z) {R : Type} (oread : R -> Z -> res (bytes * R)) (fuel : nat).
  Context (O : os) (Hshort : may_fail O KShort = true) (base : path).
  Notation O' := (no_faults O).

  (** What such a program does if nothing fails. *)
  Lemma emits_runs j t1 f1 t2 f2 b A (p : prog A) c a out s d1 d2 :
    emits K sha1 pagesize oread fuel O' base false j t1 f1 t2 f2 b p c -> total O' p -> c = Ok (a, out) -> st t1 f1 t2 f2 s d1 d2 ->
    exists s', runs O p s (Ok a) s' /\ st t1 f1 t2 f2 s' (if b then d1 ++ out else d1) (if b then d2 else d2 ++ out) /\ w_dirs s' = w_dirs s.
  Proof.
    intros He Ht -> Hst. destruct (Ht s) as (r & s' & Hr).
    destruct (wp_steps O' (others false) (guar K sha1 pagesize oread fuel base j) (others_refl false) _ s (Ret r) s' _ Hr _ (He s d1 d2 Hst) (fun _ x => w_dirs x = w_dirs s)) as (g & Hw & Hd).
    - intros g e g' x y H Hx. now rewrite (cstep_dirs _ _ _ _ _ _ _ _ _ _ _ H).
    - reflexivity.
    - cbn [wp] in Hw. destruct Hw as [_ Hw]. exists s'. destruct r as [x|e|].
      + destruct Hw as (o & E & Hs). injection E as <- <-. split; [now apply runs_faults|]. now split.
      + destruct Hw as [[Hw|[_ Hw]] _]; discriminate.
      + discriminate.
  Qed.

  Definition free_name (s : world) (pre : bytes) : Prop := exists suf, tmp_suffix suf /\ path_exists s (base ++ [pre ++ suf]) = false.

  Lemma create_short level objs oc pack psha idx isha s k : room O base s -> wf s -> free_name s str_pack -> free_name s str_index ->
    write_pack K sha1 pagesize oread fuel level objs oc = Ok (pack, psha, idx, isha) -> 0 <= k < 12 ->
    let pp := base ++ [new_name psha str_dot_pack] in let ip := base ++ [new_name psha str_dot_idx] in
    exists s', runs O (create_pack K sha1 pagesize oread fuel base level objs oc) s (Ok pp) s' /\
      contents s' pp = Some (firstn (Z.to_nat k) pack ++ skipn 12 pack) /\ contents s' ip = Some idx.
  Proof.
    intros (Hwin & Hdir & Hnd) Hw (suf1 & Hs1 & Hx1) (suf2 & Hs2 & Hx2) Hpack Hk pp ip.
    set (t1 := base ++ [str_pack ++ suf1]) in *. set (t2 := base ++ [str_index ++ suf2]) in *. set (j := mk_job level objs oc).
    assert (Hne : t1 <> t2) by (unfold t1, t2; intros E; apply app_inj_tail in E as [_ E]; discriminate).
    assert (Hsc1 : scratch base t1) by (exists str_pack, suf1; split; [now left|easy]).
    assert (Hsc2 : scratch base t2) by (exists str_index, suf2; split; [now right|easy]).
    destruct (new_scanned base psha (new_name psha str_dot_pack) (new_name psha str_dot_idx) (new_names psha)) as [Hsp Hsi]. fold pp in Hsp. fold ip in Hsi.
    assert (N : t1 <> pp /\ t1 <> ip /\ t2 <> pp /\ t2 <> ip).
    { repeat split; intros E; [apply (scratch_not_scanned base t1 Hsc1)|apply (scratch_not_scanned base t1 Hsc1)|apply (scratch_not_scanned base t2 Hsc2)|apply (scratch_not_scanned base t2 Hsc2)]; now rewrite E. }
    destruct N as (N1 & N2 & N3 & N4).
    assert (Hpi : pp <> ip).
    { unfold pp, ip, new_name. intros E. apply app_inj_tail in E as [_ E]. apply app_inv_head in E. apply app_inv_head in E. discriminate. }
    set (f1 := w_next s). set (s1 := OsModel.create s t1). set (f2 := w_next s1). set (s2 := OsModel.create s1 t2).
    assert (Hf : f1 <> f2) by (unfold f2, s1, f1; rewrite next_create; lia).
    assert (E12 : Nat.eqb f1 f2 = false) by (now apply Nat.eqb_neq). assert (E21 : Nat.eqb f2 f1 = false) by (apply Nat.eqb_neq; intros E; now symmetry in E).
    assert (Hst : st t1 f1 t2 f2 s2 [] []).
    { unfold st, s2, f2. rewrite !lookup_create, !data_create. destruct (path_eq_dec t1 t2); [easy|]. destruct (path_eq_dec t2 t2); [|easy]. fold f2. rewrite Nat.eqb_refl.
      rewrite E12. unfold s1. rewrite lookup_create, data_create. destruct (path_eq_dec t1 t1); [|easy]. fold f1. rewrite Nat.eqb_refl. easy. }
    (* what is written *)
    unfold write_pack in Hpack. cbv zeta in Hpack. set (count := match oc with None => _ | Some n => _ end) in *.
    destruct (pack_L count) as [cnt| |] eqn:Ecnt; [|discriminate|discriminate]. cbn [bind] in Hpack. set (hdr := be_enc 4 1346454347 ++ be_enc 4 2 ++ cnt) in *.
    assert (Hhdr : len hdr = 12).
    { unfold hdr. rewrite !len_app. unfold pack_L, pack_be in Ecnt. destruct (_ && _); [|discriminate]. injection Ecnt as <-. unfold len. now rewrite !be_enc_length. }
    assert (Hdef : be_enc 4 1346454347 ++ be_enc 4 2 ++ cnt = hdr) by reflexivity. clearbody hdr.
    destruct (write_objs K pagesize oread fuel level objs count 0 12) as [[[d ens] n]| |] eqn:Eobjs; [|discriminate|discriminate]. cbn [bind] in Hpack.
    destruct (negb (n =? count)) eqn:En; [discriminate|]. unfold py_assert in Hpack. destruct (len (sha1 (hdr ++ d)) =? 20) eqn:E20; [|discriminate]. cbn [bind] in Hpack.
    destruct (index_write sha1 ens (sha1 (hdr ++ d))) as [[idx' isha']| |] eqn:Eidx; [|discriminate|discriminate]. cbn [bind] in Hpack. injection Hpack as Epack <- <- <-.
    (* the header *)
    set (s3 := set_data s2 f1 (w_data s2 f1 ++ slice_to hdr k)).
    assert (Hst3 : st t1 f1 t2 f2 s3 (firstn (Z.to_nat k) hdr) []).
    { destruct Hst as [[A B] [C D]]. unfold st, s3. rewrite !lookup_set_data, !data_set_data, Nat.eqb_refl. rewrite E21. rewrite B. cbn [app].
      rewrite slice_to_spec by lia. easy. }
    destruct (emits_runs j t1 f1 t2 f2 true _ _ _ (hdr ++ d, ens, n) d s3 (firstn (Z.to_nat k) hdr) []
      (emits_objects K sha1 pagesize oread fuel O' eq_refl base false j t1 f1 t2 f2 Hf fuel level count objs hdr 0 12) (total_objects O' K pagesize oread fuel f1 level count objs hdr 0 12)) as (s4 & Hr4 & Hst4 & Hd4); [now rewrite Eobjs|exact Hst3|].
    set (s5 := set_data s4 f1 (w_data s4 f1 ++ sha1 (hdr ++ d))).
    assert (Hst5 : st t1 f1 t2 f2 s5 ((firstn (Z.to_nat k) hdr ++ d) ++ sha1 (hdr ++ d)) []).
    { destruct Hst4 as [[A B] [C D]]. unfold st, s5. rewrite !lookup_set_data, !data_set_data, Nat.eqb_refl. rewrite E21. rewrite B. easy. }
    destruct (emits_runs j t1 f1 t2 f2 false _ _ _ isha' idx' s5 ((firstn (Z.to_nat k) hdr ++ d) ++ sha1 (hdr ++ d)) []
      (emits_index K sha1 pagesize oread fuel O' eq_refl base false j t1 f1 t2 f2 Hf ens (sha1 (hdr ++ d))) (total_index O' sha1 f2 ens (sha1 (hdr ++ d)))) as (s6 & Hr6 & Hst6 & Hd6); [now rewrite Eidx|exact Hst5|].
    assert (Hdirs : w_dirs s6 = w_dirs s) by (rewrite Hd6; unfold s5; cbn [set_data w_dirs]; now rewrite Hd4).
    cbn [app] in Hst6. destruct Hst6 as [[A B] [C D]].
    set (s7 := link (unlink s6 t1) pp f1). set (s8 := link (unlink s7 t2) ip f2). exists s8.
    assert (Hpacked : firstn (Z.to_nat k) pack ++ skipn 12 pack = (firstn (Z.to_nat k) hdr ++ d) ++ sha1 (hdr ++ d)).
    { rewrite <- Epack. assert (Hl : length hdr = 12%nat) by (unfold len in Hhdr; lia). rewrite <- !app_assoc. f_equal.
      - rewrite firstn_app. replace (Z.to_nat k - length hdr)%nat with 0%nat by lia. now rewrite firstn_O, app_nil_r.
      - now rewrite skipn_app, Hl, Nat.sub_diag, (skipn_all2 hdr) by lia. }
    assert (Hcontents : contents s8 pp = Some (firstn (Z.to_nat k) pack ++ skipn 12 pack) /\ contents s8 ip = Some idx').
    { rewrite Hpacked. unfold s8, s7, contents. rewrite !lookup_link, !lookup_unlink, !lookup_link, !lookup_unlink.
      destruct (path_eq_dec pp ip); [easy|]. destruct (path_eq_dec pp t2); [congruence|]. destruct (path_eq_dec pp pp); [|easy]. destruct (path_eq_dec ip ip); [|easy].
      cbn [option_map link unlink w_data]. now rewrite B, D. }
    split; [|exact Hcontents].
    assert (Hisd : forall q, is_dir s6 q = is_dir s q) by (intros q; unfold is_dir; now rewrite Hdirs).
    unfold create_pack. eapply run_then with (a := Ok (t1, f1)) (s1 := s1).
    { apply (run_call O _ _ _ _ _ (Ok (t1, f1)) s1); [|apply steps_refl]. right. rewrite Hdir. exists suf1. split; [exact Hs1|]. cbv zeta. fold t1. split; [exact Hx1|now split]. }
    cbv iota beta. eapply run_then with (a := Ok (t2, f2)) (s1 := s2).
    { apply (run_call O _ _ _ _ _ (Ok (t2, f2)) s2); [|apply steps_refl]. right. replace (is_dir s1 base) with true by (symmetry; exact Hdir). exists suf2. split; [exact Hs2|]. cbv zeta. fold t2. split; [|now split].
      unfold path_exists, is_file in *. unfold s1 at 1. rewrite lookup_create. destruct (path_eq_dec t2 t1); [congruence|exact Hx2]. }
    cbv iota beta. eapply run_then with (a := Ok (sha1 (hdr ++ d), isha')) (s1 := s6).
    { unfold pack_to_fd. cbv zeta. fold count. rewrite Ecnt. eapply run_then; [apply steps_refl|]. cbv iota beta. rewrite Hdef.
      eapply run_then with (a := Ok hdr) (s1 := s3).
      { unfold flex_write. eapply run_then with (a := Ok k) (s1 := s3); [|apply steps_refl]. apply (run_call O _ _ _ _ _ (Ok k) s3); [|apply steps_refl].
        right. left. split; [exact Hshort|]. exists k. split; [lia|now split]. }
      cbv iota beta. eapply run_then; [exact Hr4|]. cbv iota beta. rewrite En, E20.
      eapply run_then with (a := Ok (len (sha1 (hdr ++ d)))) (s1 := s5); [apply (run_call O _ _ _ _ _ (Ok (len (sha1 (hdr ++ d)))) s5); [right; right; now split|apply steps_refl]|]. cbv iota beta.
      eapply run_then; [exact Hr6|]. apply steps_refl. }
    cbv iota beta. eapply run_then with (a := Ok tt) (s1 := s6); [apply (run_call O _ _ _ _ _ (Ok tt) s6); [right; now split|apply steps_refl]|]. cbv iota beta.
    eapply run_then with (a := Ok tt) (s1 := s6); [apply (run_call O _ _ _ _ _ (Ok tt) s6); [right; now split|apply steps_refl]|]. cbv iota beta zeta.
    fold pp ip. eapply run_then with (a := Ok tt) (s1 := s7).
    { apply (run_call O _ _ _ _ _ (Ok tt) s7); [|apply steps_refl]. right. rewrite A. unfold pp at 1. rewrite Hisd, Hnd. replace (dirname pp) with base by (unfold pp; now rewrite dirname_app).
      rewrite Hisd, Hdir, Hwin. now split. }
    cbv iota beta. eapply run_then with (a := Ok tt) (s1 := s8); [|apply steps_refl].
    apply (run_call O _ _ _ _ _ (Ok tt) s8); [|apply steps_refl]. right.
    replace (lookup s7 t2) with (Some f2) by (unfold s7; rewrite lookup_link, lookup_unlink; destruct (path_eq_dec t2 pp); [easy|]; destruct (path_eq_dec t2 t1); [congruence|now symmetry]).
    replace (is_dir s7 ip) with false by (symmetry; change (is_dir s7 ip) with (is_dir s6 ip); rewrite Hisd; apply Hnd).
    replace (dirname ip) with base by (unfold ip; now rewrite dirname_app). replace (is_dir s7 base) with true by (symmetry; change (is_dir s7 base) with (is_dir s6 base); now rewrite Hisd).
    rewrite Hwin. now split.
  Qed.
End Short.
