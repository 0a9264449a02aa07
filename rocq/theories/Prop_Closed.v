(** Property C107 of properties.jsonl: closing the stream of an object. *)
From Coq Require Import ZifyBool ZifyNat.
From Verif Require Import Py PyFacts FunModel FunSpec FunProofs ZlibModel ZlibProofs ReaderModel StreamSpec ReaderProofs ClosedModel ClosedSpec ClosedProofs Prop_Reader.

Notation hdr t c := (loose_object_header t (len c)).
(** The stream that LooseObjectDB.stream gives, gitdb/db/loose.py:163-166, its reader in
    state [r]. *)
Notation loose_stream r := (mk_ostream r true true true).
(** [o] with its memory map not closed. *)
Definition reopened {K} (o : ostream K) : ostream K := mk_ostream (o_reader o) (o_flag o) (o_closable o) true.

(** ** close *)
(** The memory map is closed if this was allowed, and left alone if not; the stream gives up the
    right to close it, a second call does nothing. *)
Theorem C107_close :
  forall (K : zlib) (o : ostream K), let o' := snd (close o) in
  (o_flag o = true -> o_closable o = true -> o_open o' = false) /\
  (o_flag o = false \/ o_closable o = false -> o_open o' = o_open o) /\
  o_reader o' = o_reader o /\ o_flag o' = false /\ snd (close o') = o'.
Proof.
  intros K [r fl cl op]. unfold close. destruct fl, cl; cbn; repeat split; try easy; now intros [H|H].
Qed.
Print Assumptions C107_close.
(** The documentation promises True when it closed the map; the result is never True. *)
Theorem C107_result_refuted :
  (forall (K : zlib) (o : ostream K), fst (close o) <> Some true) /\
  ~ (forall (K : zlib) (o : ostream K), o_open o = true -> o_open (snd (close o)) = false -> fst (close o) = Some true).
Proof.
  split; [easy|]. intros H. specialize (H stored (loose_stream (reader_init stored [] None)) eq_refl eq_refl). discriminate.
Qed.
Print Assumptions C107_result_refuted.
(** A stream that may not close its data, such as those of a pack (gitdb/pack.py:107-126),
    or whose data cannot be closed, goes on as before. *)
Lemma left_open {K} f ops : forall r fl fl' cl cl' op,
  outcomes f (@mk_ostream K r fl cl op) ops = outcomes f (@mk_ostream K r fl' cl' op) ops.
Proof.
  induction ops as [|[n|] ops IH]; intros; cbn [outcomes]; [easy| |].
  - unfold ostream_read. cbn [o_open o_reader o_flag o_closable]. destruct op.
    + destruct (read f r n) as [[d r']| |]; f_equal; apply IH.
    + destruct (read_closed r n) as [d r']. f_equal. apply IH.
  - f_equal. apply IH.
Qed.
Theorem C107_left_open :
  forall (K : zlib) (o : ostream K) (f : nat) (ops : list rop), o_flag o = false \/ o_closable o = false ->
  outcomes f (snd (close o)) ops = outcomes f o ops.
Proof.
  intros K [r fl cl op] f ops H. unfold close. cbn in *. destruct fl; [|easy]. destruct cl; [now destruct H|]. apply left_open.
Qed.
Print Assumptions C107_left_open.

(** ** Reading a closed stream *)
(** Whatever the state: a read of a closed stream gives what the open one would have given,
    and leaves it as that would have left it, or it raises. *)
Theorem C107_no_other_bytes :
  forall (K : zlib) (o o' : ostream K) (n : Z) (d : bytes) (f : nat), o_open o = false -> ostream_read f o n = (Ok d, o') ->
  evaluates (fun f => match ostream_read f (reopened o) n with (Ok d, o) => Ok (d, o) | _ => Diverge end) (Ok (d, reopened o')).
Proof.
  intros K [r fl cl op] o' n d f Ho H. cbn in Ho. subst op. exists 1%nat. intros f' Hf.
  destruct f' as [|f']; [lia|]. unfold ostream_read in *. cbn [o_open o_reader o_flag o_closable reopened] in *.
  destruct (read_closed r n) as [v r'] eqn:E. injection H as -> <-. now rewrite (read_closed_open _ _ _ _ f' E).
Qed.
Print Assumptions C107_no_other_bytes.
(** The stream of a loose object, closed after any reads, followed by any operations: what
    is left of the first 8192 bytes of header and content is given as ever, everything else
    is a ValueError, and so is everything after that or after a rewind. *)
Theorem C107_after_close :
  forall (K : zlib) (L : zlib_laws K) (t c z rest : bytes), zl_stream L z (hdr t c ++ c) ->
  ~ In BYTE_SPACE t -> ~ In NULL_BYTE t -> len (hdr t c) <= 8192 -> dense L z (hdr t c ++ c) \/ len z <= 8192 ->
  forall (f f1 f2 : nat) (t' : bytes) (n : Z) (r r' : reader K) (ns : list Z) (outs : list bytes) (ops : list rop),
  reader_new K f (z ++ rest) = Ok (t', n, r) -> run_state (read f1) seek0 r (map Read ns) = Ok (outs, r') ->
  outcomes f2 (snd (close (loose_stream r'))) ops =
    closed_cursor c (Z.to_nat (Z.min (len c) (8192 - len (hdr t c)))) (length (concat outs)) ops.
Proof.
  intros K L t c z rest Hz H1 H2 Hl Hcase f f1 f2 t' n r r' ns outs ops Hnew Hrun.
  destruct (new_tame L t c z rest Hz H1 H2 f t' n r Hcase Hl Hnew) as (_ & _ & HP).
  set (f3 := Nat.max f1 (2 * length c + 8)).
  assert (Hrun' : run_state (read f3) seek0 r (map Read ns) = Ok (outs, r')).
  { eapply run_state_mono; [|exact Hrun]. intros s m v. apply read_mono. lia. }
  pose proof (P_state L t c z rest Hz f3 ltac:(lia) ns _ _ _ _ _ HP Hrun') as HP'.
  apply (closed_outcomes L t c z rest); [apply held_small|easy|exact HP'].
Qed.
Print Assumptions C107_after_close.
(** Also when the header's read ends early, with the part of the content that it got. *)
Theorem C107_after_close_any :
  forall (K : zlib) (L : zlib_laws K) (t c z rest : bytes), zl_stream L z (hdr t c ++ c) ->
  ~ In BYTE_SPACE t -> ~ In NULL_BYTE t ->
  forall (f : nat) (t' : bytes) (r : reader K), reader_new K f (z ++ rest) = Ok (t', len c, r) ->
  exists held, Z.of_nat held + len (hdr t c) <= 8192 /\
  forall (f1 f2 : nat) (r' : reader K) (ns : list Z) (outs : list bytes) (ops : list rop),
  run_state (read f1) seek0 r (map Read ns) = Ok (outs, r') ->
  outcomes f2 (snd (close (loose_stream r'))) ops = closed_cursor c held (length (concat outs)) ops.
Proof.
  intros K L t c z rest Hz H1 H2 f t' r Hnew. set (f0 := Nat.max f (2 * length (hdr t c ++ c) + 8)).
  assert (Hnew1 : reader_new K f0 (z ++ rest) = Ok (t', len c, r)).
  { unfold reader_new in *. eapply parse_mono; [|exact Hnew]. lia. }
  destruct (new_contiguous L t c z rest Hz H1 H2 f0 t' r ltac:(lia) Hnew1) as (_ & B & HB & HP).
  exists B. split; [easy|]. intros f1 f2 r' ns outs ops Hrun. set (f3 := Nat.max f1 (2 * length c + 8)).
  assert (Hrun' : run_state (read f3) seek0 r (map Read ns) = Ok (outs, r')).
  { eapply run_state_mono; [|exact Hrun]. intros s m v. apply read_mono. lia. }
  pose proof (P_state L t c z rest Hz f3 ltac:(lia) ns _ _ _ _ _ HP Hrun') as HP'.
  apply (closed_outcomes L t c z rest); [|easy|exact HP'].
  assert (0 < len (hdr t c)); [|lia]. unfold loose_object_header. rewrite !len_app. pose proof (len_nonneg _ t).
  pose proof (len_nonneg _ (fmt_i (len c))). change (len [BYTE_SPACE]) with 1. change (len [NULL_BYTE]) with 1. lia.
Qed.
Print Assumptions C107_after_close_any.
(** So a small object can be read to its end after its stream was closed. *)
Lemma all_held data held : (length data <= held)%nat -> forall ns pos, (pos <= length data)%nat ->
  closed_cursor data held pos (map Read ns) = map Ok (cursor data pos (map Read ns)).
Proof.
  intros Hd. induction ns as [|n ns IH]; intros pos Hp; cbn [map closed_cursor cursor]; [easy|].
  set (d := if n <? 1 then _ else _). cbv zeta.
  assert (Hl : (length d <= length data - pos)%nat).
  { unfold d. destruct (n <? 1); [rewrite skipn_length; lia|]. rewrite firstn_length, skipn_length. lia. }
  clearbody d. replace (_ || _) with true by lia. cbn [map]. f_equal. apply IH. lia.
Qed.
Theorem C107_small_object :
  forall (K : zlib) (L : zlib_laws K) (t c z rest : bytes), zl_stream L z (hdr t c ++ c) ->
  ~ In BYTE_SPACE t -> ~ In NULL_BYTE t -> len (hdr t c ++ c) <= 8192 -> dense L z (hdr t c ++ c) \/ len z <= 8192 ->
  forall (f f1 f2 : nat) (t' : bytes) (n : Z) (r r' : reader K) (ns ns' : list Z) (outs : list bytes),
  reader_new K f (z ++ rest) = Ok (t', n, r) -> run_state (read f1) seek0 r (map Read ns) = Ok (outs, r') ->
  outcomes f2 (snd (close (loose_stream r'))) (map Read ns') = map Ok (cursor c (length (concat outs)) (map Read ns')).
Proof.
  intros K L t c z rest Hz H1 H2 Hl Hcase f f1 f2 t' n r r' ns ns' outs Hnew Hrun. pose proof (len_nonneg _ c) as Hc0.
  rewrite len_app in Hl.
  rewrite (C107_after_close K L t c z rest Hz H1 H2 ltac:(lia) Hcase f f1 f2 t' n r r' ns outs (map Read ns') Hnew Hrun).
  apply all_held; [unfold len in *; lia|].
  destruct (new_tame L t c z rest Hz H1 H2 f t' n r Hcase ltac:(lia) Hnew) as (_ & _ & HP).
  set (f3 := Nat.max f1 (2 * length c + 8)).
  assert (Hrun' : run_state (read f3) seek0 r (map Read ns) = Ok (outs, r')).
  { eapply run_state_mono; [|exact Hrun]. intros s m v. apply read_mono. lia. }
  exact (proj1 (P_state L t c z rest Hz f3 ltac:(lia) ns _ _ _ _ _ HP Hrun')).
Qed.
Print Assumptions C107_small_object.

(** An object of 5 bytes, closed after a read of 2; one of 8200 bytes in one stored block,
    closed after a read of 8000: the buffer then has 183 more. *)
Definition wide_z : bytes := s_compress (hdr str_blob_type big_c ++ big_c).
Definition run_closed (m : bytes) (ns : list Z) (ops : list rop) : list (res bytes) :=
  match reader_new stored 40 m with
  | Ok (_, _, r) =>
      match run_state (read 40) seek0 r (map Read ns) with
      | Ok (_, r') => outcomes 40 (snd (close (loose_stream r'))) ops
      | _ => []
      end
  | _ => []
  end.
Example C107_example :
  (zl_stream stored_laws tiny_z (hdr str_blob_type tiny_c ++ tiny_c) /\
   run_closed tiny_z [2] [Read 1; Read (-1); Read 4; Rewind; Read 1] =
     [Ok [32]; Ok [121; 111]; Ok []; Ok []; Raise ValueError]) /\
  (zl_stream stored_laws wide_z (hdr str_blob_type big_c ++ big_c) /\ dense stored_laws wide_z (hdr str_blob_type big_c ++ big_c) /\
   run_closed wide_z [8000] [Read 3; Read 170; Read 20; Read 1; Rewind; Read 1] =
     [Ok [0; 0; 0]; Ok (repeat 0 170); Raise ValueError; Raise ValueError; Ok []; Raise ValueError]).
Proof.
  split; split.
  - apply s_compress_stream; apply bytes_check; vm_compute; reflexivity.
  - vm_compute. reflexivity.
  - apply s_compress_stream; apply bytes_check; vm_compute; reflexivity.
  - split; [|vm_compute; reflexivity]. apply s_compress_dense. apply bytes_check; vm_compute; reflexivity.
Qed.
