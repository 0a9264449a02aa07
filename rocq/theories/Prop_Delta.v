(** Properties C06, C07, C11-C13 of properties.jsonl: delta application. *)
From Verif Require Import Py PyFacts FunModel FunSpec FunProofs DeltaModel DeltaSpec DeltaProofs ChunkProofs DeltaLast.

(** ** C06 *)
Theorem C06_apply_is_meaning :
  forall (W : Type) (write : W -> bytes -> res W) (out : W -> bytes),
  accepting write out ->
  forall (src : bytes) (ops : list dop) (delta : bytes) (w : W),
  ops_enc ops delta -> Forall (op_inside (len src)) ops ->
  exists w', apply_delta_data write src (len src) delta (len delta) w = Ok w' /\
    out w' = out w ++ ops_bytes src ops.
Proof. exact @apply_delta_data_meaning. Qed.
Print Assumptions C06_apply_is_meaning.

(** It always comes back, whatever the delta. *)
Theorem C06_apply_terminates :
  forall (W : Type) (write : W -> bytes -> res W) (src : bytes) (src_size : Z) (delta : bytes) (w : W),
  (forall w d, write w d <> Diverge) -> is_bytes delta ->
  apply_delta_data write src src_size delta (len delta) w <> Diverge.
Proof. exact @apply_delta_data_terminates. Qed.
Print Assumptions C06_apply_terminates.

(** copy 2 bytes at 1 (offset and size byte present), insert "xy", copy 3 at 0 (no offset
    byte). *)
Definition ex_ops : list dop := [Copy 1 2; Insert [120; 121]; Copy 0 3].
Definition ex_delta : bytes := [145; 1; 2] ++ [2; 120; 121] ++ [144; 3].
Lemma ex_ops_enc : ops_enc ex_ops ex_delta.
Proof.
  unfold ex_ops, ex_delta. rewrite <- (app_nil_r [144; 3]).
  constructor; [|constructor; [|constructor; [|constructor]]].
  - apply (enc_copy true false false false true false false 1 0 0 0 2 0 0); try easy.
    repeat constructor; unfold is_byte; lia.
  - apply (enc_insert [120; 121]); [cbn; lia|]. repeat constructor; unfold is_byte; lia.
  - apply (enc_copy false false false false true false false 0 0 0 0 3 0 0); try easy.
    repeat constructor; unfold is_byte; lia.
Qed.
Example C06_example : accepting collect (fun w => w) /\
  Forall (op_inside (len [97; 98; 99])) ex_ops /\
  apply_delta_data collect [97; 98; 99] 3 ex_delta (len ex_delta) [] = Ok [98; 99; 120; 121; 97; 98; 99].
Proof.
  split; [|split; [|vm_compute; reflexivity]].
  - intros w d. now exists (w ++ d).
  - repeat constructor; cbn; lia.
Qed.

(** ** C07 *)
(** Full statement: [apply_delta_data collect src n delta (len delta) [] = Ok out] implies
    [exists ops, ops_enc ops delta /\ Forall (op_inside n) ops /\ out = ops_bytes src ops].
    False: an out-of-range copy leaves the loop, and in last position the final assertion
    holds. *)
Theorem C07_malformed_rejected_refuted :
  exists (src delta out : bytes),
    is_bytes src /\ is_bytes delta /\
    apply_delta_data collect src (len src) delta (len delta) [] = Ok out /\
    ~ exists ops, ops_enc ops delta /\ Forall (op_inside (len src)) ops.
Proof. exact last_copy_out_of_range_accepted. Qed.
Print Assumptions C07_malformed_rejected_refuted.
(** In general: every delta whose last instruction is a copy outside the source, all others
    being inside it, is accepted, and yields what the others build. *)
Theorem C07_every_last_copy_refuted :
  forall (W : Type) (write : W -> bytes -> res W) (out : W -> bytes), accepting write out ->
  forall (src : bytes) (n : Z) (ops : list dop) (off size : Z) (delta : bytes) (w : W),
  ops_enc (ops ++ [Copy off size]) delta -> Forall (op_inside n) ops -> ~ op_inside n (Copy off size) ->
  exists w', apply_delta_data write src n delta (len delta) w = Ok w' /\ out w' = out w ++ ops_bytes src ops.
Proof. exact @apply_delta_data_last. Qed.
Print Assumptions C07_every_last_copy_refuted.
Example C07_last_copy_example :
  ops_enc ([Insert [120]] ++ [Copy 0 5]) [1; 120; 144; 5] /\
  Forall (op_inside 2) [Insert [120]] /\ ~ op_inside 2 (Copy 0 5) /\
  apply_delta_data collect [97; 98] 2 [1; 120; 144; 5] 4 [] = Ok [120].
Proof.
  split; [|split; [repeat constructor|split; [cbn; intros H; destruct H as [_ H]; lia|vm_compute; reflexivity]]].
  cbn [app]. change [1; 120; 144; 5] with ([1; 120] ++ [144; 5] ++ []).
  constructor; [apply (enc_insert [120]); [cbn; lia|repeat constructor; lia]|].
  constructor; [|constructor].
  apply (enc_copy false false false false true false false 0 0 0 0 5 0 0); try (now unfold absent_zero).
  unfold is_bytes, is_byte. repeat (apply Forall_cons; [lia|]). apply Forall_nil.
Qed.

(** Everything except that last out-of-range copy is rejected: a normal return means the
    buffer is instructions, all executed, all inside the source, possibly followed by one
    final copy that is outside it and was dropped. *)
Theorem C07_malformed_rejected_partial :
  forall (src : bytes) (src_size : Z) (delta out : bytes), is_bytes delta ->
  apply_delta_data collect src src_size delta (len delta) [] = Ok out ->
  exists ops, out = ops_bytes src ops /\ Forall (op_inside src_size) ops /\
    (ops_enc ops delta \/
     exists off size, ops_enc (ops ++ [Copy off size]) delta /\ ~ op_inside src_size (Copy off size)).
Proof. exact apply_delta_data_inv. Qed.
Print Assumptions C07_malformed_rejected_partial.
Example C07_example :
  apply_delta_data collect [97; 98] 2 [2; 120] 2 [] = Raise AssertionError /\
  apply_delta_data collect [97; 98] 2 [144] 1 [] = Raise IndexError /\
  apply_delta_data collect [97; 98] 2 [0] 1 [] = Raise ValueError /\
  apply_delta_data collect [97; 98] 2 [144; 5; 1; 97] 4 [] = Raise AssertionError.
Proof. vm_compute. repeat split; reflexivity. Qed.

(** ** C11 *)
Theorem C11_aggregation_equals_chain :
  forall (base : bytes) (ds : list bytes) (result : bytes),
  delta_chain base ds result -> ds <> [] ->
  exists l, connect_deltas Py2 (map (fun d => (d, len d)) ds) = Ok l /\
    contiguous (len base) 0 l /\
    delta_list_apply l base = result.
Proof. exact connect_deltas_ok. Qed.
Print Assumptions C11_aggregation_equals_chain.

(** The result passes the library's own integrity check. *)
Theorem C11_aggregation_integrity :
  forall (base : bytes) (ds : list bytes) (result : bytes),
  delta_chain base ds result -> ds <> [] -> result <> [] ->
  exists l, connect_deltas Py2 (map (fun d => (d, len d)) ds) = Ok l /\
    check_integrity Py2 l (len result) = Ok tt.
Proof. exact connect_deltas_integrity. Qed.
Print Assumptions C11_aggregation_integrity.

(** The instruction 0 is rejected (the other way to read deltas: C07). *)
Theorem C11_zero_instruction :
  forall (v1 v2 : bytes) (n m : Z) (ops : list dop) (e rest : bytes) (ds : list (bytes * Z)),
  varint v1 n -> varint v2 m -> ops_enc ops e -> Forall (op_inside n) ops ->
  connect_deltas Py2 ((v1 ++ v2 ++ e ++ 0 :: rest, len (v1 ++ v2 ++ e ++ 0 :: rest)) :: ds) = Raise ValueError.
Proof. exact connect_zero. Qed.
Print Assumptions C11_zero_instruction.

Lemma ex_is_delta : is_delta [97; 98; 99] ([3; 7] ++ ex_delta) [98; 99; 120; 121; 97; 98; 99].
Proof.
    exists [3], [7], ex_ops, ex_delta. split; [easy|]. change (len [97; 98; 99]) with 3. change (len [98; 99; 120; 121; 97; 98; 99]) with 7.
    split; [apply varint_last; lia|]. split; [apply varint_last; lia|].
    split; [cbn; lia|]. split; [apply ex_ops_enc|]. split; [repeat constructor; cbn; lia|easy].
Qed.
(** Two deltas: the first is [ex_delta] against "abc", the second copies 1 byte at 0 and 3 at 3
    of the first one's result. *)
Lemma ex_chain : delta_chain [97; 98; 99]
  [[7; 4; 144; 1; 145; 3; 3]; [3; 7] ++ ex_delta] [98; 121; 97; 98].
Proof.
  apply (chain_cons _ _ _ [98; 99; 120; 121; 97; 98; 99]).
  - apply (chain_cons _ _ _ [97; 98; 99]); [constructor|exact ex_is_delta].
  - exists [7], [4], [Copy 0 1; Copy 3 3], [144; 1; 145; 3; 3]. split; [easy|]. change (len [98; 99; 120; 121; 97; 98; 99]) with 7. change (len [98; 121; 97; 98]) with 4.
    split; [apply varint_last; lia|]. split; [apply varint_last; lia|].
    split; [cbn; lia|]. split; [|split; [repeat constructor; cbn; lia|easy]].
    change [144; 1; 145; 3; 3] with ([144; 1] ++ [145; 3; 3] ++ []).
    constructor; [|constructor; [|constructor]].
    + apply (enc_copy false false false false true false false 0 0 0 0 1 0 0); try easy.
      repeat constructor; unfold is_byte; lia.
    + apply (enc_copy true false false false true false false 3 0 0 0 3 0 0); try easy.
      repeat constructor; unfold is_byte; lia.
Qed.
Example C11_example :
  connect_deltas Py2 [([3; 7] ++ ex_delta ++ [0; 5], len ([3; 7] ++ ex_delta ++ [0; 5]))] = Raise ValueError /\
  match connect_deltas Py2 (map (fun d => (d, len d)) [[7; 4; 144; 1; 145; 3; 3]; [3; 7] ++ ex_delta]) with
  | Ok l => length l = 3%nat /\ delta_list_apply l [97; 98; 99] = [98; 121; 97; 98]
  | _ => False
  end.
Proof. split; [reflexivity|]. vm_compute. repeat split; reflexivity. Qed.

(** ** C12 *)
Theorem C12_slice_exact :
  forall (base : bytes) (dcl : list chunk) (ofs size : Z),
  contiguous (len base) 0 dcl -> 0 <= ofs -> 0 < size -> ofs + size <= len (delta_list_apply dcl base) ->
  exists r, delta_list_slice Py2 dcl ofs size = Ok r /\ contiguous (len base) ofs r /\
    delta_list_apply r base =
    firstn (Z.to_nat size) (skipn (Z.to_nat ofs) (delta_list_apply dcl base)).
Proof. exact delta_list_slice_exact. Qed.
Print Assumptions C12_slice_exact.
(** A slice that begins at or behind the end is no error: it is one chunk whose size is not
    positive. *)
Theorem C12_beyond_end :
  forall (base : bytes) (dcl : list chunk) (ofs size : Z),
  contiguous (len base) 0 dcl -> dcl <> [] -> len (delta_list_apply dcl base) <= ofs -> 0 <= size ->
  exists d, delta_list_slice Py2 dcl ofs size = Ok [d] /\ c_to d = ofs /\ c_ts d = len (delta_list_apply dcl base) - ofs.
Proof. intros base dcl ofs size Hc Hne Hl Hs. rewrite (list_apply_len _ _ _ Hc) in *. exact (slice_beyond _ dcl ofs size Hc Hne Hl Hs). Qed.
Print Assumptions C12_beyond_end.
Example C12_ex_beyond : let dcl := [mk_chunk 0 3 2 None; mk_chunk 3 2 0 (Some [120; 121; 122])] in
  contiguous 10 0 dcl /\ delta_list_slice Py2 dcl 7 4 = Ok [mk_chunk 7 (-2) 4 (Some [])].
Proof. split; [|vm_compute; reflexivity]. cbn. unfold chunk_ok. cbn. repeat split; lia. Qed.
Example C12_example :
  let dcl := [mk_chunk 0 3 2 None; mk_chunk 3 2 0 (Some [120; 121; 122]); mk_chunk 5 4 0 None] in
  contiguous 10 0 dcl /\
  delta_list_slice Py2 dcl 1 5 = Ok [mk_chunk 1 2 3 None; mk_chunk 3 2 0 (Some [120; 121; 122]); mk_chunk 5 1 0 None].
Proof. split; [|vm_compute; reflexivity]. cbn. unfold chunk_ok. cbn. repeat split; lia. Qed.

(** ** C13 *)
(** Full statement: for every well-formed delta [d], [connect_deltas Py3 [(d, len d)]] is
    [Ok _].  False for every delta that produces anything. *)
Theorem C13_aggregation_py3_refuted :
  forall (src d tgt : bytes) (others : list (bytes * Z)), is_delta src d tgt -> tgt <> [] ->
  connect_deltas Py3 ((d, len d) :: others) = Raise TypeError.
Proof. exact connect_deltas_py3. Qed.
Print Assumptions C13_aggregation_py3_refuted.
Example C13_example :
  is_delta [97; 98; 99] ([3; 7] ++ ex_delta) [98; 99; 120; 121; 97; 98; 99] /\
  connect_deltas Py3 [([3; 7] ++ ex_delta, len ([3; 7] ++ ex_delta))] = Raise TypeError.
Proof. split; [exact ex_is_delta|vm_compute; reflexivity]. Qed.

(** ** C89 *)
(** size() of a list whose chunks lie one after the other is what apply() writes, and the list
    reaches from lbound() to rbound(). *)
Theorem C89_size :
  forall (base : bytes) (dcl : list chunk) (t : Z), contiguous (len base) t dcl ->
  dcl_size dcl = Ok (len (dcl_apply dcl base)) /\
  (dcl <> [] -> dcl_lbound dcl = Ok t /\ dcl_rbound dcl = Ok (t + len (dcl_apply dcl base))).
Proof. intros base dcl t H. split; [exact (dcl_size_ok base t dcl H)|exact (dcl_bounds_ok base t dcl H)]. Qed.
Print Assumptions C89_size.
(** A part of a list has the size that was asked for, wherever it begins. *)
Theorem C89_slice_size :
  forall (base : bytes) (dcl : list chunk) (ofs size : Z),
  contiguous (len base) 0 dcl -> 0 <= ofs -> 0 < size -> ofs + size <= len (delta_list_apply dcl base) ->
  exists r, delta_list_slice Py2 dcl ofs size = Ok r /\ dcl_size r = Ok size /\ dcl_lbound r = Ok ofs /\ dcl_rbound r = Ok (ofs + size).
Proof.
  intros base dcl ofs size Hc Ho Hs Hl. destruct (delta_list_slice_exact base dcl ofs size Hc Ho Hs Hl) as (r & -> & Hr & Ha). exists r. split; [reflexivity|].
  assert (Hlen : len (dcl_apply r base) = size).
  { unfold dcl_apply. rewrite Ha. unfold len in *. rewrite firstn_length, skipn_length. lia. }
  assert (r <> []) as Hn by (intros ->; cbn in Hlen; lia). destruct (dcl_bounds_ok base ofs r Hr Hn) as [H1 H2]. rewrite (dcl_size_ok base ofs r Hr), Hlen in *. easy.
Qed.
Print Assumptions C89_slice_size.
(** Full statement: a list that passes check_integrity(target_size) produces that many bytes
    from every base that contains what it copies.  False for a list of one chunk: its data is
    not looked at. *)
Theorem C89_one_chunk_refuted : exists dcl target,
  check_integrity Py2 dcl target = Ok tt /\ check_integrity Py3 dcl target = Ok tt /\
  Forall (fun d => c_data d <> None) dcl /\ forall base, len (dcl_apply dcl base) < target.
Proof.
  exists [mk_chunk 0 5 0 (Some [97; 98])], 5. split; [reflexivity|]. split; [reflexivity|]. split; [now repeat constructor|]. intros base. reflexivity.
Qed.
Print Assumptions C89_one_chunk_refuted.
(** So for every chunk of data at the start whose data is too short. *)
Theorem C89_every_chunk_refuted : forall (it : interp) (so target : Z) (data : bytes), len data < target ->
  let dcl := [mk_chunk 0 target so (Some data)] in
  check_integrity it dcl target = Ok tt /\ forall base, len (dcl_apply dcl base) < target.
Proof.
  intros it so target data H dcl. pose proof (len_nonneg _ data). split.
  - unfold check_integrity. replace (-1 <? target) with true by lia. change (index dcl (-1)) with (Ok (mk_chunk 0 target so (Some data))).
    cbn [bind]. unfold c_rbound. cbn [c_to c_ts fold_left dcl]. rewrite Z.add_0_l, Z.eqb_refl. reflexivity.
  - intros base. unfold dcl, dcl_apply, delta_list_apply, delta_chunk_apply. cbn [map concat c_data c_ts].
    replace (target <? len data) with false by lia. now rewrite app_nil_r.
Qed.
Print Assumptions C89_every_chunk_refuted.
Example C89_every_chunk_example : check_integrity Py3 [mk_chunk 0 9 4 (Some [97])] 9 = Ok tt /\ dcl_apply [mk_chunk 0 9 4 (Some [97])] [] = [97].
Proof. now split. Qed.
(** On Python 3 the check raises AttributeError for every list of more chunks that is in order. *)
Theorem C89_check_py3_refuted :
  forall (n : Z) (dcl : list chunk), contiguous n 0 dcl -> 2 <= len dcl -> check_integrity Py3 dcl (-1) = Raise AttributeError.
Proof. exact integrity_py3. Qed.
Print Assumptions C89_check_py3_refuted.
(** What holds: with two chunks or more. *)
Theorem C89_checked_partial :
  forall (base : bytes) (dcl : list chunk) (target : Z), check_integrity Py2 dcl target = Ok tt -> 0 <= target -> 2 <= len dcl ->
  Forall (fun d => c_data d = None -> 0 <= c_so d /\ c_so d + c_ts d <= len base) dcl ->
  contiguous (len base) 0 dcl /\ len (dcl_apply dcl base) = target.
Proof. exact integrity_sound. Qed.
Print Assumptions C89_checked_partial.
(** compress() changes neither what a list writes nor where it lies, and does not make it
    longer. *)
Theorem C89_compress :
  forall (base : bytes) (dcl : list chunk), contiguous (len base) 0 dcl ->
  exists l, compress Py2 dcl = Ok l /\ contiguous (len base) 0 l /\ dcl_apply l base = dcl_apply dcl base /\ len l <= len dcl.
Proof. exact compress_keeps. Qed.
Print Assumptions C89_compress.
(** On Python 3 it raises TypeError for every list with three chunks of data before one that
    copies (a list where there is something to join), and leaves every other as it is. *)
Theorem C89_compress_py3_refuted :
  forall (dcl : list chunk),
  let joined := exists a x y z c d, dcl = a ++ [x; y; z; c] ++ d /\ c_data x <> None /\ c_data y <> None /\ c_data z <> None /\ c_data c = None in
  (joined -> compress Py3 dcl = Raise TypeError) /\ (~ joined -> compress Py3 dcl = Ok dcl).
Proof. exact compress_py3. Qed.
Print Assumptions C89_compress_py3_refuted.
Example C89_example :
  let dcl := [mk_chunk 0 2 0 (Some [97; 98]); mk_chunk 2 1 0 (Some [99; 100]); mk_chunk 3 1 0 (Some [101]); mk_chunk 4 3 2 None] in
  contiguous 10 0 dcl /\ dcl_size dcl = Ok 7 /\ check_integrity Py2 dcl 7 = Ok tt /\
  compress Py2 dcl = Ok [mk_chunk 0 4 0 (Some [97; 98; 99; 101]); mk_chunk 4 3 2 None] /\
  (let! r := delta_list_slice Py2 dcl 1 4 in dcl_size r) = Ok 4 /\ compress Py3 dcl = Raise TypeError /\ compress Py3 (skipn 1 dcl) = Ok (skipn 1 dcl).
Proof. split; [|vm_compute; repeat split; reflexivity]. cbn. unfold chunk_ok. cbn. repeat split; lia. Qed.
