(** Properties C08-C10 and C67 of properties.jsonl: DeltaApplyReader. *)
From Verif Require Import Py PyFacts FunModel FunSpec FunProofs DeltaModel DeltaSpec DeltaProofs
  DeltaReaderModel StreamSpec DeltaReaderProofs DeltaSheetSpec DeltaSheetProofs Prop_Delta.

(** ** C08: for every chain of deltas, whatever streams deliver them. *)
Theorem C08_chain_is_composition :
  forall (R : Type) (read : R -> Z -> res (bytes * R)) (content : R -> bytes),
  stream_reader read content ->
  forall (base : bytes) (ds : list bytes) (result : bytes) (streams : list (R * Z)) (bstream : R),
  delta_chain base ds result -> ds <> [] ->
  Forall2 (fun p d => content (fst p) = d /\ snd p = len d) streams ds -> content bstream = base ->
  exists st, evaluates (fun f => dar_init read f streams bstream (len base)) (Ok st) /\
    dr_size st = len result /\
    fst (dar_read st 0) = result.
Proof. exact @dar_chain_read_all. Qed.
Print Assumptions C08_chain_is_composition.

(** ** C09 *)
Theorem C09_chunked_reads :
  forall (R : Type) (read : R -> Z -> res (bytes * R)) (content : R -> bytes),
  stream_reader read content ->
  forall (base : bytes) (ds : list bytes) (result : bytes) (streams : list (R * Z)) (bstream : R),
  delta_chain base ds result -> ds <> [] ->
  Forall2 (fun p d => content (fst p) = d /\ snd p = len d) streams ds -> content bstream = base ->
  exists st, evaluates (fun f => dar_init read f streams bstream (len base)) (Ok st) /\
    dr_size st = len result /\
    forall ops, run_stream dar_read' dar_rewind st ops = Ok (cursor result 0 ops).
Proof. intros R read content HR base ds result streams bstream. exact (dar_chain_ok' read content HR base ds result streams bstream). Qed.
Print Assumptions C09_chunked_reads.
(** Every seek but to the start raises ValueError. *)
Theorem C09_only_start : forall (st : dar) (offset whence : Z), offset <> 0 \/ whence <> 0 -> dar_seek st offset whence = Raise ValueError.
Proof. intros st offset whence H. unfold dar_seek. now replace (negb (offset =? 0) || negb (whence =? 0)) with true by lia. Qed.
Print Assumptions C09_only_start.
Example C09_example :
  (let! st := dar_init file_read 50 [([3; 7] ++ ex_delta, 10)] [97; 98; 99] 3 in let! st := Ok (snd (dar_read st 2)) in
   Ok (dar_seek st 1 0, dar_seek st 0 2, let! st := dar_seek st 0 0 in Ok (len (fst (dar_read st 0))))) = Ok (Raise ValueError, Raise ValueError, Ok 7).
Proof. vm_compute. reflexivity. Qed.

Example C08_example :
  stream_reader file_read (fun r => r) /\
  delta_chain [97; 98; 99] [[7; 4; 144; 1; 145; 3; 3]; [3; 7] ++ ex_delta] [98; 121; 97; 98] /\
  (let! st := dar_init file_read 50 [([7; 4; 144; 1; 145; 3; 3], 7); ([3; 7] ++ ex_delta, 10)] [97; 98; 99] 3 in
   run_stream dar_read' dar_rewind st [Read 1; Read 2; Read 9; Rewind; Read 0])
  = Ok [[98]; [121; 97]; [98]; []; [98; 121; 97; 98]].
Proof.
  split; [apply full_is_stream_reader, file_read_full|]. split; [exact ex_chain|].
  vm_compute. reflexivity.
Qed.

(** ** C10 *)
(** Full statement: if [dar_init] succeeds on a delta whose instructions produce [p], then
    reading gives [p].  False: the rest of the announced size is whatever the target
    buffer holds. *)
Theorem C10_short_delta_refuted :
  exists (base delta : bytes) (ops : list dop) (st : dar),
    delta = [len base; 5] ++ [1; 120] /\ ops_enc ops [1; 120] /\
    ops_bytes base ops = [120] /\
    evaluates (fun f => dar_init file_read f [(delta, len delta)] base (len base)) (Ok st) /\
    fst (dar_read st 0) = [120; 0; 0; 0; 0].
Proof. exact short_delta_padded. Qed.
Print Assumptions C10_short_delta_refuted.
(** With two deltas the padding is left over from an earlier object: here the byte 98 of
    the base shows up in an object whose deltas only produce "x". *)
Theorem C10_stale_bytes_refuted :
  exists st, evaluates (fun f => dar_init file_read f [([1; 2; 1; 120], 4); ([2; 1; 1; 121], 4)] [97; 98] 2) (Ok st) /\
    fst (dar_read st 0) = [120; 98].
Proof. exact stale_bytes_shown. Qed.
Print Assumptions C10_stale_bytes_refuted.
(** A single delta, whatever sizes its header announces: producing at most the announced
    amount shows the produced bytes padded with zeros, producing more is an error. *)
Theorem C10_short_delta_partial :
  forall (R : Type) (read : R -> Z -> res (bytes * R)) (content : R -> bytes),
  stream_reader read content ->
  forall (base : bytes) (bstream r : R) (v1 v2 e : bytes) (s t : Z) (ops : list dop),
  content bstream = base -> content r = v1 ++ v2 ++ e -> varint v1 s -> varint v2 t ->
  len v1 + len v2 <= 512 -> ops_enc ops e -> Forall (op_inside s) ops ->
  (len (ops_bytes base ops) <= t ->
   exists st, evaluates (fun f => dar_init read f [(r, len (content r))] bstream (len base)) (Ok st) /\
     dr_size st = t /\
     forall rops, run_stream dar_read' dar_rewind st rops =
       Ok (cursor (ops_bytes base ops ++ repeat 0 (Z.to_nat (t - len (ops_bytes base ops)))) 0 rops)) /\
  (0 < t < len (ops_bytes base ops) ->
   evaluates (fun f => dar_init read f [(r, len (content r))] bstream (len base)) (Raise ValueError)).
Proof.
  intros R read content HR base bstream r v1 v2 e s t ops H1 H2.
  apply (single_delta read content (fun _ => True) (stream_is_once _ _ HR)); [exact H1|exact H2|now left|now left].
Qed.
Print Assumptions C10_short_delta_partial.

(** Two or more deltas (latest first, each with the target size it announces and its
    instructions).  The instructions run on two sheets of the largest size among the base and
    what is announced ([sheets] in DeltaSheetSpec.v), which are not wiped in between: behind what
    an instruction list produces there are bytes from two steps before.  More than announced is
    cut off without an error as long as the sheet is large enough, otherwise ValueError. *)
Theorem C10_chain_partial :
  forall (R : Type) (read : R -> Z -> res (bytes * R)) (content : R -> bytes),
  stream_reader read content ->
  forall (base : bytes) (bstream : R) (chain : list (R * Z * list dop)),
  content bstream = base ->
  Forall (fun c => delta_of (content (fst (fst c))) (snd (fst c)) (snd c)) chain -> (2 <= length chain)%nat ->
  let streams := map (fun c => (fst (fst c), len (content (fst (fst c))))) chain in
  let announced := map (fun c => snd (fst c)) chain in
  let instructions := map snd chain in
  let m := widest (len base) announced in
  (fits m base instructions ->
   exists st, evaluates (fun f => dar_init read f streams bstream (len base)) (Ok st) /\ dr_size st = hd 0 announced /\
     forall rops, run_stream dar_read' dar_rewind st rops =
       Ok (cursor (firstn (Z.to_nat (hd 0 announced)) (fst (sheets m base instructions))) 0 rops)) /\
  (0 < m -> ~ fits m base instructions ->
   evaluates (fun f => dar_init read f streams bstream (len base)) (Raise ValueError)).
Proof.
  intros R read content HR base bstream chain H1 H2 H3.
  apply (chain_shown read content (fun _ => True) (stream_is_once _ _ HR)); [exact H1|now left| |exact H3].
  clear H3. induction H2; constructor; [|assumption]. split; [assumption|now left].
Qed.
Print Assumptions C10_chain_partial.
(** The base ab; a delta announcing one byte and producing y; one announcing two bytes and
    producing x: after it comes the b of the base.  The same with a last delta that announces one
    byte and produces xy: only x is shown.  One that produces xyz does not fit. *)
Definition ex_stale (t : Z) (more : bytes) : list (bytes * Z * list dop) :=
  [([1; t; len more + 1; 120] ++ more, t, [Insert (120 :: more)]); ([2; 1; 1; 121], 1, [Insert [121]])].
Example C10_chain_example :
  Forall (fun c => delta_of (fst (fst c)) (snd (fst c)) (snd c)) (ex_stale 2 []) /\
  Forall (fun c => delta_of (fst (fst c)) (snd (fst c)) (snd c)) (ex_stale 1 [121]) /\
  Forall (fun c => delta_of (fst (fst c)) (snd (fst c)) (snd c)) (ex_stale 1 [121; 122]) /\
  widest 2 [2; 1] = 2 /\
  fits 2 [97; 98] (map snd (ex_stale 2 [])) /\ fst (sheets 2 [97; 98] (map snd (ex_stale 2 []))) = [120; 98] /\
  fits 2 [97; 98] (map snd (ex_stale 1 [121])) /\ fst (sheets 2 [97; 98] (map snd (ex_stale 1 [121]))) = [120; 121] /\
  ~ fits 2 [97; 98] (map snd (ex_stale 1 [121; 122])).
Proof.
  assert (D : forall s t l, 0 <= s < 128 -> 0 <= t < 128 -> 0 < len l < 128 -> is_bytes l -> delta_of ([s; t; len l] ++ l) t [Insert l]).
  { intros s t l Hs Ht Hl Hb. exists [s], [t], (len l :: l), s. split; [easy|]. split; [now constructor|]. split; [now constructor|].
    split; [cbn; lia|]. split; [|now repeat constructor]. rewrite <- (app_nil_r (len l :: l)). constructor; [|constructor]. constructor; [lia|exact Hb]. }
  assert (B : forall l, forallb (fun b => (0 <=? b) && (b <? 256)) l = true -> is_bytes l).
  { intros l. unfold is_bytes. induction l as [|b l IH]; cbn [forallb]; intros H; [constructor|]. apply andb_prop in H as (H1 & H2). apply andb_prop in H1 as (H0 & H1). constructor; [unfold is_byte; lia|now apply IH]. }
  unfold ex_stale.
  split; [constructor; [exact (D 1 2 [120] ltac:(lia) ltac:(lia) ltac:(cbn; lia) (B [120] eq_refl))|]; constructor; [exact (D 2 1 [121] ltac:(lia) ltac:(lia) ltac:(cbn; lia) (B [121] eq_refl))|constructor]|].
  split; [constructor; [exact (D 1 1 [120; 121] ltac:(lia) ltac:(lia) ltac:(cbn; lia) (B [120; 121] eq_refl))|]; constructor; [exact (D 2 1 [121] ltac:(lia) ltac:(lia) ltac:(cbn; lia) (B [121] eq_refl))|constructor]|].
  split; [constructor; [exact (D 1 1 [120; 121; 122] ltac:(lia) ltac:(lia) ltac:(cbn; lia) (B [120; 121; 122] eq_refl))|]; constructor; [exact (D 2 1 [121] ltac:(lia) ltac:(lia) ltac:(cbn; lia) (B [121] eq_refl))|constructor]|].
  split; [easy|]. cbn. repeat split; try easy; lia.
Qed.

(** ** C67 *)
(** Full statement: [dar_init] fails when the source size in the header of the oldest delta is
    not the size of the base.  False. *)
Theorem C67_wrong_base_refuted :
  exists st, evaluates (fun f => dar_init file_read f [([9; 2; 145; 1; 2], 5)] [97; 98] 2) (Ok st) /\
    9 <> len [97; 98] /\ fst (dar_read st 0) = [98; 0].
Proof. exact wrong_base_accepted. Qed.
Print Assumptions C67_wrong_base_refuted.
(** It is so for every delta: whatever source size is announced, it is only a bound for the
    instructions; the bytes come from the base there is. *)
Theorem C67_never_compared_refuted :
  forall (R : Type) (read : R -> Z -> res (bytes * R)) (content : R -> bytes),
  stream_reader read content ->
  forall (base : bytes) (bstream r : R) (v1 v2 e : bytes) (s t : Z) (ops : list dop),
  content bstream = base -> content r = v1 ++ v2 ++ e -> varint v1 s -> s <> len base -> varint v2 t ->
  len v1 + len v2 <= 512 -> ops_enc ops e -> Forall (op_inside s) ops -> len (ops_bytes base ops) = t ->
  exists st, evaluates (fun f => dar_init read f [(r, len (content r))] bstream (len base)) (Ok st) /\
    forall rops, run_stream dar_read' dar_rewind st rops = Ok (cursor (ops_bytes base ops) 0 rops).
Proof.
  intros R read content HR base bstream r v1 v2 e s t ops H1 H2 H3 _ H4 H5 H6 H7 H8.
  destruct (C10_short_delta_partial R read content HR base bstream r v1 v2 e s t ops H1 H2 H3 H4 H5 H6 H7) as (H & _).
  destruct H as (st & E & _ & H); [rewrite H8; apply Z.le_refl|]. exists st. split; [exact E|]. intros rops. rewrite H, H8, Z.sub_diag. cbn [Z.to_nat repeat]. now rewrite app_nil_r.
Qed.
Print Assumptions C67_never_compared_refuted.
(** A delta that announces a source of 9 bytes, for a base of 2. *)
Example C67_example :
  stream_reader file_read (fun r => r) /\ varint [9] 9 /\ 9 <> len [97; 98] /\ varint [3] 3 /\
  ops_enc [Insert [120]; Copy 0 2] [1; 120; 144; 2] /\ Forall (op_inside 9) [Insert [120]; Copy 0 2] /\ ops_bytes [97; 98] [Insert [120]; Copy 0 2] = [120; 97; 98] /\
  (let! st := dar_init file_read 50 [([9; 3; 1; 120; 144; 2], 6)] [97; 98] 2 in run_stream dar_read' dar_rewind st [Read 2; Read 0]) = Ok [[120; 97]; [98]].
Proof.
  split; [apply full_is_stream_reader, file_read_full|].
  split; [apply (varint_last 9); lia|]. split; [discriminate|]. split; [apply (varint_last 3); lia|].
  split.
  { change [1; 120; 144; 2] with ([1; 120] ++ [144; 2] ++ []).
    constructor; [apply (enc_insert [120]); [cbn; lia|repeat constructor; lia]|]. constructor; [|constructor].
    apply (enc_copy false false false false true false false 0 0 0 0 2 0 0); try (now unfold absent_zero).
    unfold is_bytes, is_byte. repeat (apply Forall_cons; [lia|]). apply Forall_nil. }
  split; [repeat constructor; cbn; lia|]. split; [reflexivity|]. vm_compute. reflexivity.
Qed.
