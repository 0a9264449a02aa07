(** Property C114 of properties.jsonl: asking for the number of compressed bytes. *)
From Coq Require Import ZifyBool ZifyNat.
From Verif Require Import Py PyFacts FunModel FunSpec FunProofs ZlibModel ZlibProofs ReaderModel StreamSpec ReaderProofs ClosedModel ClosedSpec ClosedProofs CountModel CountProofs Prop_Reader Prop_Closed.

(** Full statement: compressed_bytes_read() changes no later read.

    Partial: if it returns, in any state of any stream, open or closed, with any zlib. *)
Theorem C114_returns_partial :
  forall (K : zlib) (pagesize : Z) (f f' : nat) (o o' : ostream K) (n : Z) (ns : list Z), (f < f')%nat ->
  ostream_count pagesize f o = (Ok n, o') -> outcomes f' o' (map Read ns) = outcomes f' o (map Read ns).
Proof. intros K pagesize f [|f'] o o' n ns Hf; [lia|]. apply count_reads. lia. Qed.
Print Assumptions C114_returns_partial.
(** Partial: and so if the stream is rewound among the later operations, unless its buffer has
    something left at the end of the content. *)
Theorem C114_rewinds_partial :
  forall (K : zlib) (pagesize : Z) (f f' : nat) (o o' : ostream K) (s n : Z) (ops : list rop), (f < f')%nat ->
  r_s (o_reader o) = Some s -> 0 <= s ->
  (r_br (o_reader o) = s -> (r_buf (o_reader o) = None \/ r_buf (o_reader o) = Some []) /\ r_buflen (o_reader o) = 0) ->
  ostream_count pagesize f o = (Ok n, o') -> outcomes f' o' ops = outcomes f' o ops.
Proof. intros K pagesize f [|f'] o o' s n ops Hf; [lia|]. apply count_all. lia. Qed.
Print Assumptions C114_rewinds_partial.
(** Partial: before the end of the content it returns, in a closed stream too, and the stream is the
    same afterwards. *)
Theorem C114_before_end_partial :
  forall (K : zlib) (pagesize : Z) (f : nat) (o : ostream K) (s : Z), r_s (o_reader o) = Some s -> r_br (o_reader o) <> s ->
  ostream_count pagesize f o = (Ok (r_cbr (o_reader o)), o).
Proof.
  intros K pagesize f [r fl cl op] s Hs Hb. cbn [o_reader] in *. unfold ostream_count, compressed_bytes_read, count_closed, count_closed_s, get_s.
  cbn [o_open o_reader o_flag o_closable]. rewrite Hs. cbn [bind]. replace (r_br r =? s) with false by lia. now destruct op.
Qed.
Print Assumptions C114_before_end_partial.
(** False in general: every closed stream that was read to its end, with nothing behind the zlib
    stream, has nothing more to read.  The call raises, and every read after it raises too. *)
Theorem C114_every_closed_refuted :
  forall (K : zlib) (pagesize : Z) (f f' : nat) (o : ostream K) (s : Z) (ns : list Z),
  o_open o = false -> r_s (o_reader o) = Some s -> r_br (o_reader o) = s -> 0 < s -> zs_unused K (r_zip (o_reader o)) = [] -> r_buflen (o_reader o) = 0 -> (0 < f')%nat ->
  outcomes f' o (map Read ns) = map (fun _ => Ok []) ns /\
  fst (ostream_count pagesize f o) = Raise ValueError /\
  outcomes f' (snd (ostream_count pagesize f o)) (map Read ns) = map (fun _ => Raise ValueError) ns.
Proof.
  intros K pagesize f [|f'] o s ns Ho Hs Hb H0 Hu Hl Hf; [lia|]. split; [apply ended_outcomes; now exists s|]. now apply (count_dead pagesize f f' o s).
Qed.
Print Assumptions C114_every_closed_refuted.
(** For the stream of an object in a file: read completely, closed, asked. *)
Definition counted (m : bytes) (ns : list Z) (shut : bool) (ops : list rop) : list (res bytes) * res Z * list (res bytes) :=
  match reader_new stored 40 m with
  | Ok (_, _, r) =>
      match run_state (read 40) seek0 r (map Read ns) with
      | Ok (_, r') =>
          let o := if shut then snd (close (loose_stream r')) else loose_stream r' in
          let (v, o') := ostream_count 4096 40 o in (outcomes 40 o ops, v, outcomes 40 o' ops)
      | _ => ([], Diverge, [])
      end
  | _ => ([], Diverge, [])
  end.
Theorem C114_refuted :
  zl_stream stored_laws tiny_z (hdr str_blob_type tiny_c ++ tiny_c) /\
  counted tiny_z [2; -1] true [Read 3; Read (-1)] = ([Ok []; Ok []], Raise ValueError, [Raise ValueError; Raise ValueError]).
Proof. split; [apply s_compress_stream; apply bytes_check; vm_compute; reflexivity|vm_compute; reflexivity]. Qed.
Print Assumptions C114_refuted.
(** The same open, and closed before the end; the state in which the closed one is. *)
Example C114_example :
  counted tiny_z [2; -1] false [Read 3; Rewind; Read (-1)] = ([Ok []; Ok []; Ok tiny_c], Ok (len tiny_z), [Ok []; Ok []; Ok tiny_c]) /\
  (exists n, counted tiny_z [2] true [Read 2; Read (-1)] = ([Ok [32; 121]; Ok [111]], Ok n, [Ok [32; 121]; Ok [111]])) /\
  match reader_new stored 40 tiny_z with
  | Ok (_, _, r) =>
      match run_state (read 40) seek0 r (map Read [2; -1]) with
      | Ok (_, r') => r_s r' = Some 5 /\ r_br r' = 5 /\ zs_unused stored (r_zip r') = [] /\ r_buf r' = Some [] /\ r_buflen r' = 0
      | _ => False
      end
  | _ => False
  end.
Proof. split; [vm_compute; reflexivity|]. split; [eexists; vm_compute; reflexivity|]. vm_compute. easy. Qed.
