(** Theorems C01-C05, C20, C43, C44, C59, C60, C65 about the scalar routines. *)
From Verif Require Import Py PyFacts FunModel FunSpec FunProofs.

(** C01: pack object headers round-trip and delimit themselves. *)
Theorem C01_pack_header_roundtrip : forall t n rest, 0 <= t < 8 -> 0 <= n ->
  exists bs, create_pack_object_header t n = Ok bs /\ is_bytes bs /\ pack_header t bs n /\
    pack_object_header_info (bs ++ rest) = Ok (t, n, len bs).
Proof.
  intros t n rest Ht Hn. destruct (create_pack_object_header_ok t n Ht Hn) as (bs & H1 & H2).
  exists bs. repeat split; [exact H1|exact (pack_header_bytes t bs n Ht H2)|exact H2|now apply pack_header_parse].
Qed.
Print Assumptions C01_pack_header_roundtrip.
(** The parser reads every header of git's format, and nothing else. *)
Theorem C01_pack_header_parse_complete : forall t bs n rest, 0 <= t < 8 -> pack_header t bs n ->
  pack_object_header_info (bs ++ rest) = Ok (t, n, len bs).
Proof. exact pack_header_parse. Qed.
Print Assumptions C01_pack_header_parse_complete.
Theorem C01_pack_header_parse_sound : forall data t n e, is_bytes data ->
  pack_object_header_info data = Ok (t, n, e) ->
  0 <= t < 8 /\ exists bs tl, data = bs ++ tl /\ e = len bs /\ pack_header t bs n.
Proof. exact pack_object_header_info_inv. Qed.
Print Assumptions C01_pack_header_parse_sound.
(** A header that does not end raises. *)
Theorem C01_pack_header_unterminated : forall data, Forall (fun b => 128 <= b < 256) data -> pack_object_header_info data = Raise IndexError.
Proof. exact pack_header_unterminated. Qed.
Print Assumptions C01_pack_header_unterminated.
Example C01_example : create_pack_object_header 3 1000 = Ok [184; 62] /\
  pack_object_header_info ([184; 62] ++ [120; 156]) = Ok (3, 1000, 2).
Proof. split; reflexivity. Qed.

(** C02: delta size varints decode exactly. *)
Theorem C02_msb_size_complete : forall pre v post n, varint v n ->
  msb_size (pre ++ v ++ post) (len pre) = Ok (len pre + len v, n).
Proof. exact msb_size_ok. Qed.
Print Assumptions C02_msb_size_complete.
Theorem C02_msb_size_sound : forall data off e n, is_bytes data -> 0 <= off ->
  msb_size data off = Ok (e, n) ->
  exists a v b, data = a ++ v ++ b /\ len a = off /\ e = off + len v /\ varint v n.
Proof. exact msb_size_inv. Qed.
Print Assumptions C02_msb_size_sound.
Example C02_example : varint [232; 7] 1000 /\ msb_size ([9; 9] ++ [232; 7] ++ [1]) 2 = Ok (4, 1000).
Proof. split; [|reflexivity]. apply (varint_more 232 [7] 7); [lia|]. apply varint_last. lia. Qed.

(** C03: an unterminated size raises. *)
Theorem C03_msb_size_unterminated : forall data off, 0 <= off ->
  Forall (fun b => 128 <= b < 256) (skipn (Z.to_nat off) data) ->
  msb_size data off =
    if (off =? 0) || (len data =? 0) then Raise AssertionError else Raise IndexError.
Proof. exact msb_size_unterminated. Qed.
Print Assumptions C03_msb_size_unterminated.
(** No offset whatsoever finds a size where no byte ends one.  (Negative offsets count from the
    end, and reading goes on at the start.) *)
Theorem C03_any_offset : forall data off, Forall (fun b => 128 <= b < 256) data ->
  msb_size data off = Raise AssertionError \/ msb_size data off = Raise IndexError.
Proof. intros data off. exact (msb_loop_high (length data) data off 0 0). Qed.
Print Assumptions C03_any_offset.
Example C03_example : msb_size [128; 200] 0 = Raise AssertionError /\
  msb_size [1; 128; 200] 1 = Raise IndexError /\ msb_size [128; 200] (-1) = Raise AssertionError /\ msb_size [128; 200] (-3) = Raise IndexError /\
  Forall (fun b => 128 <= b < 256) (skipn (Z.to_nat 1) [1; 128; 200]).
Proof. split; [reflexivity|]. split; [reflexivity|]. split; [reflexivity|]. split; [reflexivity|]. cbn. repeat constructor; lia. Qed.

(** C04: OFS_DELTA distances decode exactly and uniquely. *)
Theorem C04_ofs_decode : forall pre bs rest n, ofs_distance bs n ->
  ofs_delta_info (pre ++ bs ++ rest) (len pre) = Ok (n, len pre + len bs).
Proof. exact ofs_decode. Qed.
Print Assumptions C04_ofs_decode.
Theorem C04_ofs_every_distance : forall n, 0 <= n -> exists bs, ofs_distance bs n.
Proof. exact ofs_encode. Qed.
Print Assumptions C04_ofs_every_distance.
Theorem C04_ofs_unique : forall bs1 bs2 n, ofs_distance bs1 n -> ofs_distance bs2 n -> bs1 = bs2.
Proof. exact ofs_unique. Qed.
Print Assumptions C04_ofs_unique.
Theorem C04_ofs_sound : forall data i n e, is_bytes data -> 0 <= i -> i <= len data ->
  ofs_delta_info data i = Ok (n, e) ->
  exists pre bs tl, data = pre ++ bs ++ tl /\ len pre = i /\ e = i + len bs /\ ofs_distance bs n.
Proof. exact ofs_decode_inv. Qed.
Print Assumptions C04_ofs_sound.
Theorem C04_ofs_unterminated : forall data i, 0 <= i -> Forall (fun b => 128 <= b < 256) (skipn (Z.to_nat i) data) -> ofs_delta_info data i = Raise IndexError.
Proof. exact ofs_unterminated. Qed.
Print Assumptions C04_ofs_unterminated.
Example C04_example : ofs_distance [128; 0] 128 /\ ofs_delta_info ([7] ++ [128; 0] ++ [5]) 1 = Ok (128, 3).
Proof.
  split; [|reflexivity]. exists [128], 0.
  repeat split; try lia; repeat constructor; lia.
Qed.

(** C05: loose object headers round-trip. *)
Theorem C05_loose_header_roundtrip : forall t n content, 0 <= n ->
  ~ In 32 t -> ~ In 0 t ->
  parse_loose_header (loose_object_header t n ++ content) = Ok (t, n).
Proof. exact loose_object_header_ok. Qed.
Print Assumptions C05_loose_header_roundtrip.
(** The bytes are those of git's loose object format: type, one space, the size in
    decimal, a NUL byte. *)
Theorem C05_loose_header_format : forall t n, 0 <= n ->
  exists ds, loose_object_header t n = t ++ [32] ++ ds ++ [0] /\ decimal ds n.
Proof. intros t n Hn. exists (fmt_i n). split; [reflexivity|now apply fmt_i_decimal]. Qed.
Print Assumptions C05_loose_header_format.
Theorem C05_loose_header_parse : forall t ds n content,
  ~ In 32 t -> ~ In 0 t -> decimal ds n ->
  parse_loose_header (t ++ [32] ++ ds ++ [0] ++ content) = Ok (t, n).
Proof. exact parse_loose_header_ok. Qed.
Print Assumptions C05_loose_header_parse.
Example C05_example :
  loose_object_header str_blob_type 12 = [98; 108; 111; 98; 32; 49; 50; 0] /\
  parse_loose_header ([98; 108; 111; 98; 32; 49; 50; 0] ++ [32; 0; 55]) = Ok (str_blob_type, 12).
Proof. split; reflexivity. Qed.

(** C20: canonical sha comparison is hex-prefix comparison. *)
Theorem C20_canonical_sha : forall p mtch sha,
  lower_hex p -> 1 <= len p <= 40 -> hex_to_bin (pad_even p) = Ok mtch ->
  is_bytes sha -> len sha = 20 ->
  is_equal_canonical_sha (len p) mtch sha = Ok (startswith (bin_to_hex sha) p).
Proof. exact is_equal_canonical_sha_spec. Qed.
Print Assumptions C20_canonical_sha.
Example C20_example :
  let sha := [171; 205; 18] ++ repeat 0 17 in
  hex_to_bin (pad_even [97; 98; 99]) = Ok [171; 192] /\
  is_equal_canonical_sha 3 [171; 192] sha = Ok true /\
  is_equal_canonical_sha 3 [171; 208] sha = Ok false.
Proof. repeat split. Qed.

(** C43: stream_copy copies exactly the requested bytes. *)
Theorem C43_stream_copy_exact :
  forall (R W : Type) (read : R -> Z -> res (bytes * R)) (write : W -> bytes -> res (Z * W)) content out,
  full_reader read content -> accepting_writer write out ->
  forall r w size chunk, 0 <= size -> 1 <= chunk ->
  exists r' w',
    evaluates (fun fuel => stream_copy read write fuel r w size chunk)
              (Ok (Z.min size (len (content r)), r', w')) /\
    out w' = out w ++ firstn (Z.to_nat size) (content r) /\
    content r' = skipn (Z.to_nat size) (content r).
Proof. exact @stream_copy_exact. Qed.
Print Assumptions C43_stream_copy_exact.
Example C43_example : full_reader file_read (fun r => r) /\ accepting_writer list_write (fun w => w) /\
  stream_copy file_read list_write 5 [1; 2; 3; 4; 5] [] 4 2 = Ok (4, [5], [1; 2; 3; 4]).
Proof. split; [apply file_read_full|]. split; [apply list_write_accepts|reflexivity]. Qed.
(** write_object writes the loose header and then the content. *)
Theorem C43_write_object_exact :
  forall (R W : Type) (read : R -> Z -> res (bytes * R)) (write : W -> bytes -> res (Z * W)) content out,
  full_reader read content -> accepting_writer write out ->
  forall t r w size chunk, 0 <= size -> 1 <= chunk ->
  exists r' w',
    evaluates (fun fuel => write_object read write fuel t size r w chunk)
              (Ok (len (loose_object_header t size) + Z.min size (len (content r)), r', w')) /\
    out w' = out w ++ loose_object_header t size ++ firstn (Z.to_nat size) (content r) /\
    content r' = skipn (Z.to_nat size) (content r).
Proof. exact @write_object_exact. Qed.
Print Assumptions C43_write_object_exact.

(** C44: short reads do not truncate a copy.  Refuted: a reader that returns one byte per
    call makes stream_copy stop after the first byte although size bytes are available. *)
Theorem C44_short_reads_refuted :
  exists (read : bytes -> Z -> res (bytes * bytes)) (src : bytes) size,
    partial_reader read (fun r => r) /\ size <= len src /\ 0 <= size /\
    evaluates (fun fuel => stream_copy read list_write fuel src [] size 4096) (Ok (1, [98], [97])) /\
    size = 2.
Proof. exact stream_copy_short_refuted. Qed.
Print Assumptions C44_short_reads_refuted.
(** So for every reader: a read that gives less than asked for ends the copy, whatever is left. *)
Theorem C44_every_short_read_refuted :
  forall (R W : Type) (read : R -> Z -> res (bytes * R)) (write : W -> bytes -> res (Z * W)) (out : W -> bytes),
  accepting_writer write out -> forall r w size chunk d r',
  read r (Z.min chunk size) = Ok (d, r') -> len d < Z.min chunk size ->
  exists w', evaluates (fun fuel => stream_copy read write fuel r w size chunk) (Ok (len d, r', w')) /\ out w' = out w ++ d.
Proof. exact @stream_copy_ends. Qed.
Print Assumptions C44_every_short_read_refuted.
(** What holds: the bytes passed on are a prefix of the source of at most size bytes, and
    their number is returned. *)
Theorem C44_short_reads_partial :
  forall (R W : Type) (read : R -> Z -> res (bytes * R)) (write : W -> bytes -> res (Z * W)) content out,
  partial_reader read content -> accepting_writer write out ->
  forall r w size chunk, 0 <= size -> 1 <= chunk ->
  exists r' w' d,
    evaluates (fun fuel => stream_copy read write fuel r w size chunk) (Ok (len d, r', w')) /\
    out w' = out w ++ d /\ content r = d ++ content r' /\ len d <= size.
Proof. exact @stream_copy_prefix. Qed.
Print Assumptions C44_short_reads_partial.
Example C44_example : partial_reader bytewise_read (fun r => r).
Proof. exact bytewise_partial. Qed.

(** C59: hex and binary shas convert losslessly. *)
Theorem C59_bin_hex_bin : forall b, is_bytes b -> len b = 20 ->
  to_bin_sha (to_hex_sha b) = Ok b /\ len (to_hex_sha b) = 40 /\ lower_hex (to_hex_sha b) /\
  to_bin_sha b = Ok b.
Proof. exact to_sha_roundtrip. Qed.
Print Assumptions C59_bin_hex_bin.
Theorem C59_hex_bin_hex : forall h, lower_hex h -> len h = 40 ->
  exists b, to_bin_sha h = Ok b /\ is_bytes b /\ len b = 20 /\ to_hex_sha b = h /\ to_hex_sha h = h.
Proof. exact to_sha_roundtrip'. Qed.
Print Assumptions C59_hex_bin_hex.
(** The same for parts of shas, unless their length makes them look like complete ones. *)
Theorem C59_other_lengths : forall b, is_bytes b ->
  (len b <> 10 -> len b <> 40 -> to_bin_sha (to_hex_sha b) = Ok b) /\
  (len b = 10 -> to_bin_sha (to_hex_sha b) = Ok (to_hex_sha b) /\ to_hex_sha b <> b) /\
  (len b = 40 -> to_hex_sha b = b).
Proof.
  intros b Hb. unfold to_hex_sha. split; [|split].
  - intros H1 H2. replace (len b =? 40) with false by lia. unfold to_bin_sha. rewrite bin_to_hex_len. replace (2 * len b =? 20) with false by lia. now apply hex_to_bin_to_hex.
  - intros H. rewrite H. cbn [Z.eqb Pos.eqb]. unfold to_bin_sha. rewrite bin_to_hex_len, H. split; [easy|]. intros E. apply (f_equal (@len Z)) in E. rewrite bin_to_hex_len in E. lia.
  - intros ->. reflexivity.
Qed.
Print Assumptions C59_other_lengths.
Example C59_example : to_hex_sha (175 :: repeat 0 19) = [97; 102] ++ repeat 48 38 /\
  to_bin_sha ([97; 102] ++ repeat 48 38) = Ok (175 :: repeat 0 19).
Proof. split; reflexivity. Qed.

(** C60: type names and pack type ids are inverse. *)
Theorem C60_type_ids : forall i, In i [1; 2; 3; 4; 6; 7] ->
  exists t, type_id_to_type i = Ok t /\ type_to_type_id t = Ok i.
Proof. exact type_ids_inverse. Qed.
Print Assumptions C60_type_ids.
(** 0 and 5 are reserved and have an empty name; there are no other ids. *)
Theorem C60_other_ids : forall i, ~ In i [1; 2; 3; 4; 6; 7] ->
  type_id_to_type i = if (i =? 0) || (i =? 5) then Ok (PBytes []) else Raise KeyError.
Proof.
  intros i H. cbn [In] in H. unfold type_id_to_type, OFS_DELTA, REF_DELTA.
  destruct (Z.eqb_spec i 0) as [-> |H0]; [easy|]. destruct (Z.eqb_spec i 5) as [-> |H5]; [easy|]. cbn [orb].
  repeat (match goal with |- context [i =? ?k] => replace (i =? k) with false by (symmetry; apply Z.eqb_neq; intros ->; tauto) end). reflexivity.
Qed.
Print Assumptions C60_other_ids.
Theorem C60_type_names : forall t i, type_to_type_id t = Ok i -> type_id_to_type i = Ok t.
Proof. exact type_names_inverse. Qed.
Print Assumptions C60_type_names.
(** The ids are git's: commit 1, tree 2, blob 3, tag 4. *)
Theorem C60_git_ids :
  type_to_type_id (PBytes [99; 111; 109; 109; 105; 116]) = Ok 1 /\
  type_to_type_id (PBytes [116; 114; 101; 101]) = Ok 2 /\
  type_to_type_id (PBytes [98; 108; 111; 98]) = Ok 3 /\
  type_to_type_id (PBytes [116; 97; 103]) = Ok 4.
Proof. repeat split. Qed.
Print Assumptions C60_git_ids.
(** OInfo.type_id and OPackInfo.type agree. *)
Theorem C60_infos_agree : forall sha off i n t, opackinfo_type (mk_opackinfo off i n) = Ok t ->
  In i [1; 2; 3; 4; 6; 7] -> oinfo_type_id (mk_oinfo sha t n) = Ok i.
Proof.
  intros sha off i n t H Hi. destruct (type_ids_inverse i Hi) as (t' & H1 & H2).
  unfold opackinfo_type, oinfo_type_id in *. cbn [opi_type_id oi_type] in *. rewrite H1 in H. injection H as <-. exact H2.
Qed.
Print Assumptions C60_infos_agree.
Example C60_example : opackinfo_type (mk_opackinfo 12 3 5) = Ok (PBytes str_blob_type).
Proof. reflexivity. Qed.

(** C65: is_loose_object recognises zlib headers.  Refuted on Python 3, where it raises a
    TypeError on every non-empty input. *)
Theorem C65_is_loose_object_refuted : forall m, 1 <= len m -> is_loose_object Py3 m = Raise TypeError.
Proof. exact is_loose_object_py3. Qed.
Print Assumptions C65_is_loose_object_refuted.
Theorem C65_is_loose_object_partial : forall m, is_bytes m -> 2 <= len m ->
  exists b, is_loose_object Py2 m = Ok b /\
    (b = true <-> exists x y r, m = x :: y :: r /\ x = 120 /\ (256 * x + y) mod 31 = 0).
Proof. exact is_loose_object_py2. Qed.
Print Assumptions C65_is_loose_object_partial.
Example C65_example : is_loose_object Py2 [120; 156; 1] = Ok true /\
  is_loose_object Py2 [120; 157; 1] = Ok false /\ is_loose_object Py3 [120; 156; 1] = Raise TypeError.
Proof. repeat split. Qed.

(** C60: the names of the two kinds of deltas are texts. *)
From Coq Require Import String.
Theorem C60_delta_names :
  let text s := PStr (map (fun c => Z.of_N (Ascii.N_of_ascii c)) (list_ascii_of_string s)) in
  type_id_to_type 6 = Ok (text "OFS_DELTA"%string) /\ type_id_to_type 7 = Ok (text "REF_DELTA"%string).
Proof. split; reflexivity. Qed.
Print Assumptions C60_delta_names.
