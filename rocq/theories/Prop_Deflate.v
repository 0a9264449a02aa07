(** Properties C22-C26 and C69 of properties.jsonl for the streams of RFC 1950 and RFC 1951,
    with examples that zlib made. *)
From Verif Require Import Py PyFacts FunModel FunSpec ZlibModel ZlibProofs DeflateModel DeflateProofs DeflateDense DeflateQuiet QuietProofs
  ReaderModel StreamSpec ReaderProofs Prop_Reader IndexModel IndexSpec DeltaSpec PackModel PackSpec Prop_Pack.

(** [z] is a zlib stream of [d], by the decoder of DeflateModel.v. *)
Definition inflates (z d : bytes) : Prop := is_bytes z /\ is_bytes d /\ i_run inflate_start z = Some d.
Lemma inflates_stream z d : inflates z d <-> zl_stream deflate_laws z d.
Proof. easy. Qed.
Lemma inflates_check z d : i_run inflate_start z = Some d -> forallb (fun c => (0 <=? c) && (c <? 256)) (z ++ d) = true -> inflates z d.
Proof. intros H1 H2. rewrite forallb_app in H2. apply andb_prop in H2 as [Hz Hd]. split; [now apply bytes_check|]. split; [now apply bytes_check|easy]. Qed.

(** ** C22 and C23 *)
(** The two meet C22's condition on streams: whatever zlib gives for short or incompressible
    content is one block, and not a dynamic one.  The lowest three bits of the third byte are
    1 for a last block that is stored and 3 for a last block with fixed codes. *)
Theorem C22_one_block :
  forall (z d rest : bytes) (ops : list rop), inflates z d -> nth 2 z 0 mod 8 = 1 \/ nth 2 z 0 mod 8 = 3 ->
  evaluates (fun f => run_stream (read f) seek0 (reader_init deflate (z ++ rest) (Some (len d))) ops) (Ok (cursor d 0 ops)).
Proof. intros z d rest ops (H1 & H2 & H3) Hb. now apply (known_exact deflate_laws), one_block_dense. Qed.
Print Assumptions C22_one_block.
Theorem C23_one_block_partial :
  forall (z d rest : bytes) (ops : list rop) (n : Z), inflates z d -> nth 2 z 0 mod 8 = 1 \/ nth 2 z 0 mod 8 = 3 -> 1 <= n ->
  exists outs o,
    evaluates (fun f => run_stream (read f) seek0 (reader_init deflate (z ++ rest) (Some (len d))) (ops ++ [Read n])) (Ok (outs ++ [o])) /\
    ((position 0 ops outs < length d)%nat -> o <> []).
Proof. intros z d rest ops n (H1 & H2 & H3) Hb Hn. now apply (known_nonempty deflate_laws), Hn; [|apply one_block_dense]. Qed.
Print Assumptions C23_one_block_partial.
(** zlib.compress(b'hello hello hello hello') *)
Definition hello_z : bytes :=
  [120; 156; 203; 72; 205; 201; 201; 87; 200; 64; 39; 1; 104; 3; 8; 177].
Definition hello : bytes := [104; 101; 108; 108; 111].
Definition hellos : bytes := hello ++ [32] ++ hello ++ [32] ++ hello ++ [32] ++ hello.
Example C22_one_block_example :
  inflates hello_z hellos /\ nth 2 hello_z 0 mod 8 = 3 /\
  run_stream (read 50) seek0 (reader_init deflate (hello_z ++ [1; 2; 3]) (Some 23)) [Read 5; Read 12; Rewind; Read 3; Read 0; Read 1] =
    Ok (cursor hellos 0 [Read 5; Read 12; Rewind; Read 3; Read 0; Read 1]) /\
  cursor hellos 0 [Read 5; Read 12; Rewind; Read 3; Read 0; Read 1] =
    [hello; [32] ++ hello ++ [32] ++ hello; []; [104; 101; 108]; skipn 3 hellos; []].
Proof. split; [apply inflates_check; vm_compute; reflexivity|]. split; [reflexivity|]. split; vm_compute; reflexivity. Qed.
(** A dynamic block begins with the code lengths, which can take more bytes than the first
    reads look at.  Full statement of C23 in Prop_Reader.v; here it fails on what zlib makes of
    17 lines of text: the first three reads of 10 bytes give nothing. *)
Definition line (i : Z) : bytes :=
  [108; 105; 110; 101; 32] ++ fmt_i i ++ [32; 111; 102; 32; 116; 104; 101; 32; 102; 105; 108; 101; 10].
Definition lines : bytes := flat_map line (map Z.of_nat (seq 0 17)).
(** zlib.compress(b''.join(b'line %d of the file\n' % i for i in range(17)), 1) *)
Definition lines_z : bytes :=
  [120; 1; 109; 207; 49; 14; 128; 32; 16; 68; 209; 222; 83; 236; 17; 28; 17; 148; 3; 45; 145; 100; 163; 13; 247; 143;
   161; 36; 51; 237; 171; 254; 143; 254; 186; 237; 246; 53; 27; 143; 91; 235; 225; 91; 76; 2; 211; 193; 148; 152; 78;
   166; 204; 84; 152; 46; 166; 155; 169; 50; 65; 229; 139; 126; 136; 1; 136; 3; 136; 5; 136; 7; 172; 19; 63; 114; 26;
   105; 50].
Theorem C23_zlib_refuted :
  inflates lines_z lines /\
  evaluates (fun f => run_stream (read f) seek0 (reader_init deflate lines_z (Some (len lines))) [Read 10; Read 10; Read 10; Read 10])
    (Ok [[]; []; []; firstn 10 lines]).
Proof. split; [apply inflates_check; vm_compute; reflexivity|]. apply (run_eval _ _ _ 50). vm_compute. reflexivity. Qed.
Print Assumptions C23_zlib_refuted.
(** In general: if the first block of the stream is a dynamic one (bits 1 and 2 of the third
    byte are 0 and 1), the first read of at most 8 bytes gives nothing, and so does every read
    of content of at most 8 bytes: the first 8 bytes of such a stream are never enough for its
    code lengths. *)
Theorem C23_dynamic_block_refuted :
  forall (z d rest : bytes) (n : Z), inflates z d -> d <> [] -> nth 2 z 0 mod 8 = 4 \/ nth 2 z 0 mod 8 = 5 -> 1 <= n <= 8 \/ len d <= 8 ->
  evaluates (fun f => run_stream (read f) seek0 (reader_init deflate (z ++ rest) (Some (len d))) [Read n]) (Ok [[]]).
Proof.
  intros z d rest n (_ & _ & Hr) Hd Hc Hn. assert (Hl : 1 <= len d) by (destruct d; [easy|]; rewrite len_cons; pose proof (len_nonneg _ d); lia).
  set (size := if n <? 1 then len d else Z.min n (len d)). assert (Hs : 1 <= size <= 8) by (unfold size; destruct (n <? 1) eqn:E; lia).
  destruct (dynamic_quiet z d size Hr Hd Hc ltac:(lia)) as (H8 & st & Hst).
  apply (first_read_empty deflate (z ++ rest) (len d) n st eq_refl); [unfold size in Hs; lia|]. fold size. rewrite Z.max_l by lia.
  change (Z.to_nat 8) with 8%nat. rewrite firstn_app. replace (8 - length z)%nat with 0%nat by lia. cbn [firstn]. now rewrite app_nil_r.
Qed.
Print Assumptions C23_dynamic_block_refuted.
Example C23_dynamic_block_example : inflates lines_z lines /\ lines <> [] /\ nth 2 lines_z 0 mod 8 = 5.
Proof. split; [apply inflates_check; vm_compute; reflexivity|]. split; [easy|reflexivity]. Qed.

(** ** C24 and C25 *)
(** zlib.compress(b'blob 8500\0' + b'a line of a file\n' * 500, 1): one dynamic block. *)
Definition repeats : bytes := flat_map (fun _ => [97; 32; 108; 105; 110; 101; 32; 111; 102; 32; 97; 32; 102; 105; 108; 101; 10]) (seq 0 500).
Definition repeats_z : bytes :=
  [120; 1; 237; 216; 177; 9; 0; 33; 16; 4; 192; 143; 173; 226; 74; 48; 17; 190; 29; 5; 5; 225; 120; 251; 207; 190;
   16; 39; 53; 20; 189; 219; 157; 145; 103; 196; 219; 106; 125; 122; 228; 254; 102; 156; 21; 61; 214; 206; 89; 28;
   184; 15; 207; 193; 111; 48; 12; 204; 66; 187; 193; 106; 148; 12; 4; 35; 185; 80; 44; 86; 19; 180; 36; 37; 81; 71;
   70; 4; 132; 132; 144; 16; 18; 66; 66; 72; 8; 9; 33; 33; 36; 132; 132; 144; 16; 18; 66; 66; 72; 8; 9; 33; 185; 64;
   72; 126; 238; 51; 148; 55].
Example C22_long_read_example :
  inflates lines_z lines /\ len lines_z <= len lines /\
  run_stream (read 200) seek0 (reader_init deflate (lines_z ++ [1; 2; 3]) (Some (len lines))) [Read 4; Read (-1)] = Ok [[]; lines].
Proof. split; [apply inflates_check; vm_compute; reflexivity|]. split; [now apply Z.leb_le|]. vm_compute. reflexivity. Qed.
Example C25_compressed_example :
  inflates repeats_z (loose_object_header str_blob_type (len repeats) ++ repeats) /\
  len repeats_z + 8192 <= len (loose_object_header str_blob_type (len repeats) ++ repeats) /\
  read_object (K := deflate) repeats_z 300 [Read 1; Read (-1)] = Ok (str_blob_type, 8500, [[97]; skipn 1 repeats]).
Proof.
  split; [apply inflates_check; vm_compute; reflexivity|]. split; [apply Z.leb_le; vm_compute; reflexivity|].
  vm_compute. reflexivity.
Qed.

(** ** C26 *)
(** zlib.compress(b'blob 20\0hello, hello, hello!', 1): a small loose object. *)
Definition greeting_z : bytes :=
  [120; 1; 75; 202; 201; 79; 82; 48; 50; 96; 200; 72; 205; 201; 201; 215; 81; 64; 166; 20; 1; 129; 184; 9; 23].
Definition greeting : bytes := hello ++ [44; 32] ++ hello ++ [44; 32] ++ hello ++ [33].
Theorem C26_zlib_refuted :
  inflates greeting_z (loose_object_header str_blob_type (len greeting) ++ greeting) /\
  forall f, (20 <= f)%nat -> read_object (K := deflate) greeting_z f [Read 5; Rewind; Read 5] = Raise ValueError.
Proof.
  split; [apply inflates_check; vm_compute; reflexivity|].
  intros f Hf. do 20 (destruct f as [|f]; [lia|]). clear Hf. vm_compute. reflexivity.
Qed.
Print Assumptions C26_zlib_refuted.
Example C26_zlib_example :
  read_object (K := deflate) greeting_z 50 [Read 5; Read 0; Rewind; Read 12; Read 8] =
    Ok (str_blob_type, 20, [hello; skipn 5 greeting; []; firstn 12 greeting; skipn 12 greeting]).
Proof. vm_compute. reflexivity. Qed.

(** ** C69 *)
(** A pack of two entries as zlib makes them: the lines above (a dynamic block: the stream is not
    longer than the data) and a delta that keeps their first 200 bytes and appends 'new' (fixed
    codes). *)
Definition l_delta : bytes := [202; 2; 203; 1; 144; 200; 3; 110; 101; 119].
Definition l_delta_z : bytes := [120; 1; 59; 197; 116; 154; 113; 194; 9; 230; 188; 212; 114; 0; 24; 62; 4; 62].
Definition e_lines : pentry := mk_pentry 3 NoDelta lines lines_z.
Definition e_new : pentry := mk_pentry 6 (OfsDelta 81) l_delta l_delta_z.
Definition l_new : bytes := [136; 138; 119; 250; 86; 197; 134; 50; 130; 237; 181; 232; 84; 197; 210; 137; 108; 157; 251; 2].
Definition l_base : bytes := [70; 63; 168; 37; 191; 63; 218; 250; 158; 121; 228; 204; 229; 66; 150; 202; 109; 230; 180; 152].
Definition l_pack : bytes := pack_head 2 ++ ([186; 20] ++ lines_z) ++ ([106; 81] ++ l_delta_z) ++ repeat 0 20.
Definition l_shas : list bytes := [l_base; l_new].
Definition l_offs : list Z := [12; 93].
Definition l_idx : bytes := v2_file l_shas [0; 0] l_offs [] (repeat 7 40).
Definition l_ix : pidx := match index_open l_idx with Ok ix => ix | _ => Prop_Index.ex_ix end.
Definition l_chain : list (Z * pentry) := [(93, e_new); (12, e_lines)].
Example C69_zlib_hypotheses :
  index_file 2 l_shas [0; 0] l_offs l_idx /\ strictly_sorted_shas l_shas /\ index_open l_idx = Ok l_ix /\ index l_pack 0 = Ok 80 /\
  found_at l_shas l_offs l_new 93 /\ base_chain deflate_laws l_pack l_shas l_offs 93 l_chain /\ ofs_then_refs l_chain /\
  chain_object l_chain 3 (firstn 200 lines ++ [110; 101; 119]) /\ chain_readable deflate_laws l_chain.
Proof.
  assert (Z1 : zl_stream deflate_laws lines_z lines) by (apply inflates_check; vm_compute; reflexivity).
  assert (Z2 : zl_stream deflate_laws l_delta_z l_delta) by (apply inflates_check; vm_compute; reflexivity).
  split; [|split; [|split; [|split; [reflexivity|split; [|split; [|split; [|split]]]]]]].
  - apply (idx_v2 l_shas [0; 0] l_offs l_offs []); try reflexivity.
    + repeat constructor; cbn; try lia; easy.
    + repeat constructor; cbn; lia.
    + repeat (constructor; [left; split; [lia|reflexivity]|]). constructor.
    + constructor.
  - split; repeat constructor; cbn; try lia; easy.
  - vm_compute. reflexivity.
  - exists 1. repeat split; lia.
  - apply (bc_ofs _ _ _ _ 93 e_new 81 [(12, e_lines)]); [|reflexivity|apply bc_full; [|reflexivity]].
    + exists (pack_head 2 ++ ([186; 20] ++ lines_z)), ([106] ++ [81]), l_delta_z. eexists.
      split; [unfold l_pack; rewrite <- !app_assoc; reflexivity|]. split; [reflexivity|].
      apply eb_ofs; [apply (ph_short 6 10); lia| |exact Z2]. exists [], 81. repeat split; try lia. constructor.
    + exists (pack_head 2), [186; 20], lines_z. eexists.
      split; [unfold l_pack; rewrite <- !app_assoc; reflexivity|]. split; [reflexivity|].
      apply eb_full; [cbn; tauto| |exact Z1]. apply (ph_long 3 10 [20] 20); [lia|apply varint_last; lia].
  - cbn. tauto.
  - exists [(93, e_new)], 12, e_lines. repeat (split; [reflexivity|]). apply (chain_cons _ l_delta [] lines); [constructor|].
    exists [202; 2], [203; 1], [Copy 0 200; Insert [110; 101; 119]], [144; 200; 3; 110; 101; 119].
    assert (varint [202; 2] 330) by (apply (varint_more 202 [2] 2); [lia|apply varint_last; lia]).
    assert (varint [203; 1] 203) by (apply (varint_more 203 [1] 1); [lia|apply varint_last; lia]).
    split; [reflexivity|]. split; [assumption|]. split; [assumption|]. split; [cbn; lia|].
    split; [|split; [replace (len lines) with 330 by (vm_compute; reflexivity); repeat constructor; cbn; lia|vm_compute; reflexivity]].
    apply (enc_cons (Copy 0 200) [Insert [110; 101; 119]] [144; 200] [3; 110; 101; 119]).
    + apply (enc_copy false false false false true false false 0 0 0 0 200 0 0); try easy. apply bytes_check. reflexivity.
    + apply (enc_cons (Insert [110; 101; 119]) [] [3; 110; 101; 119] []); [|constructor].
      apply (enc_insert [110; 101; 119]); [cbn; lia|apply bytes_check; reflexivity].
  - exists [(93, e_new)], (12, e_lines). split; [reflexivity|]. split.
    + constructor; [|constructor]. left. apply one_block_dense; [apply Z2|apply Z2|apply Z2|now right].
    + right. split; apply Z.leb_le; vm_compute; reflexivity.
Qed.
Example C69_zlib_example :
  (let! st := entity_stream deflate 300 (mk_entity l_ix l_pack) l_new in run_stream (os_read 300) os_seek0 st [Read 10; Read 0; Rewind; Read 3]) =
    Ok [firstn 10 lines; skipn 10 (firstn 200 lines) ++ [110; 101; 119]; []; firstn 3 lines].
Proof. vm_compute. reflexivity. Qed.
