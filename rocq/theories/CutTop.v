(** Packs and object files with a stream of CutProofs.v. *)
From Coq Require Import ZifyBool ZifyNat.
From Verif Require Import Py PyFacts FunModel FunSpec FunProofs IndexModel IndexSpec ZlibModel ZlibProofs ReaderModel StreamSpec ReaderProofs DeflateModel DeflateProofs CompressModel CutProofs
  PackModel PackSpec PackProofs PackChainProofs PackWriteProofs OsModel OsProofs LooseModel LooseSpec LooseProofs LooseTop LooseQuery MemModel MemSpec MemProofs.
Ltac Zify.zify_post_hook ::= Z.div_mod_to_equations.

Definition parts_ok (chunks : list bytes) : Prop := Forall (fun c => len c <= 65535) chunks.

Section Pack.
  Context (comp : Z -> bytes -> bytes) (Hcomp : forall level d, is_bytes d -> zl_stream deflate_laws (comp level d) d).
  Notation K := (with_compressor comp).
  Notation L := (compressor_laws comp Hcomp).
  Context (sha1 : bytes -> bytes) (Hsha : forall d, len (sha1 d) = 20) (pagesize : Z) (Hps : 0 < pagesize).
  Context {R : Type} (oread : R -> Z -> res (bytes * R)) (content : R -> bytes) (Hrd : stream_reader oread content).

  Lemma cut_reads chunks rest n : parts_ok chunks -> len chunks = 3 -> n < 1 \/ len (with_text chunks) <= n ->
    evaluates (fun f => run_stream (read f) (fun r => seek r 0 0) (reader_init K (text_stream chunks ++ rest) (Some (len (with_text chunks)))) [Read n]) (Ok [concat chunks]).
  Proof.
    intros Hc H3 Hn. exists 5%nat. intros f Hf. destruct (text_read comp chunks rest n f Hc H3 Hn Hf) as (r & Hr & _). cbn [run_stream]. now rewrite Hr.
  Qed.
  Lemma cut_back level e o chunks : reads_back L content level e o -> content (wo_stream o) = with_text chunks -> comp level (with_text chunks) = text_stream chunks ->
    parts_ok chunks -> len chunks = 3 ->
    exists st, (forall f, entity_stream K f e (wo_binsha o) = Ok st) /\ os_size st = len (with_text chunks) /\
      forall n, n < 1 \/ len (with_text chunks) <= n -> evaluates (fun f => run_stream (os_read f) os_seek0 st [Read n]) (Ok [concat chunks]).
  Proof.
    intros (_ & st & zs & Hz & Hst & _ & Hsz & _ & _ & _ & rest & Hrun) Ho Hcz Hc H3. rewrite Ho in *. cbn [zc_new with_compressor] in Hrun.
    exists st. split; [exact Hst|]. split; [exact Hsz|]. intros n Hn. apply Hrun. change (zc_new K level) with (level, @nil Z). rewrite compressor_all, Hz. cbn [app]. rewrite Hcz. now apply cut_reads.
  Qed.
  Lemma cut_iter {L' : zlib_laws K} e es pack chunks : pack_file L' sha1 ((12, e) :: es) pack -> pn_data e = with_text chunks -> pn_z e = text_stream chunks ->
    parts_ok chunks -> len chunks = 3 -> len (with_text chunks) <= chunk_size pagesize ->
    evaluates (fun f => stream_iter K pagesize f pack 0) (Raise AssertionError).
  Proof.
    clear oread content Hrd Hcomp.
    intros (body & fin & Hes & _ & ->) Hd Hpz Hc H3 Hl. inversion Hes as [|off e' hdr z es' b fin' Hb Hrest]; subst.
    set (h := pack_head (len ((12, e) :: es))). assert (Hh : len h = 12) by reflexivity.
    exists 6%nat. intros fuel Hf. unfold stream_iter, footer_size, first_object_offset. cbn [Z.eqb]. destruct fuel as [|f]; [lia|]. set (g := S f) at 2. cbn [iter_loop].
    destruct (entry_fields L' _ _ _ Hb) as (_ & Ez & Hlh & _). pose proof (len_nonneg _ z). pose proof (len_nonneg _ b).
    replace (12 <? _) with true by (rewrite !len_app, Hh, Hsha; lia).
    enough (iter_step K pagesize g ((h ++ hdr ++ z ++ b) ++ sha1 (h ++ hdr ++ z ++ b)) 12 = Raise AssertionError) as -> by reflexivity.
    unfold iter_step. set (tr := sha1 _). replace ((h ++ hdr ++ z ++ b) ++ tr) with (h ++ hdr ++ z ++ (b ++ tr)) by now rewrite <- !app_assoc.
    rewrite <- Hh. rewrite (pack_object_at_bytes L' e hdr z h (b ++ tr) Hb). cbn [bind po_stream po_size po_offset]. rewrite <- Ez, Hd, Hpz.
    assert (Lt : len (with_text chunks) = len (concat chunks) + 20) by (unfold with_text; now rewrite len_app). pose proof (len_nonneg _ (concat chunks)).
    unfold g, stream_copy. cbn [stream_copy_loop]. rewrite Z.sub_0_r. replace (Z.min (chunk_size pagesize) (len (with_text chunks))) with (len (with_text chunks)) by lia.
    destruct (text_read comp chunks (b ++ tr) (len (with_text chunks)) (S f) Hc H3 (or_intror (Z.le_refl _)) ltac:(lia)) as (r & -> & Hr). cbn [bind null_write].
    replace (len (concat chunks) <? len (with_text chunks)) with true by lia. cbn [orb bind]. rewrite Hr. replace (len (concat chunks) =? len (with_text chunks)) with false by lia. reflexivity.
  Qed.
End Pack.

Section Loose.
  Context (comp : Z -> bytes -> bytes) (Hcomp : forall level d, is_bytes d -> zl_stream deflate_laws (comp level d) d).
  Notation K := (with_compressor comp).
  Notation L := (compressor_laws comp Hcomp).
  Context (sha1 : bytes -> bytes) (Hsha : forall d, sha_ok (sha1 d)) (pagesize : Z) (Hpage : 0 < pagesize).
  Context {R : Type} (rd : R -> Z -> res (bytes * R)) (content : R -> bytes) (HR : stream_reader rd content).
  Context (O : os) (fuel : nat).
  Notation lives := (lives K sha1 pagesize rd O fuel).
  Notation store := (store K sha1 pagesize rd fuel).

  Lemma cut_loose db0 s0 ops1 db1 s1 i i' o s2 ops2 db2 s3 sha out first chunks n :
    can_read O -> l_cache db0 = [] -> wf s0 -> no_objects (l_root db0) s0 ->
    Forall (proper_op content) (ops1 ++ LStore i :: ops2) -> no_collision sha1 (objects_of content (ops1 ++ LStore i :: ops2)) ->
    lives db0 s0 ops1 db1 s1 -> runs O (store db1 None i) s1 (Ok (i', o)) s2 -> lives db1 s2 ops2 db2 s3 -> is_binsha i' = Some sha ->
    content (is_stream i) = out ++ text -> len (loose_object_header (is_type i) (is_size i)) <= 8172 ->
    loose_object_header (is_type i) (is_size i) ++ out = concat (first :: chunks) ->
    8192 < len first -> parts_ok (first :: chunks) -> len chunks = 3 \/ len chunks = 4 ->
    (forall level, comp level (with_text (first :: chunks)) = text_stream (first :: chunks)) -> n < 1 \/ is_size i <= n ->
    exists f0, forall f, (f0 <= f)%nat -> yields O (read_stream (K := K) f db2 sha [Read n]) s3 (Ok (is_type i, is_size i, [out])).
  Proof.
    intros Hcr Hcache Hw Hno Hp Hnc Hl1 Hst Hl2 Hi' Ho Hlen Hraw Hfirst Hc H4 Hcz Hn.
    destruct (stored_then L sha1 Hsha pagesize Hpage rd content HR O fuel (l_root db0) db0 s0 ops1 db1 s1 i i' o s2 ops2 db2 s3
      eq_refl Hcache Hw Hno Hp Hnc Hl1 Hst Hl2) as (sha' & z & H1 & H2 & H3 & H5 & H6 & _ & H7 & H8).
    rewrite Hi' in H1. injection H1 as <-. 
    apply Forall_app in Hp as [_ Hp]. apply Forall_inv in Hp. destruct Hp as (_ & Hs & _ & _ & Hn1 & Hn2).
    destruct (zl_start K L _ _ H8) as (Hne & _). destruct H8 as (_ & level & Hz). rewrite Ho in Hs.
    assert (z = text_stream (first :: chunks)) as ->.
    { rewrite Hz, <- (Hcz level). f_equal. unfold form, object_of, with_text. cbn [fst snd]. rewrite Ho, <- Hs, app_assoc. now rewrite Hraw. }
    rewrite Hs in *. destruct (text_object comp (is_type i) out first chunks [] n Hn1 Hn2 Hlen Hraw Hfirst Hc H4 Hn) as (f0 & Hev). rewrite app_nil_r in Hev.
    exists f0. intros f Hf0. apply (stream_yields O) with (z := text_stream (first :: chunks)); try easy; [now rewrite H6|]. now apply Hev.
  Qed.
End Loose.

Section Memory.
  Context (comp : Z -> bytes -> bytes) (Hcomp : forall level d, is_bytes d -> zl_stream deflate_laws (comp level d) d).
  Notation K := (with_compressor comp).
  Notation L := (compressor_laws comp Hcomp).
  Context (sha1 : bytes -> bytes) (Hsha : forall d, sha_ok (sha1 d)) (pagesize : Z) (Hpage : 0 < pagesize).
  Context {R : Type} (rd : R -> Z -> res (bytes * R)) (content : R -> bytes) (HR : stream_reader rd content).

  Lemma lazy_read f (m : bytes) n t s out : read_object (K := K) m f [Read n] = Ok (t, s, [out]) -> exists r, read f (reader_init K m None) n = Ok (out, r).
  Proof.
    unfold read_object, read, get_s, reader_new. cbn [r_s reader_init].
    replace (parse_header_info f (mk_reader m (zs_new K) None 0 (Some 0) 0 0 0 0 false)) with (parse_header_info f (mk_reader m (zs_new K) None 0 None 0 0 0 0 false)) by reflexivity.
    destruct (parse_header_info _ _) as [[[t' s'] r]|e|] eqn:E; cbn [bind]; [|easy|easy].
    assert (r_s r = Some s') as Hs.
    { unfold parse_header_info in E. apply bind_ok_inv in E as ([h r1] & _ & E). apply bind_ok_inv in E as ([t1 s1] & _ & E). now injection E as _ <- <-. }
    cbn [run_stream]. unfold read, get_s. rewrite Hs. cbn [bind]. destruct (read_s f s' r n) as [[o r1]|e|]; cbn [bind]; [|easy|easy].
    intros H. injection H as _ _ ->. now exists r1.
  Qed.
  Lemma cut_memory i db out first chunks n sha : proper content i -> name_of sha1 (object_of content i) sha ->
    content (is_stream i) = out ++ text -> len (loose_object_header (is_type i) (is_size i)) <= 8172 ->
    loose_object_header (is_type i) (is_size i) ++ out = concat (first :: chunks) ->
    8192 < len first -> parts_ok (first :: chunks) -> len chunks = 3 \/ len chunks = 4 ->
    comp 1 (with_text (first :: chunks)) = text_stream (first :: chunks) -> n < 1 \/ is_size i <= n ->
    exists f0, forall f, (f0 <= f)%nat -> exists db',
      m_run K sha1 pagesize rd f db [MStore i; MUse sha [Read n]] =
      ret ([Ok (OStored sha (is_type i) (is_size i)); Ok (OStream sha (is_type i) (is_size i) [out])], db').
  Proof.
    intros Hi Hname Ho Hlen Hraw Hfirst Hc H4 Hcz Hn. apply name_form in Hname as ->. pose proof Hi as (Hb & Hs & H1 & H2 & H3 & H5).
    assert (plain (object_of content i)) as Hp by (unfold plain, object_of; auto). rewrite Ho in Hs.
    assert (compressed_as (K := K) pagesize (object_of content i) = text_stream (first :: chunks)) as Hz.
    { unfold compressed_as. change (zc_new K 1) with (1, @nil Z). rewrite compressor_all. cbn [app concat]. rewrite pieces_concat by lia. rewrite <- Hcz. f_equal.
      unfold header_of, object_of, with_text. cbn [fst snd]. rewrite Ho, <- Hs, app_assoc. now rewrite Hraw. }
    rewrite Hs in *. destruct (text_object comp (is_type i) out first chunks [] n H3 H5 Hlen Hraw Hfirst Hc H4 Hn) as (f0 & Hev). rewrite app_nil_r in Hev.
    exists (f0 + S (length (content (is_stream i))))%nat. intros f Hf. specialize (Hev f ltac:(lia)).
    destruct (mem_store_ok K sha1 rd content HR pagesize Hpage Hsha f db i Hi ltac:(lia)) as (r' & Hst). cbv zeta in Hst. rewrite Hz in Hst.
    set (sha := sha1 (form (object_of content i))) in *.
    set (db1 := mk_mdb (dict_set sha (length (m_objs db)) (m_cache db)) _) in Hst.
    assert (Hg : dict_get sha (m_cache db1) = Some (length (m_objs db))).
    { unfold db1. cbn [m_cache]. rewrite dict_get_set. now rewrite beq_refl. }
    assert (Hnth : nth_error (m_objs db1) (length (m_objs db)) = Some (mk_ostream sha (is_type i) (len (out ++ text)) (reader_init K (text_stream (first :: chunks)) None))).
    { unfold db1. cbn [m_objs]. rewrite nth_error_app2 by lia. rewrite Nat.sub_diag. cbn [nth_error]. unfold object_of. cbn [fst snd]. now rewrite Ho. }
    apply lazy_read in Hev as (r1 & Hev).
    eexists. cbn [m_run m_do]. rewrite Hst. unfold pbind, ret in *. cbn [after settle_m is_binsha is_type is_size]. unfold ret. cbn [after].
    unfold mem_stream. rewrite Hg. unfold handle_rewind, handle_object. rewrite Hnth. cbn [bind ot_stream].
    change (seek (reader_init K (text_stream (first :: chunks)) None) 0 0) with (Ok (reader_init K (text_stream (first :: chunks)) None)). cbn [bind m_objs].
    rewrite nth_set_stream, Nat.eqb_refl, Hnth. cbn [bind].
    rewrite (use_handle_run f _ _ _ _ (mk_ostream sha (is_type i) (len (out ++ text)) (reader_init K (text_stream (first :: chunks)) None))).
    2: { rewrite nth_set_stream, Nat.eqb_refl, Hnth. easy. }
    cbn [ot_stream run_state]. rewrite Hev. cbn [bind ot_binsha ot_type ot_size settle_m after]. rewrite Hs. reflexivity.
  Qed.
End Memory.
