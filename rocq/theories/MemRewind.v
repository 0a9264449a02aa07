(** Asking a MemoryDB again and again for one small object. *)
From Coq Require Import ZifyBool ZifyNat.
From Verif Require Import Py PyFacts FunModel FunSpec FunProofs IndexSpec ZlibModel ReaderModel StreamSpec ReaderProofs RewindSpec RewindProofs PackSpec
  OsModel LooseModel LooseSpec LooseProofs LooseTop MemModel MemSpec MemProofs.
Ltac Zify.zify_post_hook ::= Z.div_mod_to_equations.

Section Again.
  Context {K : zlib} (L : zlib_laws K) (sha1 : bytes -> bytes) (Hsha : forall d, sha_ok (sha1 d)) (pagesize : Z) (Hpage : 0 < pagesize).
  Context {R : Type} (rd : R -> Z -> res (bytes * R)) (content : R -> bytes) (HR : stream_reader rd content).
  Context (o : object) (Hp : plain o).
  Notation t := (fst o).
  Notation c := (snd o).
  Notation z := (compressed_as (K := K) pagesize o).
  Context (Hs1 : len z + len c <= 8192) (Hs2 : len (header_of o) + 2 * len c <= 8192).
  Notation st := (state L t c z []).
  Notation sha := (sha1 (form o)).

  Lemma Hz : zl_stream L z (loose_object_header t (len c) ++ c).
  Proof. exact (compressed_stream L pagesize Hpage o Hp). Qed.

  Lemma use_again fuel db n r pos left ops : (2 * length (header_of o ++ c) + 8 <= fuel)%nat ->
    dict_get sha (m_cache db) = Some n -> nth_error (m_objs db) n = Some (mk_ostream sha t (len c) r) -> st r pos left ->
    ~ In 32 left -> ~ In 0 left -> clean_seeks c 0 left ops ->
    exists db' r' pos', m_do K sha1 pagesize rd fuel db (MUse sha ops) = ret (Ok (OStream sha t (len c) (cursor c 0 ops)), db') /\
      dict_get sha (m_cache db') = Some n /\ nth_error (m_objs db') n = Some (mk_ostream sha t (len c) r') /\
      st r' pos' (kept c 0 left ops).
  Proof.
    intros Hf Hg Hn Hst H1 H2 Hcl. destruct Hp as (Hb1 & Hb2 & Ht1 & Ht2).
    destruct (next_use L t c z [] Hz Ht1 Ht2 Hs1 Hs2 fuel r pos left ops Hf Hst H1 H2 Hcl) as (r' & pos' & Q1 & Q2).
    unfold m_do, mem_stream. rewrite Hg. unfold handle_rewind, handle_object. rewrite Hn. cbn [bind ot_stream].
    change (seek r 0 0) with (Ok (rewind r)). cbn [bind m_objs].
    rewrite nth_set_stream, Nat.eqb_refl, Hn. cbn [bind].
    rewrite (use_handle_run fuel n ops _ _ (mk_ostream sha t (len c) (rewind r))).
    2: { rewrite nth_set_stream, Nat.eqb_refl, Hn. easy. }
    cbn [ot_stream]. change (run_state (read fuel) (fun r0 : reader K => seek r0 0 0)) with (run_state (read fuel) (@rew0 K)).
    rewrite Q1. cbn [bind ot_binsha ot_type ot_size settle_m].
    eexists _, r', pos'. split; [reflexivity|]. cbn [m_cache m_objs]. split; [exact Hg|]. split; [|exact Q2].
    destruct ops as [|op ops].
    - rewrite nth_set_stream, Nat.eqb_refl, Hn. cbn in Q1. injection Q1 as <-. reflexivity.
    - rewrite set_set, nth_set_stream, Nat.eqb_refl, Hn. reflexivity.
  Qed.
  Lemma use_spoilt fuel db n r pos left k post : (2 * length (header_of o ++ c) + 8 <= fuel)%nat ->
    dict_get sha (m_cache db) = Some n -> nth_error (m_objs db) n = Some (mk_ostream sha t (len c) r) -> st r pos left ->
    spoils left -> m_do K sha1 pagesize rd fuel db (MUse sha (Read k :: post)) = ret (Raise ValueError, db).
  Proof.
    intros Hf Hg Hn Hst Hsp. destruct Hp as (Hb1 & Hb2 & Ht1 & Ht2).
    pose proof (spoilt_use L t c z [] Hz Ht2 Hs1 Hs2 fuel r pos left k post Hf Hst Hsp) as Q1.
    unfold m_do, mem_stream. rewrite Hg. unfold handle_rewind, handle_object. rewrite Hn. cbn [bind ot_stream].
    change (seek r 0 0) with (Ok (rewind r)). cbn [bind m_objs].
    rewrite nth_set_stream, Nat.eqb_refl, Hn. cbn [bind].
    rewrite (use_handle_run fuel n _ _ _ (mk_ostream sha t (len c) (rewind r))).
    2: { rewrite nth_set_stream, Nat.eqb_refl, Hn. easy. }
    cbn [ot_stream]. change (run_state (read fuel) (fun r0 : reader K => seek r0 0 0)) with (run_state (read fuel) (@rew0 K)).
    rewrite Q1. reflexivity.
  Qed.

  Notation seq uses := (concat (map (cons Rewind) uses)).
  Lemma uses_again fuel : (2 * length (header_of o ++ c) + 8 <= fuel)%nat -> forall uses db n r pos left,
    dict_get sha (m_cache db) = Some n -> nth_error (m_objs db) n = Some (mk_ostream sha t (len c) r) -> st r pos left ->
    clean_seeks c pos left (seq uses) ->
    exists db' r' pos',
      (forall more out db2, m_run K sha1 pagesize rd fuel db' more = ret (out, db2) ->
       m_run K sha1 pagesize rd fuel db (map (MUse sha) uses ++ more) =
         ret (map (fun ops => Ok (OStream sha t (len c) (cursor c 0 ops))) uses ++ out, db2)) /\
      dict_get sha (m_cache db') = Some n /\ nth_error (m_objs db') n = Some (mk_ostream sha t (len c) r') /\
      st r' pos' (kept c pos left (seq uses)).
  Proof.
    intros Hf. induction uses as [|ops uses IH]; intros db n r pos left Hg Hn Hst Hcl.
    - exists db, r, pos. cbn. auto.
    - cbn [map concat] in *. cbn [app clean_seeks] in Hcl. destruct Hcl as (H1 & H2 & Hcl).
      apply clean_app in Hcl as [Hcl (p & Hcl2)].
      destruct (use_again fuel db n r pos left ops Hf Hg Hn Hst H1 H2 Hcl) as (db1 & r1 & pos1 & Q1 & Q2 & Q3 & Q4).
      assert (clean_seeks c pos1 (kept c 0 left ops) (seq uses)) as Hcl3.
      { destruct uses as [|u uses]; [exact I|]. cbn [map concat app clean_seeks] in *. exact Hcl2. }
      destruct (IH db1 n r1 pos1 (kept c 0 left ops) Q2 Q3 Q4 Hcl3) as (db2 & r2 & pos2 & S1 & S2 & S3 & S4).
      exists db2, r2, pos2.
      split; [intros more out db3 Hm; cbn [app m_run]; rewrite Q1; unfold pbind, ret in *; cbn [after]; rewrite (S1 _ _ _ Hm); reflexivity|]. split; [easy|]. split; [easy|].
      cbn [app kept]. destruct (kept_app c ops (seq uses) 0 left) as (p' & ->).
      destruct uses as [|u uses]; [exact S4|]. cbn [map concat app kept] in *. exact S4.
  Qed.
End Again.

Section Store.
  Context {K : zlib} (L : zlib_laws K) (sha1 : bytes -> bytes) (Hsha : forall d, sha_ok (sha1 d)) (pagesize : Z) (Hpage : 0 < pagesize).
  Context {R : Type} (rd : R -> Z -> res (bytes * R)) (content : R -> bytes) (HR : stream_reader rd content).
  Context (i : istream R) (Hi : proper content i).
  Notation o := (object_of content i).
  Context (Hs1 : len (compressed_as (K := K) pagesize o) + len (snd o) <= 8192) (Hs2 : len (header_of o) + 2 * len (snd o) <= 8192).
  Notation seq uses := (concat (map (cons Rewind) uses)).
  Notation answer sha uses := (map (fun ops => Ok (OStream sha (fst o) (len (snd o)) (cursor (snd o) 0 ops))) uses).
  Lemma store_use fuel db uses : (2 * length (header_of o ++ snd o) + 8 <= fuel)%nat -> clean_seeks (snd o) 0 [] (seq uses) ->
    let sha := sha1 (form o) in
    (exists db', m_run K sha1 pagesize rd fuel db (MStore i :: map (MUse sha) uses) =
       ret (Ok (OStored sha (is_type i) (is_size i)) :: answer sha uses, db')) /\
    (spoils (kept (snd o) 0 [] (seq uses)) -> forall k post, exists db',
       m_run K sha1 pagesize rd fuel db (MStore i :: map (MUse sha) uses ++ [MUse sha (Read k :: post)]) =
         ret (Ok (OStored sha (is_type i) (is_size i)) :: answer sha uses ++ [Raise ValueError], db')).
  Proof.
    intros Hf Hcl sha. assert (Hp : plain o).
    { destruct Hi as (_ & Hsz & H1 & H2 & H3 & H4). unfold plain, object_of. cbn [fst snd]. auto. }
    destruct (mem_store_ok K sha1 rd content HR pagesize Hpage Hsha fuel db i Hi) as (r' & Hst).
    { rewrite app_length in Hf. unfold object_of in Hf. cbn [fst snd] in Hf. lia. }
    cbv zeta in Hst. fold sha in Hst.
    set (db1 := mk_mdb (dict_set sha (length (m_objs db)) (m_cache db)) _) in Hst.
    assert (Hg : dict_get sha (m_cache db1) = Some (length (m_objs db))).
    { unfold db1. cbn [m_cache]. rewrite dict_get_set. now rewrite beq_refl. }
    assert (Hn : nth_error (m_objs db1) (length (m_objs db)) = Some (mk_ostream sha (fst o) (len (snd o)) (reader_init K (compressed_as (K := K) pagesize o) None))).
    { unfold db1. cbn [m_objs]. rewrite nth_error_app2 by lia. now rewrite Nat.sub_diag. }
    pose proof (state_init L (fst o) (snd o) (compressed_as (K := K) pagesize o) [] (compressed_stream L pagesize Hpage o Hp)) as Hin.
    rewrite app_nil_r in Hin.
    destruct (uses_again L sha1 pagesize Hpage rd o Hp Hs1 Hs2 fuel Hf uses db1 _ _ 0%nat [] Hg Hn Hin Hcl) as (db2 & r2 & pos2 & Q1 & Q2 & Q3 & Q4).
    subst sha. cbn [m_run m_do]. rewrite Hst. unfold pbind, ret in *. cbn [after settle_m is_binsha is_type is_size]. unfold ret. cbn [after].
    split.
    - specialize (Q1 [] [] db2 eq_refl). rewrite !app_nil_r in Q1. exists db2. rewrite Q1. reflexivity.
    - intros Hsp k post. exists db2. rewrite (Q1 [MUse (sha1 (form o)) (Read k :: post)] [Raise ValueError] db2); [reflexivity|].
      cbn [m_run]. unfold pbind, ret.
      rewrite (use_spoilt L sha1 pagesize Hpage rd o Hp Hs1 Hs2 fuel db2 _ r2 pos2 _ k post Hf Q2 Q3 Q4 Hsp). reflexivity.
  Qed.
End Store.
