(** Properties C94 and C95: exceptions reach the caller. *)
From Verif Require Import Py PyFacts FunModel FunSpec FunProofs IndexModel IndexSpec ZlibModel ReaderModel PackModel PackSpec Prop_Index Prop_Pack
  PackDbModel PackDbSpec PackDbProofs PackDbTop Prop_PackDb ErrorSpec ErrorProofs MemModel CompoundModel CompoundErrors GitModel.

(** ** PackedDB *)
(** Before the packs are known every call fails if the directory cannot be listed, *)
Theorem C94_no_directory : forall (K : zlib) (s : pdb) (o : op), e_dir (op_env o) = None -> p_entities s = None ->
  raised (fst (do_op K o s)) = Some FileNotFound.
Proof. intros K s o H Hs. exact (missing K _ s o H Hs eq_refl). Qed.
Print Assumptions C94_no_directory.
(** and with the exception of a pack that is none, if there is one. *)
Theorem C94_first_use : forall (K : zlib) (e : env) (d : dir) (s : pdb), proper_env e d -> readable_dir d -> p_entities s = None ->
  (exists n x, packs_in d n /\ file_fails bad_pack d n x) ->
  exists n x, packs_in d n /\ file_fails bad_pack d n x /\
    forall o, op_env o = e -> match o with Query _ _ => True | Update _ force => force = true end -> raised (fst (do_op K o s)) = Some x.
Proof.
  intros K e d s He Hr Hs (n & x & Hn & Hx). destruct (loading K e d s He Hr Hs) as [(y & n' & H1 & H2 & H3)|[H _]]; [now exists n', y|]. now apply H in Hx.
Qed.
Print Assumptions C94_first_use.
(** Later an update fails exactly if a pack that is not known yet is none. *)
Theorem C94_update : forall (K : zlib) (ops : list op) (e : env) (d : dir) (l : list item),
  let s := snd (run_ops K ops packed_init) in
  Forall proper_call ops -> proper_env e d -> readable_dir d -> p_entities s = Some l ->
  match fst (update_cache e true s) with
  | Raise x => exists n, packs_in d n /\ ~ In n (map it_name l) /\ file_fails bad_pack d n x
  | r => r = Ok true /\ forall n y, packs_in d n -> ~ In n (map it_name l) -> ~ file_fails bad_pack d n y
  end.
Proof.
  intros K ops e d l s Ho He Hr Hs. destruct (updating e d s l He Hr (run_inv K ops packed_init Ho I) Hs) as [(x & n & H1 & H2 & H3 & ->)|[H ->]]; [now exists n|easy].
Qed.
Print Assumptions C94_update.
(** Going through all packs fails exactly if the index of one of them is none, *)
Theorem C94_all_packs : forall (K : zlib) (ops : list op) (e : env) (d : dir) (l : list item),
  let s := snd (run_ops K ops packed_init) in
  Forall proper_call ops -> proper_env e d -> readable_dir d -> p_entities s = Some l ->
  match fst (sha_iter e s), fst (size e s) with
  | Raise x, Raise y => exists it jt, In it l /\ index_fails d it x /\ In jt l /\ index_fails d jt y
  | Ok _, Ok _ => forall it y, In it l -> ~ index_fails d it y
  | _, _ => False
  end.
Proof.
  intros K ops e d l s Ho He Hr Hs. destruct (indices e d s l He Hr (run_inv K ops packed_init Ho I) Hs) as [(x & it & y & jt & H1 & H2 & H3 & H4 & -> & ->)|(H & (r & ->) & (n & ->))]; [now exists it, jt|exact H].
Qed.
Print Assumptions C94_all_packs.
(** and a lookup fails with nothing but that (the packs may be searched in any order, and the
    first one with the object ends the search). *)
Theorem C94_lookup : forall (K : zlib) (ops : list op) (e : env) (d : dir) (l : list item) (sha : bytes),
  let s := snd (run_ops K ops packed_init) in
  Forall proper_call ops -> proper_env e d -> readable_dir d -> p_entities s = Some l -> sha_ok sha ->
  match fst (PackDbModel.has_object e sha s) with
  | Ok _ => True
  | Raise x => exists it, In it l /\ index_fails d it x
  | Diverge => False
  end /\
  ((forall it y, In it l -> ~ index_fails d it y) -> exists b, fst (PackDbModel.has_object e sha s) = Ok b).
Proof.
  intros K ops e d l sha s Ho He Hr Hs Hsha. assert (H : forall x, _) by exact (fun x => lookups e d s l sha x He Hr (run_inv K ops packed_init Ho I) Hs Hsha).
  destruct (fst (PackDbModel.has_object e sha s)) as [b|x|].
  - split; [easy|]. now exists b.
  - destruct (H x) as (H1 & _). specialize (H1 eq_refl). split; [easy|]. intros Hno. destruct H1 as (it & H1 & H2). now apply Hno in H2.
  - destruct (H KeyError) as (_ & _ & H1). easy.
Qed.
Print Assumptions C94_lookup.

(** Examples: pack-a is none; packs are known whose indices are not there any more; and a file
    pack-d.pack that is too short appears. *)
Definition ex_d8 : dir := mk_dir 7 ((ex_name 100, Ok [80; 65; 67; 75]) :: files_of 99 pk_c).
Definition ex_e8 : env := mk_env (Some ex_d8) (fun l => l).
Lemma ex_read d : forallb (fun f => match snd f with Ok b => forallb (fun x => (0 <=? x) && (x <? 256)) b | _ => false end) (d_files d) = true -> readable_dir d.
Proof.
  intros H n c Hin. rewrite forallb_forall in H. apply H in Hin. cbn [snd] in Hin. destruct c as [b| |]; [|discriminate..].
  rewrite forallb_forall in Hin. apply Forall_forall. intros x Hx. apply Hin in Hx. unfold is_byte. lia.
Qed.
Example C94_example :
  (proper_env ex_e7 ex_d7 /\ readable_dir ex_d7 /\ packs_in ex_d7 (ex_name 97) /\ file_fails bad_pack ex_d7 (ex_name 97) ParseError /\
   fst (do_op stored (Query ex_e7 QSize) packed_init) = ASize (Raise ParseError)) /\
  (exists a b, let s := snd (run_ops stored [Query ex_e1 QEntities] packed_init) in
   Forall proper_call [Query ex_e1 QEntities] /\ proper_env ex_e5 ex_d5 /\ readable_dir ex_d5 /\ p_entities s = Some [a; b] /\
   index_fails ex_d5 b FileNotFound /\ fst (sha_iter ex_e5 s) = Raise FileNotFound /\ fst (PackDbModel.has_object ex_e5 ex_s2 s) = Raise FileNotFound /\
   proper_env ex_e8 ex_d8 /\ readable_dir ex_d8 /\ file_fails bad_pack ex_d8 (ex_name 100) StructError /\ fst (update_cache ex_e8 true s) = Raise StructError).
Proof.
  split.
  - split; [apply ex_proper_env; [vm_compute; reflexivity|easy]|]. split; [apply ex_read; vm_compute; reflexivity|]. split; [apply glob_in; vm_compute; now left|]. split; [|by_vm].
    right. right. right. exists (repeat 88 40). split; [easy|]. split; [now left|]. right. split; [vm_compute; discriminate|]. now split.
  - eexists _, _. cbv zeta. split; [constructor; [|constructor]; right; exists ex_d1; split; [exact ex_p1|apply ex_read; vm_compute; reflexivity]|].
    split; [apply ex_proper_env; [vm_compute; reflexivity|easy]|]. split; [apply ex_read; vm_compute; reflexivity|]. split; [vm_compute; reflexivity|].
    split.
    { intros idx Hi. apply idx_name_spec in Hi. left. split; [|easy]. rewrite <- Hi. intros (c & Hl). vm_compute in Hl. repeat destruct Hl as [Hl|Hl]; congruence. }
    split; [by_vm|]. split; [by_vm|]. split; [apply ex_proper_env; [vm_compute; reflexivity|easy]|]. split; [apply ex_read; vm_compute; reflexivity|]. split; [|by_vm].
         right. right. right. eexists. split; [|split; [now left|]]; [easy|]. left. now split.
Qed.

(** ** C95: failing once *)
(** Without its directory a PackedDB raises at first use and is empty from then on. *)
Theorem C95_no_directory_refuted : forall (K : zlib) (e : env) (sha : bytes), e_dir e = None ->
  fst (run_ops K [Query e (QHas sha); Query e (QHas sha); Query e QSize; Query e QIter] packed_init) =
  [AHas (Raise FileNotFound); AHas (Ok false); ASize (Ok 0); AIter (Ok [])].
Proof. intros K e sha H. cbn [run_ops do_op]. unfold has_object, pack_info, load, packed_init. cbn [p_entities]. rewrite H. reflexivity. Qed.
Print Assumptions C95_no_directory_refuted.
(** So it is with one pack that is none, if that happens to be the first one looked at: the
    other packs are not found afterwards, and an update sees no need to look for them. *)
Theorem C95_damaged_pack_refuted : forall (d : dir) (n : bytes) (x : exn),
  NoDup (map fst (d_files d)) -> readable_dir d -> packs_in d n -> file_fails bad_pack d n x ->
  exists e, proper_env e d /\ forall (K : zlib) (sha : bytes),
    fst (run_ops K [Query e (QHas sha); Query e (QHas sha); Query e QSize; Update e false; Query e QIter] packed_init) =
    [AHas (Raise x); AHas (Ok false); ASize (Ok 0); AUpdate (Ok false); AIter (Ok [])].
Proof. exact damaged_first. Qed.
Print Assumptions C95_damaged_pack_refuted.
Example C95_ex_damaged : NoDup (map fst (d_files ex_d7)) /\ readable_dir ex_d7 /\ packs_in ex_d7 (ex_name 97) /\ file_fails bad_pack ex_d7 (ex_name 97) ParseError /\
  packs_in ex_d7 (ex_name 99).
Proof.
  destruct C94_example as [((_ & H1 & _) & H2 & H3 & H4 & _) _]. repeat (split; [easy|]). apply glob_in. vm_compute. right. now left.
Qed.

(** ** What is not supported *)
(** A PackedDB cannot store, a MemoryDB has no output stream to be set; both say so. *)
Theorem C94_unsupported : forall (A W : Type) (i : A) (K : zlib) (db : mdb K) (w : W),
  PackDbModel.store i = Raise UnsupportedOperation /\ mem_set_ostream K db w = (Raise UnsupportedOperation, db).
Proof. easy. Qed.
Print Assumptions C94_unsupported.

(** ** LooseObjectDB *)
(** Without its directory it has no objects, and no other exception is raised. *)
Theorem C94_loose_no_directory : forall (K : zlib) (F : fs) (fuel : nat) (root : list Z) (sha : bytes), f_repo F root = None ->
  fst (db_has F fuel sha (Loose root [])) = Ok false /\ fst (db_info K F fuel sha (Loose root [])) = Raise BadObject /\
  fst (db_iter F fuel (Loose root [])) = Ok [] /\ fst (db_size F fuel (Loose root [])) = Ok 0.
Proof.
  intros K F fuel root sha H. destruct fuel; cbn [db_has db_info db_iter db_size]; unfold loose_has, loose_map, loose_names; rewrite H; cbn [mem]; repeat split.
Qed.
Print Assumptions C94_loose_no_directory.

(** ** CompoundDB *)
(** The exception of the first member that cannot tell whether it has the object is raised, if
    none of those before has it; BadObject is taken for an answer. *)
Theorem C94_members_asked : forall (M A : Type) (has : bytes -> M -> res bool * M) (f : bytes -> M -> res A * M) (sha : bytes) (c : compound M) (a : list M) (m : M) (b : list M) (x : exn),
  c_dbs c = a ++ m :: b -> ~ In sha (map fst (c_cache c)) -> Forall (fun m => fst (has sha m) = Ok false) a -> fst (has sha m) = Raise x ->
  (x <> BadObject -> fst (c_has has sha c) = Raise x) /\ fst (c_ask has f sha c) = Raise x.
Proof. intros M A has f. exact (query_raises has f). Qed.
Print Assumptions C94_members_asked.
(** sha_iter, size and update_cache raise what the first member raises that does. *)
Theorem C94_members_all : forall (M : Type) (iter : M -> res (list bytes) * M) (size : M -> res Z * M) (update : M -> res bool * M) (c : compound M) (a : list M) (m : M) (b : list M) (x : exn),
  c_dbs c = a ++ m :: b ->
  (Forall (fun m => exists v, fst (iter m) = Ok v) a -> fst (iter m) = Raise x -> fst (c_iter iter c) = Raise x) /\
  (Forall (fun m => exists v, fst (size m) = Ok v) a -> fst (size m) = Raise x -> fst (c_size size c) = Raise x) /\
  (Forall (fun m => exists v, fst (update m) = Ok v) a -> fst (update m) = Raise x -> fst (c_update update c) = Raise x).
Proof.
  intros M iter size update c a m b x Hc. repeat split; intros Ha Hm; [now apply (all_raises _ _ c a m b)..|]. unfold c_update. now apply (all_raises _ _ _ a m b).
Qed.
Print Assumptions C94_members_all.
(** A PackedDB without packs, and one whose pack is none. *)
Example C94_members_example :
  let c := mk_compound [(mk_env (Some (mk_dir 3 [])) (fun l => l), packed_init); (ex_e7, packed_init)] [] in
  fst (PackDbModel.has_object (mk_env (Some (mk_dir 3 [])) (fun l => l)) ex_s2 packed_init) = Ok false /\ fst (PackDbModel.has_object ex_e7 ex_s2 packed_init) = Raise ParseError /\
  fst (c_has (fun sha m => (fst (PackDbModel.has_object (fst m) sha (snd m)), (fst m, snd (PackDbModel.has_object (fst m) sha (snd m))))) ex_s2 c) = Raise ParseError.
Proof. split; [by_vm|]. split; by_vm. Qed.
