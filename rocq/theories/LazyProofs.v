(** Proofs about PackFile, PackIndexFile and PackEntity as lazily loaded objects. *)
From Coq Require Import ZifyBool ZifyNat.
From Verif Require Import Py PyFacts FunModel IndexModel ZlibModel ReaderModel DeltaReaderModel PackModel LazyModel LazySpec.
Ltac Zify.zify_post_hook ::= Z.div_mod_to_equations.

(** In states with [P] the method answers [r], and leaves a state with [P]. *)
Definition gives {S A} (P : S -> Prop) (b : bool) (m : method S A) (r : res A) : Prop :=
  forall s, P s -> told b (fst (m s)) r /\ P (snd (m s)).

Lemma gives_pure {S A} (P : S -> Prop) b (r : res A) : gives P b (pure r) r.
Proof. intros s H. split; [now left|easy]. Qed.
Lemma gives_then {S A B} (P : S -> Prop) b (m : method S A) (k : A -> method S B) ra rk :
  gives P b m ra -> (forall a, ra = Ok a -> gives P b (k a) (rk a)) -> gives P b (then_do m k) (bind ra rk).
Proof.
  intros Hm Hk s Hs. destruct (Hm s Hs) as [Ha Hp]. unfold then_do. destruct (m s) as [x s'] eqn:E. cbn [fst snd] in *.
  destruct Ha as [-> | [Hb ->]].
  - destruct ra as [a|e|]; cbn [bind fst snd].
    + now apply Hk.
    + split; [now left|easy].
    + split; [now left|easy].
  - cbn [fst snd]. split; [right; easy|easy].
Qed.
Lemma gives_same {S A} (P : S -> Prop) b (m : method S A) r r' : r = r' -> gives P b m r -> gives P b m r'.
Proof. now intros ->. Qed.
Lemma gives_set {S} (P : S -> Prop) b (f : S -> S) : (forall s, P s -> P (f s)) -> gives P b (set f) (Ok tt).
Proof. intros H s Hs. split; [now left|now apply H]. Qed.
(** Loading that succeeds sets the attribute. *)
Lemma gives_get {S A} (P : S -> Prop) b (field : S -> option A) load a :
  (forall s, P s -> field s = None \/ field s = Some a) ->
  gives P b load (Ok tt) -> (forall s, P s -> fst (load s) = Ok tt -> field (snd (load s)) = Some a) ->
  gives P b (get field load) (Ok a).
Proof.
  intros Hf Hl Hset s Hs. unfold get. destruct (Hf s Hs) as [E | E]; rewrite E.
  - destruct (Hl s Hs) as [Ha Hp]. specialize (Hset s Hs). unfold then_do. destruct (load s) as [x s'] eqn:El. cbn [fst snd] in *.
    destruct Ha as [-> | [Hb ->]].
    + rewrite Hset by easy. split; [now left|easy].
    + split; [right; easy|easy].
  - split; [now left|easy].
Qed.
(** Loading that fails, with the attribute never set. *)
Lemma gives_get_fail {S A} (P : S -> Prop) b (field : S -> option A) load e :
  (forall s, P s -> field s = None) -> gives P b load (Raise e) -> gives P b (get field load) (Raise e).
Proof.
  intros Hf Hl s Hs. unfold get. rewrite (Hf s Hs). unfold then_do. destruct (Hl s Hs) as [Ha Hp].
  destruct (load s) as [x s'] eqn:El. cbn [fst snd] in *. destruct Ha as [-> | [Hb ->]].
  - split; [now left|easy].
  - split; [right; easy|easy].
Qed.

(** ** PackFile *)
Section PackFile.
  Variables (sig d : bytes) (version count : Z).
  Hypothesis Hd : headed sig version count d.
  Let D : res bytes := Ok d.
  Lemma head_read : unpack_be 4 d 0 = Ok (be_dec sig) /\ unpack_be 4 d 4 = Ok version /\ unpack_be 4 d 8 = Ok count.
  Proof.
    destruct Hd as (Hl & Hb & Hv & Hc & rest & ->). split; [|split].
    - unfold unpack_be. pose proof (len_nonneg _ rest). rewrite !len_app, !be_enc_len, Hl.
      replace (_ && _) with true by lia. do 2 f_equal. change (sig ++ be_enc 4 version ++ be_enc 4 count ++ rest) with ([] ++ sig ++ (be_enc 4 version ++ be_enc 4 count ++ rest)).
      rewrite slice_mid; [easy|easy|now rewrite Hl].
    - apply unpack_be_app; [easy|]. now rewrite Hl.
    - rewrite app_assoc. apply unpack_be_app; [easy|]. now rewrite len_app, be_enc_len, Hl.
  Qed.
  Lemma sig_is : (be_dec sig =? 1346454347) = true <-> sig = str_PACK.
  Proof.
    destruct Hd as (Hl & Hb & _). destruct sig as [|a [|b [|c [|e [|]]]]]; cbn in Hl; try lia.
    unfold is_bytes in Hb. rewrite !Forall_cons_iff in Hb. destruct Hb as (H1 & H2 & H3 & H4 & _). cbv [is_byte] in *.
    cbv [be_dec be_dec_acc str_PACK]. split.
    - intros H. assert (a = 80 /\ b = 65 /\ c = 67 /\ e = 75) as (-> & -> & -> & ->) by lia. easy.
    - intros H. injection H as -> -> -> ->. lia.
  Qed.

  (** What may be set, and what has been loaded. *)
  Definition pf_inv (b : bool) (s : pfile) : Prop :=
    (pf_cursor s = None \/ pf_cursor s = Some (Some d) \/ (b = true /\ pf_cursor s = Some None)) /\
    (pf_version s = None \/ pf_version s = Some version) /\ (pf_size s = None \/ pf_size s = Some count).
  (** The signature is right, or everything has been loaded all the same. *)
  Definition pf_ready (b : bool) (s : pfile) : Prop :=
    pf_inv b s /\ (sig = str_PACK \/ (pf_cursor s <> None /\ pf_version s <> None /\ pf_size s <> None)).

  Lemma open_headed : pack_open d = if be_dec sig =? 1346454347 then Ok (version, count) else Raise ParseError.
  Proof. destruct head_read as (E1 & E2 & E3). unfold pack_open. rewrite E1, E2, E3. reflexivity. Qed.
  Lemma pf_load s : pf_set_cache D s = ((if be_dec sig =? 1346454347 then Ok tt else Raise ParseError), mk_pfile (Some (Some d)) (Some version) (Some count)).
  Proof.
    destruct head_read as (E1 & E2 & E3). unfold pf_set_cache, then_do, pure, set, D. rewrite E1, E2, E3. cbn [bind]. now destruct (_ =? _).
  Qed.
  Lemma loaded_ready b : pf_ready b (mk_pfile (Some (Some d)) (Some version) (Some count)).
  Proof. split; [split; [now right; left|split; now right]|right; easy]. Qed.
  Lemma pf_num b (field : pfile -> option Z) a : (forall s, pf_ready b s -> field s = None \/ field s = Some a) ->
    (forall s, pf_ready b s -> sig <> str_PACK -> field s <> None) -> field (mk_pfile (Some (Some d)) (Some version) (Some count)) = Some a ->
    gives (pf_ready b) b (get field (pf_set_cache D)) (Ok a).
  Proof.
    intros Hf Hn Hl s Hs. unfold get. destruct (Hf s Hs) as [E | E]; rewrite E.
    - assert (sig = str_PACK) as Hsig. { destruct (list_eq_dec Z.eq_dec sig str_PACK) as [|Hne]; [easy|]. now destruct (Hn s Hs Hne). }
      apply sig_is in Hsig. unfold then_do. rewrite pf_load, Hsig. cbn [fst snd]. rewrite Hl. split; [now left|apply loaded_ready].
    - split; [now left|easy].
  Qed.
  Lemma size_gives b : gives (pf_ready b) b (pf_get_size D) (Ok count).
  Proof. apply pf_num; [intros s Hs; apply Hs|intros s [_ [H|H]] Hne; easy|easy]. Qed.
  Lemma version_gives b : gives (pf_ready b) b (pf_get_version D) (Ok version).
  Proof. apply pf_num; [intros s Hs; apply Hs|intros s [_ [H|H]] Hne; easy|easy]. Qed.
  Lemma on_gives b A (f : bytes -> res A) : gives (pf_ready b) b (pf_on D f) (f d).
  Proof.
    intros s Hs. unfold pf_on, get, then_do. destruct Hs as [[Hc Hi] Hr]. destruct Hc as [E | [E | [Hb E]]]; rewrite E.
    - assert (sig = str_PACK) as Hsig by (now destruct Hr as [H | [H _]]). apply sig_is in Hsig. rewrite pf_load, Hsig. cbn [fst snd pf_cursor used bind pure].
      split; [now left|apply loaded_ready].
    - cbn. split; [now left|]. split; [split; [now right; left|easy]|easy].
    - cbn. split; [now right|]. split; [split; [now right; right|easy]|easy].
  Qed.
  Lemma close_ready b s : pf_ready b s -> pf_ready true (snd (pf_close s)).
  Proof.
    intros [[Hc [Hv Hn]] Hr]. cbn. split; [split; [now right; right|easy]|]. destruct Hr as [H | (H1 & H2 & H3)]; [now left|right; easy].
  Qed.
  Lemma call_ready b s s' : pf_ready b s -> pf_call D s s' -> pf_ready b s'.
  Proof. intros Hs H. destruct H; [now apply (size_gives b)|now apply (version_gives b)|now apply (on_gives b)]. Qed.

  (** A pack answers at any time as at first. *)
  Lemma pack_always b s : sig = str_PACK -> pf_reach D b s -> pf_right d version count b s.
  Proof.
    intros Hsig Hr. assert (pf_ready b s) as H.
    { induction Hr as [|b s s' Hr IH Hc|b s Hr IH]; [|now apply (call_ready b s)|now apply (close_ready b)].
      split; [split; [now left|split; now left]|now left]. }
    split; [now apply size_gives|]. split; [now apply version_gives|]. intros A f. now apply on_gives.
  Qed.
  (** Another file is rejected by the first call, and by the first only. *)
  Lemma other_once : sig <> str_PACK ->
    fst (pf_get_size D pf_new) = Raise ParseError /\ fst (pf_get_version D pf_new) = Raise ParseError /\
    (forall A (f : bytes -> res A), fst (pf_on D f pf_new) = Raise ParseError) /\
    forall s s', pf_reach D false s -> pf_call D s s' ->
      fst (pf_get_size D s') = Ok count /\ fst (pf_get_version D s') = Ok version /\
      forall A (f : bytes -> res A), fst (pf_on D f s') = f d.
  Proof.
    intros Hsig. assert ((be_dec sig =? 1346454347) = false) as Hn.
    { destruct (_ =? _) eqn:E; [|easy]. now apply sig_is in E. }
    assert (forall A (field : pfile -> option A), field pf_new = None -> get field (pf_set_cache D) pf_new = (Raise ParseError, mk_pfile (Some (Some d)) (Some version) (Some count))) as Hget.
    { intros A field E. unfold get, then_do. rewrite E, pf_load, Hn. easy. }
    split; [unfold pf_get_size; now rewrite Hget|]. split; [unfold pf_get_version; now rewrite Hget|].
    split; [intros A f; unfold pf_on, then_do; now rewrite Hget|].
    assert (forall b s, b = false -> pf_reach D b s -> s = pf_new \/ pf_ready false s) as Hre.
    { intros b s Hb Hr. induction Hr as [|b s s' Hr IH Hc|b s Hr IH]; [now left| |easy]. right.
      destruct (IH Hb) as [-> | H]; [|now apply (call_ready false s)].
      destruct Hc; unfold pf_get_size, pf_get_version, pf_on, then_do; rewrite Hget by easy; apply loaded_ready. }
    intros s s' Hr Hc. assert (pf_ready false s') as H.
    { destruct (Hre false s' eq_refl (pr_call _ _ _ _ Hr Hc)) as [E | H]; [|easy].
      exfalso. subst s'. destruct (Hre false s eq_refl Hr) as [-> | H].
      - remember pf_new as x eqn:Ex in Hc at 2. destruct Hc; unfold pf_get_size, pf_get_version, pf_on, then_do in Ex; rewrite Hget in Ex by easy; discriminate.
      - apply (call_ready false) in Hc; [|easy]. destruct Hc as [_ [E | [E _]]]; easy. }
    split; [now destruct (size_gives false s' H) as [[?|[? _]] _]|]. split; [now destruct (version_gives false s' H) as [[?|[? _]] _]|].
    intros A f. now destruct (on_gives false A f s' H) as [[?|[? _]] _].
  Qed.
End PackFile.

(** A file too short for the header, and one that cannot be mapped. *)
Lemma short_pack d b s : len d < 12 -> pf_reach (Ok d) b s -> fst (pf_get_size (Ok d) s) = Raise StructError /\ fst (pf_get_version (Ok d) s) = Raise StructError.
Proof.
  intros Hl Hr.
  assert (exists c, forall s, pf_set_cache (Ok d) s = (Raise StructError, mk_pfile c (pf_version s) (pf_size s))) as [c Hc].
  { exists (Some (Some d)). intros t. unfold pf_set_cache, then_do, pure, set. assert (unpack_be 4 d 8 = Raise StructError) as E8.
    { unfold unpack_be. now replace (_ && _) with false by lia. }
    rewrite E8. unfold unpack_be. destruct (_ && _); [|easy]. cbn [bind]. destruct (_ && _); easy. }
  assert (pf_size s = None /\ pf_version s = None) as [E1 E2].
  { induction Hr as [|b s s' Hr IH Hk|b s Hr IH]; [easy| |easy].
    destruct IH as [E1 E2]. destruct Hk; unfold pf_get_size, pf_get_version, pf_on, get, then_do; [rewrite E1, Hc; easy|rewrite E2, Hc; easy|].
    destruct (pf_cursor s); [easy|]. rewrite Hc. easy. }
  unfold pf_get_size, pf_get_version, get, then_do. rewrite E1, E2, Hc. easy.
Qed.

(** ** PackIndexFile *)
Lemma index_open_inv d ix : index_open d = Ok ix ->
  exists n, let v := if beq (slice_to d 4) index_v2_signature then 2 else 1 in
    (if v =? 2 then let! version_id := unpack_be 4 d 4 in py_assert (version_id =? v) (Ok tt) else Ok tt) = Ok tt /\
    read_fanout 256 d (if v =? 2 then 8 else 0) = Ok (ix_fanout ix) /\ index (ix_fanout ix) 255 = Ok n /\
    ix = mk_pidx d v (ix_fanout ix) (sha_list_offset + n * 20) (sha_list_offset + n * 20 + n * 4) (sha_list_offset + n * 20 + n * 4 + n * 4).
Proof.
  unfold index_open. cbv zeta. destruct (if _ =? 2 then _ else _) as [[]| |] eqn:Ev; cbn [bind]; [|intros H; discriminate H|intros H; discriminate H].
  destruct (read_fanout _ _ _) as [f| |] eqn:Ef; cbn [bind]; [|intros H; discriminate H|intros H; discriminate H].
  destruct (index f 255) as [n| |] eqn:En; cbn [bind]; [|intros H; discriminate H|intros H; discriminate H]. intros H. injection H as <-. exists n. cbn [ix_fanout]. repeat (split; [assumption || reflexivity|]). reflexivity.
Qed.

Section IndexFile.
  Variables (d : bytes) (ix : pidx).
  Hypothesis Ho : index_open d = Ok ix.
  Let D : res bytes := Ok d.
  Definition places : Z * Z * Z := (ix_crc_offset ix, ix_pack_offset ix, ix_pack64_offset ix).
  Definition xf_inv (b : bool) (s : ifile) : Prop :=
    (xf_cursor s = None \/ xf_cursor s = Some (Some d) \/ (b = true /\ xf_cursor s = Some None)) /\
    (xf_version s = None \/ xf_version s = Some (ix_version ix)) /\ (xf_bound s = None \/ xf_bound s = Some (ix_version ix)) /\
    (xf_fanout s = None \/ xf_fanout s = Some (ix_fanout ix)) /\ (xf_places s = None \/ xf_places s = Some places).
  Definition loaded (s : ifile) : ifile :=
    mk_ifile (Some (Some d)) (Some (ix_version ix)) (Some (ix_version ix)) (Some (ix_fanout ix)) (if ix_version ix =? 2 then Some places else xf_places s).

  Lemma map_gives b : gives (xf_inv b) b (xf_map D) (Ok d).
  Proof.
    intros s (Hc & Hi). unfold xf_map, get, then_do, xf_open, then_do, pure, set, D. destruct Hc as [E | [E | [Hb E]]]; rewrite E; cbn.
    - split; [now left|]. split; [now right; left|easy].
    - split; [now left|]. split; [now right; left|easy].
    - split; [now right|]. split; [now right; right|easy].
  Qed.
  Lemma xf_load b s : xf_inv b s -> xf_set_cache D s = (Ok tt, loaded s) \/ (b = true /\ xf_set_cache D s = (Raise AttributeError, s)).
  Proof.
    intros (Hc & Hi). destruct (index_open_inv _ _ Ho) as (n & Hv & Hf & Hn & Hix). cbv zeta in *.
    assert (forall t, xf_map D s = (Ok d, t) -> t = mk_ifile (Some (Some d)) (xf_version s) (xf_bound s) (xf_fanout s) (xf_places s) -> xf_set_cache D s = (Ok tt, loaded s)) as Hgo.
    { intros t Hm ->. unfold xf_set_cache, then_do. rewrite Hm. cbv zeta. cbn [set pure xf_cursor xf_version xf_bound xf_fanout xf_places].
      rewrite Hv, Hf. unfold loaded, places. cbn [set pure].
      assert (ix_version ix = if beq (slice_to d 4) index_v2_signature then 2 else 1) as -> by (rewrite Hix; reflexivity).
      assert (ix_crc_offset ix = sha_list_offset + n * 20) as -> by (rewrite Hix; reflexivity).
      assert (ix_pack_offset ix = sha_list_offset + n * 20 + n * 4) as -> by (rewrite Hix; reflexivity).
      assert (ix_pack64_offset ix = sha_list_offset + n * 20 + n * 4 + n * 4) as -> by (rewrite Hix; reflexivity).
      destruct (beq _ _); cbn [Z.eqb Pos.eqb]; [rewrite Hn|]; reflexivity. }
    destruct Hc as [E | [E | [Hb E]]].
    - left. apply (Hgo (mk_ifile (Some (Some d)) (xf_version s) (xf_bound s) (xf_fanout s) (xf_places s))); [|easy].
      unfold xf_map, get, then_do, xf_open, then_do, pure, set, D. rewrite E. easy.
    - left. apply (Hgo s); [|clear - E; destruct s; cbn in *; now rewrite E]. unfold xf_map, get, then_do, pure. rewrite E. easy.
    - right. split; [easy|]. unfold xf_set_cache, then_do, xf_map, get, then_do, pure. rewrite E. easy.
  Qed.
  Lemma loaded_inv b s : xf_inv b s -> xf_inv b (loaded s).
  Proof.
    intros (_ & _ & _ & _ & H). unfold loaded, xf_inv. cbn. split; [now right; left|]. split; [now right|]. split; [now right|]. split; [now right|].
    destruct (_ =? 2); [now right|easy].
  Qed.
  Lemma xf_get_gives b A (field : ifile -> option A) a : (forall s, xf_inv b s -> field s = None \/ field s = Some a) ->
    (forall s, xf_inv b s -> field (loaded s) = Some a) -> gives (xf_inv b) b (get field (xf_set_cache D)) (Ok a).
  Proof.
    intros Hf Hl. apply gives_get; [easy| |].
    - intros s Hs. destruct (xf_load b s Hs) as [E | [Hb E]]; rewrite E; cbn [fst snd].
      + split; [now left|now apply loaded_inv].
      + split; [now right|easy].
    - intros s Hs H. destruct (xf_load b s Hs) as [E | [Hb E]]; rewrite E in *; cbn [fst snd] in *; [now apply Hl|easy].
  Qed.
  Lemma g_version b : gives (xf_inv b) b (get xf_version (xf_set_cache D)) (Ok (ix_version ix)).
  Proof. apply xf_get_gives; [intros s H; apply H|easy]. Qed.
  Lemma g_bound b : gives (xf_inv b) b (get xf_bound (xf_set_cache D)) (Ok (ix_version ix)).
  Proof. apply xf_get_gives; [intros s H; apply H|easy]. Qed.
  Lemma g_fanout b : gives (xf_inv b) b (get xf_fanout (xf_set_cache D)) (Ok (ix_fanout ix)).
  Proof. apply xf_get_gives; [intros s H; apply H|easy]. Qed.
  Lemma g_places b : ix_version ix = 2 -> gives (xf_inv b) b (get xf_places (xf_set_cache D)) (Ok places).
  Proof. intros Hv. apply xf_get_gives; [intros s H; apply H|]. intros s _. unfold loaded. rewrite Hv. easy. Qed.
  Lemma ix_is : ix = mk_pidx d (ix_version ix) (ix_fanout ix) (ix_crc_offset ix) (ix_pack_offset ix) (ix_pack64_offset ix) /\ (ix_version ix = 1 \/ ix_version ix = 2) /\
    (exists n, index (ix_fanout ix) 255 = Ok n /\ ix_crc_offset ix = sha_list_offset + n * 20 /\ ix_pack_offset ix = sha_list_offset + n * 24 /\ ix_pack64_offset ix = sha_list_offset + n * 28).
  Proof.
    destruct (index_open_inv _ _ Ho) as (n & Hv & Hf & Hn & Hix). cbv zeta in *. split; [rewrite Hix; easy|]. split; [rewrite Hix; cbn; destruct (beq _ _); lia|].
    exists n. split; [easy|]. rewrite Hix. cbn [ix_crc_offset ix_pack_offset ix_pack64_offset]. lia.
  Qed.

  Lemma version_told b : gives (xf_inv b) b (xf_get_version D) (Ok (ix_version ix)).
  Proof. apply g_version. Qed.
  Lemma size_told b : gives (xf_inv b) b (xf_get_size D) (ix_size ix).
  Proof. unfold xf_get_size, ix_size. apply (gives_then _ _ _ _ (Ok (ix_fanout ix)) (fun f => index f 255)); [apply g_fanout|]. intros a _. apply gives_pure. Qed.
  Lemma sha_told b i : gives (xf_inv b) b (xf_sha D i) (Ok (ix_sha ix i)).
  Proof.
    destruct ix_is as (Hix & _). apply (gives_then _ _ _ _ (Ok (ix_version ix)) (fun v => Ok (ix_sha ix i))); [apply g_bound|]. intros v Hv. injection Hv as <-.
    apply (gives_then _ _ _ _ (Ok d) (fun v => Ok (ix_sha ix i))); [apply map_gives|]. intros m Hm. injection Hm as <-.
    eapply gives_same; [|apply gives_pure]. rewrite Hix at 2. reflexivity.
  Qed.
  Lemma offset_told b i : gives (xf_inv b) b (xf_offset D i) (ix_offset ix i).
  Proof.
    destruct ix_is as (Hix & Hv12 & _). apply (gives_then _ _ _ _ (Ok (ix_version ix)) (fun v => ix_offset ix i)); [apply g_bound|]. intros v Hv. injection Hv as <-.
    apply (gives_then _ _ _ _ (Ok d) (fun v => ix_offset ix i)); [apply map_gives|]. intros m Hm. injection Hm as <-.
    destruct (ix_version ix =? 2) eqn:Ev.
    - apply (gives_then _ _ _ _ (Ok places) (fun v => ix_offset ix i)); [apply g_places; lia|]. intros p Hp. injection Hp as <-. cbn [places].
      eapply gives_same; [|apply gives_pure]. rewrite Hix at 5. reflexivity.
    - eapply gives_same; [|apply gives_pure]. rewrite Hix at 2. unfold ix_offset. cbn [ix_version ix_map]. rewrite Ev. reflexivity.
  Qed.
  Lemma crc_told b i : gives (xf_inv b) b (xf_crc D i) (ix_crc ix i).
  Proof.
    destruct ix_is as (Hix & Hv12 & _). apply (gives_then _ _ _ _ (Ok (ix_version ix)) (fun v => ix_crc ix i)); [apply g_bound|]. intros v Hv. injection Hv as <-.
    destruct (ix_version ix =? 2) eqn:Ev.
    - apply (gives_then _ _ _ _ (Ok d) (fun v => ix_crc ix i)); [apply map_gives|]. intros m Hm. injection Hm as <-.
      apply (gives_then _ _ _ _ (Ok places) (fun v => ix_crc ix i)); [apply g_places; lia|]. intros p Hp. injection Hp as <-. cbn [places].
      eapply gives_same; [|apply gives_pure]. rewrite Hix at 5. reflexivity.
    - eapply gives_same; [|apply gives_pure]. unfold ix_crc. rewrite Ev. reflexivity.
  Qed.
  Lemma entry_told b i : gives (xf_inv b) b (xf_entry D i) (ix_entry ix i).
  Proof.
    destruct ix_is as (Hix & Hv12 & _). apply (gives_then _ _ _ _ (Ok (ix_version ix)) (fun v => ix_entry ix i)); [apply g_bound|]. intros v Hv. injection Hv as <-.
    destruct (ix_version ix =? 2) eqn:Ev.
    - unfold ix_entry. rewrite Ev. apply gives_then; [apply offset_told|]. intros o Eo.
      apply (gives_then _ _ _ _ (Ok (ix_sha ix i)) (fun s => let! c := ix_crc ix i in Ok (o, s, c))); [apply sha_told|]. intros t Et.
      apply gives_then; [apply crc_told|]. intros c Ec. apply gives_pure.
    - apply (gives_then _ _ _ _ (Ok d) (fun v => ix_entry ix i)); [apply map_gives|]. intros m Hm. injection Hm as <-.
      eapply gives_same; [|apply gives_pure]. unfold ix_entry. rewrite Ev. cbn [ix_version ix_map]. rewrite Ev.
      assert (ix_map ix = d) as -> by (rewrite Hix; reflexivity). reflexivity.
  Qed.
  Lemma pack_sum_told b : gives (xf_inv b) b (xf_packfile_checksum D) (Ok (packfile_checksum ix)).
  Proof.
    destruct ix_is as (Hix & _). apply (gives_then _ _ _ _ (Ok d) (fun v => Ok (packfile_checksum ix))); [apply map_gives|]. intros m Hm. injection Hm as <-.
    eapply gives_same; [|apply gives_pure]. rewrite Hix. reflexivity.
  Qed.
  Lemma index_sum_told b : gives (xf_inv b) b (xf_indexfile_checksum D) (Ok (indexfile_checksum ix)).
  Proof.
    destruct ix_is as (Hix & _). apply (gives_then _ _ _ _ (Ok d) (fun v => Ok (indexfile_checksum ix))); [apply map_gives|]. intros m Hm. injection Hm as <-.
    eapply gives_same; [|apply gives_pure]. rewrite Hix. reflexivity.
  Qed.
  Lemma collect_told b n : forall i, gives (xf_inv b) b (xf_collect D n i) (collect_upto n i (ix_offset ix)).
  Proof.
    induction n as [|n IH]; intros i; cbn [xf_collect collect_upto]; [apply gives_pure|].
    apply gives_then; [apply offset_told|]. intros x _. apply gives_then; [apply IH|]. intros l _. apply gives_pure.
  Qed.
  Lemma offsets_told b : gives (xf_inv b) b (xf_offsets D) (ix_offsets ix).
  Proof.
    destruct ix_is as (Hix & Hv12 & _). apply (gives_then _ _ _ _ (Ok (ix_version ix)) (fun v => ix_offsets ix)); [apply g_version|]. intros v Hv. injection Hv as <-.
    destruct (ix_version ix =? 2) eqn:Ev.
    - apply (gives_then _ _ _ _ (Ok d) (fun v => ix_offsets ix)); [apply map_gives|]. intros m Hm. injection Hm as <-.
      apply (gives_then _ _ _ _ (Ok places) (fun v => ix_offsets ix)); [apply g_places; lia|]. intros p Hp. injection Hp as <-. cbn [places].
      eapply gives_same; [|apply gives_pure]. unfold ix_offsets. cbn [ix_version ix_map ix_pack_offset ix_pack64_offset]. rewrite Ev.
      assert (ix_map ix = d) as -> by (rewrite Hix; reflexivity). reflexivity.
    - unfold ix_offsets. rewrite Ev. apply gives_then; [apply size_told|]. intros n _. apply collect_told.
  Qed.
  (** With the cursor open; with it closed there is nothing to look at. *)
  Lemma cursor_then b A (k : option bytes -> res A) r : k (Some d) = r -> (b = true -> k None = r \/ k None = Raise AttributeError) ->
    gives (xf_inv b) b (let? c := get xf_cursor (xf_open D) in pure (k c)) r.
  Proof.
    intros Hk Hn s (Hc & Hi). unfold get, then_do, xf_open, then_do, pure, set, D. destruct Hc as [E | [E | [Hb E]]]; rewrite E; cbn [fst snd xf_cursor].
    - split; [left; exact Hk|]. split; [now right; left|easy].
    - split; [left; exact Hk|]. split; [now right; left|easy].
    - split; [destruct (Hn Hb); [now left|now right]|]. split; [now right; right|easy].
  Qed.
  Lemma bisect_empty fuel get_sha sha lo hi : (0 < fuel)%nat -> (lo <? hi) = false -> bisect fuel get_sha sha lo hi = Ok None.
  Proof. intros Hf H. destruct fuel; [lia|]. cbn [bisect]. now rewrite H. Qed.
  Lemma bisect_low_empty fuel get_sha sha lo hi : (0 < fuel)%nat -> (lo <? hi) = false -> bisect_low fuel get_sha sha lo hi = Ok lo.
  Proof. intros Hf H. destruct fuel; [lia|]. cbn [bisect_low]. now rewrite H. Qed.
  Lemma lookup_told b sha : gives (xf_inv b) b (xf_sha_to_index D sha) (sha_to_index ix sha).
  Proof.
    destruct ix_is as (Hix & _). unfold xf_sha_to_index.
    assert (sha_to_index ix sha = let! first_byte := index sha 0 in sha_to_index ix sha) as ->.
    { unfold sha_to_index. destruct (index sha 0); reflexivity. }
    apply gives_then; [apply gives_pure|]. intros x Hx.
    apply (gives_then _ _ _ _ (Ok (ix_version ix)) (fun v => sha_to_index ix sha)); [apply g_bound|]. intros v Hv. injection Hv as <-.
    apply (gives_then _ _ _ _ (Ok (ix_fanout ix)) (fun v => sha_to_index ix sha)); [apply g_fanout|]. intros f Hf. injection Hf as <-.
    apply cursor_then.
    - rewrite Hix at 3. reflexivity.
    - intros _. unfold sha_to_index. rewrite Hx. cbn [bind]. destruct (bisect_bounds (ix_fanout ix) x) as [[lo hi]| |]; cbn [bind]; [|now left|now left].
      destruct (lo <? hi) eqn:E; [now right|left]. symmetry. apply bisect_empty; [unfold bisect_fuel; lia|easy].
  Qed.
  Lemma partial_told b p c : gives (xf_inv b) b (xf_partial_sha_to_index D p c) (partial_sha_to_index ix p c).
  Proof.
    destruct ix_is as (Hix & _). unfold xf_partial_sha_to_index. destruct (len p <? 2) eqn:El.
    { unfold partial_sha_to_index. rewrite El. apply gives_pure. }
    assert (partial_sha_to_index ix p c = let! first_byte := index p 0 in partial_sha_to_index ix p c) as ->.
    { unfold partial_sha_to_index. rewrite El. destruct (index p 0); reflexivity. }
    apply gives_then; [apply gives_pure|]. intros x Hx.
    apply (gives_then _ _ _ _ (Ok (ix_version ix)) (fun v => partial_sha_to_index ix p c)); [apply g_bound|]. intros v Hv. injection Hv as <-.
    apply (gives_then _ _ _ _ (Ok (ix_fanout ix)) (fun v => partial_sha_to_index ix p c)); [apply g_fanout|]. intros f Hf. injection Hf as <-.
    apply cursor_then.
    - rewrite Hix at 3. reflexivity.
    - intros _. unfold partial_sha_to_index. rewrite El, Hx. cbn [bind]. destruct (bisect_bounds (ix_fanout ix) x) as [[lo hi]| |]; cbn [bind]; [|now left|now left].
      unfold ix_size. destruct (lo <? hi) eqn:E.
      + destruct (index (ix_fanout ix) 255) as [n| |] eqn:En; cbn [bind orb]; [now right| |]; destruct (ix_is) as (_ & _ & n & En' & _); congruence.
      + rewrite bisect_low_empty by (easy || (unfold bisect_fuel; lia)). cbn [bind orb]. destruct (index (ix_fanout ix) 255) as [n| |]; cbn [bind]; [|now left|now left].
        destruct (lo <? n); [now right|now left].
  Qed.
  Lemma x_call_inv b s s' : xf_inv b s -> xf_call D s s' -> xf_inv b s'.
  Proof.
    intros Hs H. destruct H.
    - now apply (version_told b). - now apply (size_told b). - now apply (sha_told b). - now apply (offset_told b).
    - now apply (crc_told b). - now apply (entry_told b). - now apply (pack_sum_told b). - now apply (index_sum_told b).
    - now apply (offsets_told b). - now apply (lookup_told b). - now apply (partial_told b).
  Qed.
  Lemma x_close_inv b s : xf_inv b s -> xf_inv true (snd (xf_close s)).
  Proof. intros (_ & H). split; [now right; right|easy]. Qed.
  Lemma x_reach_inv b s : xf_reach D b s -> xf_inv b s.
  Proof.
    intros H. induction H as [|b s s' Hr IH Hc|b s Hr IH]; [|now apply (x_call_inv b s)|now apply (x_close_inv b)].
    split; [now left|]. split; [now left|]. split; [now left|]. split; now left.
  Qed.
  Lemma index_always b s : xf_reach D b s -> xf_right d ix b s.
  Proof.
    intros H. apply x_reach_inv in H. split; [now apply version_told|]. split; [now apply size_told|].
    split; [intros i; split; [now apply sha_told|]; split; [now apply offset_told|]; split; [now apply crc_told|now apply entry_told]|].
    split; [now apply pack_sum_told|]. split; [now apply index_sum_told|]. split; [now apply offsets_told|].
    split; [intros sha; now apply lookup_told|intros p n; now apply partial_told].
  Qed.
End IndexFile.

(** ** An index file that cannot be used *)
Definition stays {S A} (P : S -> Prop) (m : method S A) : Prop := forall s, P s -> P (snd (m s)).
Lemma stays_pure {S A} (P : S -> Prop) (r : res A) : stays P (pure r).
Proof. easy. Qed.
Lemma stays_then {S A B} (P : S -> Prop) (m : method S A) (k : A -> method S B) : stays P m -> (forall a, stays P (k a)) -> stays P (then_do m k).
Proof.
  intros Hm Hk s Hs. specialize (Hm s Hs). unfold then_do. destruct (m s) as [[a|x|] s']; cbn [snd] in *; [now apply Hk|easy|easy].
Qed.
Lemma stays_get {S A} (P : S -> Prop) (field : S -> option A) load : stays P load -> stays P (get field load).
Proof.
  intros Hl s Hs. unfold get. destruct (field s); [easy|]. specialize (Hl s Hs). unfold then_do. destruct (load s) as [[a|x|] s']; cbn [snd] in *; easy.
Qed.
(** Raises [e] in any state with [P]; raises [e] or goes on. *)
Definition fails {S A} (P : S -> Prop) (m : method S A) (e : exn) : Prop := forall s, P s -> fst (m s) = Raise e.
Definition fails_or {S A} (P : S -> Prop) (m : method S A) (e : exn) : Prop := forall s, P s -> fst (m s) = Raise e \/ exists a, fst (m s) = Ok a.
Lemma fails_then {S A B} (P : S -> Prop) (m : method S A) (k : A -> method S B) e : stays P m -> fails P m e -> fails P (then_do m k) e.
Proof. intros _ H s Hs. specialize (H s Hs). unfold then_do. destruct (m s) as [r s']. cbn [fst] in H. subst r. easy. Qed.
Lemma fails_after {S A B} (P : S -> Prop) (m : method S A) (k : A -> method S B) e : stays P m -> fails_or P m e -> (forall a, fails P (k a) e) -> fails P (then_do m k) e.
Proof.
  intros Hst H Hk s Hs. specialize (H s Hs). specialize (Hst s Hs). unfold then_do. destruct (m s) as [r s']. cbn [fst snd] in *.
  destruct H as [-> | [a ->]]; [easy|]. now apply Hk.
Qed.
Lemma get_fails {S A} (P : S -> Prop) (field : S -> option A) load e : fails P load e -> fails_or P (get field load) e.
Proof.
  intros H s Hs. unfold get. destruct (field s) as [a|]; [right; now exists a|]. specialize (H s Hs). unfold then_do. destruct (load s) as [r s'].
  cbn [fst] in H. subst r. now left.
Qed.
Lemma get_fails_unset {S A} (P : S -> Prop) (field : S -> option A) load e : fails P load e -> (forall s, P s -> field s = None) -> fails P (get field load) e.
Proof.
  intros H Hn s Hs. unfold get. rewrite (Hn s Hs). specialize (H s Hs). unfold then_do. destruct (load s) as [r s']. cbn [fst] in H. now subst r.
Qed.
Lemma read_fanout_len n : forall d off f, read_fanout n d off = Ok f -> len f = Z.of_nat n.
Proof.
  induction n as [|n IH]; intros d off f; cbn [read_fanout]; [intros H; now injection H as <-|].
  destruct (unpack_be 4 d off); cbn [bind]; [|discriminate|discriminate].
  destruct (read_fanout n d (off + 4)) as [l| |] eqn:E; cbn [bind]; [|discriminate|discriminate]. intros H. injection H as <-. rewrite len_cons, (IH _ _ _ E). lia.
Qed.

Section BadIndex.
  Variables (d : bytes) (e : exn).
  Hypothesis Ho : index_open d = Raise e.
  Let D : res bytes := Ok d.
  Let v := if beq (slice_to d 4) index_v2_signature then 2 else 1.
  Definition xb_inv (s : ifile) : Prop :=
    (xf_cursor s = None \/ xf_cursor s = Some (Some d)) /\ (xf_version s = None \/ xf_version s = Some v) /\
    (xf_bound s = None \/ xf_bound s = Some v) /\ xf_fanout s = None /\ xf_places s = None.
  Lemma xb_map s : xb_inv s -> xf_map D s = (Ok d, mk_ifile (Some (Some d)) (xf_version s) (xf_bound s) (xf_fanout s) (xf_places s)).
  Proof.
    intros ([E | E] & _); unfold xf_map, get, then_do, xf_open, then_do, pure, set, D; rewrite E; [easy|]. destruct s; cbn in *. now rewrite E.
  Qed.
  Lemma xb_load s : xb_inv s -> fst (xf_set_cache D s) = Raise e /\ xb_inv (snd (xf_set_cache D s)) /\ xf_version (snd (xf_set_cache D s)) = Some v.
  Proof.
    intros Hs. pose proof Hs as (_ & Hv & Hb & Hf & Hp). unfold xf_set_cache, then_do. rewrite (xb_map s Hs). cbv zeta. fold v. cbn [set xf_cursor xf_version xf_bound xf_fanout xf_places].
    pose proof Ho as H. unfold index_open in H. cbv zeta in H. fold v in H. unfold pure at 1.
    destruct (if v =? 2 then _ else _) as [[]|x|] eqn:Ev; cbn [bind] in H; [| |discriminate].
    - cbn [xf_cursor xf_version xf_bound xf_fanout xf_places]. unfold pure at 1.
      destruct (read_fanout 256 d _) as [f|x|] eqn:Ef; cbn [bind] in H; [|injection H as <-|discriminate].
      + exfalso. assert (exists n, index f 255 = Ok n) as [n En]; [|rewrite En in H; cbn [bind] in H; discriminate].
        apply read_fanout_len in Ef. clear - Ef. apply index_in. lia.
      + cbn [fst snd xf_version]. clear - Hv Hb Hf Hp. split; [reflexivity|]. split; [|reflexivity]. split; [now right|]. split; [now right|]. split; [now right|easy].
    - injection H as <-. cbn [fst snd xf_version]. clear - Hv Hb Hf Hp. split; [reflexivity|]. split; [|reflexivity]. split; [now right|]. split; [now right|easy].
  Qed.

  Lemma load_stays : stays xb_inv (xf_set_cache D).
  Proof. intros s Hs. now apply xb_load. Qed.
  Lemma load_fails : fails xb_inv (xf_set_cache D) e.
  Proof. intros s Hs. now apply xb_load. Qed.
  Lemma map_stays : stays xb_inv (xf_map D).
  Proof. intros s Hs. rewrite (xb_map s Hs). destruct Hs as (_ & H). split; [now right|easy]. Qed.
  Lemma open_stays : stays xb_inv (get xf_cursor (xf_open D)).
  Proof.
    intros s Hs. unfold get, then_do, xf_open, then_do, pure, set, D. destruct Hs as (Hc & H).
    destruct (xf_cursor s) eqn:E; cbn [snd]; (split; [|easy]); [rewrite E; destruct Hc as [?|?]; [discriminate|now right]|now right].
  Qed.
  Ltac st := repeat (apply stays_pure || apply load_stays || apply map_stays || apply open_stays || (apply stays_get; apply load_stays) || (apply stays_then; [|intros])).
  Lemma bsize_fails : fails xb_inv (xf_get_size D) e.
  Proof. apply fails_then; [st|]. apply get_fails_unset; [apply load_fails|]. now intros s (_ & _ & _ & H & _). Qed.
  Lemma boffset_stays i : stays xb_inv (xf_offset D i).
  Proof. unfold xf_offset. apply stays_then; [st|]. intros w. apply stays_then; [st|]. intros m. destruct (w =? 2); [|st]. apply stays_then; [st|]. intros [[? ?] ?]. st. Qed.
  Lemma bcollect_stays n : forall i, stays xb_inv (xf_collect D n i).
  Proof. induction n as [|n IH]; intros i; cbn [xf_collect]; [st|]. apply stays_then; [apply boffset_stays|]. intros x. apply stays_then; [apply IH|]. intros l. st. Qed.
  Lemma bsha_stays i : stays xb_inv (xf_sha D i).
  Proof. unfold xf_sha. st. Qed.
  Lemma bcrc_stays i : stays xb_inv (xf_crc D i).
  Proof. unfold xf_crc. apply stays_then; [st|]. intros w. destruct (w =? 2); [|st]. apply stays_then; [st|]. intros m. apply stays_then; [st|]. intros [[? ?] ?]. st. Qed.
  Lemma bcall_stays s s' : xb_inv s -> xf_call D s s' -> xb_inv s'.
  Proof.
    intros Hs H. revert Hs. destruct H.
    - intros Hs. apply (stays_get xb_inv xf_version _ load_stays s Hs).
    - apply (stays_then xb_inv). { apply stays_get, load_stays. } intros a. st.
    - apply (bsha_stays i s).
    - apply (boffset_stays i s).
    - apply (bcrc_stays i s).
    - revert s. change (stays xb_inv (xf_entry D i)). unfold xf_entry. apply stays_then; [st|]. intros w. destruct (w =? 2).
      + apply stays_then; [apply boffset_stays|]. intros o. apply stays_then; [apply bsha_stays|]. intros t. apply stays_then; [apply bcrc_stays|]. intros c. st.
      + st.
    - revert s. change (stays xb_inv (xf_packfile_checksum D)). unfold xf_packfile_checksum. st.
    - revert s. change (stays xb_inv (xf_indexfile_checksum D)). unfold xf_indexfile_checksum. st.
    - revert s. change (stays xb_inv (xf_offsets D)). unfold xf_offsets. apply stays_then; [st|]. intros w. destruct (w =? 2).
      + apply stays_then; [st|]. intros m. apply stays_then; [st|]. intros [[? ?] ?]. st.
      + apply stays_then; [unfold xf_get_size; st|]. intros n. apply bcollect_stays.
    - revert s. change (stays xb_inv (xf_sha_to_index D sha)). unfold xf_sha_to_index. st.
    - revert s. change (stays xb_inv (xf_partial_sha_to_index D p n)). unfold xf_partial_sha_to_index. destruct (len p <? 2); st.
  Qed.
  Lemma breach_inv b s : xf_reach D b s -> b = false -> xb_inv s.
  Proof.
    intros H Hb. induction H as [|b s s' Hr IH Hc|b s Hr IH]; [|apply (bcall_stays s); [now apply IH|easy]|discriminate].
    split; [now left|]. split; [now left|]. split; [now left|]. easy.
  Qed.
  (** It never answers a lookup, whatever was called before. *)
  Lemma bad_index_always s : xf_reach D false s ->
    fst (xf_get_size D s) = Raise e /\ fst (xf_offsets D s) = Raise e /\
    (forall sha, sha <> [] -> fst (xf_sha_to_index D sha s) = Raise e) /\
    (forall p n, 2 <= len p -> fst (xf_partial_sha_to_index D p n s) = Raise e).
  Proof.
    intros Hr. apply breach_inv in Hr; [|easy]. split; [now apply bsize_fails|]. split; [|split].
    - revert s Hr. change (fails xb_inv (xf_offsets D) e). unfold xf_offsets. apply fails_after; [st|apply get_fails, load_fails|]. intros w. destruct (w =? 2).
      + apply fails_after; [st| |].
        * intros s Hs. right. rewrite (xb_map s Hs). now exists d.
        * intros m. apply fails_then; [st|]. apply get_fails_unset; [apply load_fails|]. now intros s (_ & _ & _ & _ & H).
      + apply fails_then; [unfold xf_get_size; st|]. apply bsize_fails.
    - intros sha Hn. revert s Hr. change (fails xb_inv (xf_sha_to_index D sha) e). unfold xf_sha_to_index.
      apply fails_after; [st| |].
      + intros s _. right. destruct sha as [|x sha]; [easy|]. now exists x.
      + intros x. apply fails_after; [st|apply get_fails, load_fails|]. intros w. apply fails_then; [st|]. apply get_fails_unset; [apply load_fails|]. now intros s (_ & _ & _ & H & _).
    - intros p n Hl. revert s Hr. change (fails xb_inv (xf_partial_sha_to_index D p n) e). unfold xf_partial_sha_to_index. replace (len p <? 2) with false by lia.
      apply fails_after; [st| |].
      + intros s _. right. destruct p as [|x p]; [cbn in Hl; lia|]. now exists x.
      + intros x. apply fails_after; [st|apply get_fails, load_fails|]. intros w. apply fails_then; [st|]. apply get_fails_unset; [apply load_fails|]. now intros s (_ & _ & _ & H & _).
  Qed.
  (** But it tells its version the second time it is asked. *)
  Lemma bad_index_version :
    fst (xf_get_version D xf_new) = Raise e /\ fst (xf_get_version D (snd (xf_get_version D xf_new))) = Ok v.
  Proof.
    assert (xb_inv xf_new) as Hn by (split; [now left|]; split; [now left|]; split; [now left|easy]).
    destruct (xb_load xf_new Hn) as (H1 & H2 & H3). unfold xf_get_version at 1 3. unfold get, then_do. change (xf_version xf_new) with (@None Z).
    destruct (xf_set_cache D xf_new) as [r s]. cbn [fst snd] in *. subst r. cbn [fst snd]. split; [easy|]. unfold xf_get_version, get. now rewrite H3.
  Qed.
End BadIndex.

(** ** PackEntity *)
Section Entity.
  Context (K : zlib).
  Variable sha1 : bytes -> bytes.
  Variable pagesize : Z.
  Variables (dx : bytes) (ix : pidx) (sig dp : bytes) (version count : Z).
  Hypothesis Ho : index_open dx = Ok ix.
  Hypothesis Hd : headed sig version count dp.
  Let DX : res bytes := Ok dx.
  Let DP : res bytes := Ok dp.
  Let e : entity := mk_entity ix dp.
  Definition pairs_of (l : list Z) : list (Z * Z) := combine (sort_z l) (slice_from (sort_z l) 1 ++ [len dp - footer_size]).
  Definition ef_inv (b : bool) (s : efile) : Prop :=
    xf_inv dx ix b (ef_index s) /\ pf_ready sig dp version count b (ef_pack s) /\
    (ef_map s = None \/ exists l, ix_offsets ix = Ok l /\ (len (sort_z l) =? 0) = false /\ ef_map s = Some (pairs_of l)).

  Lemma on_index_gives b A (m : method ifile A) r : gives (xf_inv dx ix b) b m r -> gives (ef_inv b) b (on_index m) r.
  Proof.
    intros H s (Hx & Hp & Hm). destruct (H _ Hx) as [Ha Hi]. unfold on_index. destruct (m (ef_index s)) as [x t]. cbn [fst snd] in *. split; [easy|].
    split; [easy|]. split; easy.
  Qed.
  Lemma on_pack_gives b A (m : method pfile A) r : gives (pf_ready sig dp version count b) b m r -> gives (ef_inv b) b (on_pack m) r.
  Proof.
    intros H s (Hx & Hp & Hm). destruct (H _ Hp) as [Ha Hi]. unfold on_pack. destruct (m (ef_pack s)) as [x t]. cbn [fst snd] in *. split; [easy|].
    split; [easy|]. split; easy.
  Qed.
  Lemma data_gives b : gives (ef_inv b) b (on_pack (pf_on DP Ok)) (Ok dp).
  Proof. apply on_pack_gives. apply (on_gives sig dp version count Hd b _ Ok). Qed.
  Lemma eoffset_gives b i : gives (ef_inv b) b (on_index (xf_offset DX i)) (ix_offset ix i).
  Proof. apply on_index_gives, offset_told, Ho. Qed.
  Lemma elookup_gives b sha : gives (ef_inv b) b (ef_sha_to_index DX sha) (entity_index e sha).
  Proof.
    unfold ef_sha_to_index, entity_index. apply gives_then; [apply on_index_gives, lookup_told, Ho|]. intros i _. apply gives_pure.
  Qed.
  Lemma view_gives b : gives (ef_inv b) b (ef_view DX DP) (Ok e).
  Proof.
    destruct (ix_is dx ix Ho) as (Hix & Hv12 & n & Hn & Hc & Hp & Hp64).
    apply (gives_then _ _ _ _ (Ok dx) (fun _ => Ok e)); [apply on_index_gives, map_gives|]. intros m Hm. injection Hm as <-.
    apply (gives_then _ _ _ _ (Ok (ix_version ix)) (fun _ => Ok e)); [apply on_index_gives, g_bound, Ho|]. intros v Hv. injection Hv as <-.
    apply (gives_then _ _ _ _ (Ok (ix_fanout ix)) (fun _ => Ok e)); [apply on_index_gives, g_fanout, Ho|]. intros f Hf. injection Hf as <-.
    apply (gives_then _ _ _ _ (Ok (places ix)) (fun _ => Ok e)).
    - destruct (ix_version ix =? 2) eqn:Ev; [apply on_index_gives, g_places; [exact Ho|lia]|]. eapply gives_same; [|apply gives_pure].
      rewrite Hn. cbn [bind]. unfold places. now rewrite Hc, Hp, Hp64.
    - intros p Hpl. injection Hpl as <-. unfold places. apply (gives_then _ _ _ _ (Ok dp) (fun _ => Ok e)); [apply data_gives|]. intros q Hq. injection Hq as <-.
      eapply gives_same; [|apply gives_pure]. unfold e. do 2 f_equal. symmetry. exact Hix.
  Qed.
  Lemma object_gives b A (object : entity -> bytes -> Z -> res A) sha i :
    (forall t, object e t i = let! _ := ix_offset ix i in object e t i) ->
    gives (ef_inv b) b (ef_object DX DP object sha i) (object e (match sha with Some t => t | None => ix_sha ix i end) i).
  Proof.
    intros Hobj. unfold ef_object. set (t := match sha with Some t => t | None => _ end).
    apply (gives_then _ _ _ _ (Ok t) (fun t => object e t i)).
    - destruct sha; [apply gives_pure|apply on_index_gives, sha_told, Ho].
    - intros t' Ht. injection Ht as <-. rewrite Hobj. apply gives_then; [apply eoffset_gives|]. intros o _.
      apply (gives_then _ _ _ _ (Ok dp) (fun _ => object e t i)); [apply data_gives|]. intros q _.
      apply (gives_then _ _ _ _ (Ok e) (fun e => object e t i)); [apply view_gives|]. intros e' He. injection He as <-. apply gives_pure.
  Qed.
  Lemma info_first n t i : info_at K n e t i = let! _ := ix_offset ix i in info_at K n e t i.
  Proof. unfold info_at. cbn [en_index e]. destruct (ix_offset ix i); reflexivity. Qed.
  Lemma stream_first n t i : stream_at K n e t i = let! _ := ix_offset ix i in stream_at K n e t i.
  Proof. unfold stream_at. cbn [en_index e]. destruct (ix_offset ix i); reflexivity. Qed.

  Lemma einfo_gives b n sha : gives (ef_inv b) b (ef_info K DX DP n sha) (entity_info K n e sha).
  Proof. unfold ef_info, entity_info. apply gives_then; [apply elookup_gives|]. intros i _. apply (object_gives b _ (info_at K n) (Some sha) i). intros t. apply info_first. Qed.
  Lemma estream_gives b n sha : gives (ef_inv b) b (ef_stream K DX DP n sha) (entity_stream K n e sha).
  Proof. unfold ef_stream, entity_stream. apply gives_then; [apply elookup_gives|]. intros i _. apply (object_gives b _ (stream_at K n) (Some sha) i). intros t. apply stream_first. Qed.
  Lemma einfo_at_gives b n i : gives (ef_inv b) b (ef_info_at_index K DX DP n i) (info_at_index K n e i).
  Proof. apply (object_gives b _ (info_at K n) None i). intros t. apply info_first. Qed.
  Lemma estream_at_gives b n i : gives (ef_inv b) b (ef_stream_at_index K DX DP n i) (stream_at_index K n e i).
  Proof. apply (object_gives b _ (stream_at K n) None i). intros t. apply stream_first. Qed.

  (** The map of offsets, once made, is the one that would be made again. *)
  Lemma emap_gives b off : gives (ef_inv b) b (let? pairs := get ef_map (ef_set_cache DX DP) in pure (dict_get off pairs (Raise KeyError))) (next_offset e off).
  Proof.
    unfold next_offset. cbn [en_index en_pack e]. cbv zeta. intros s Hs. pose proof Hs as (Hx & Hp & Hm). unfold get, then_do. destruct Hm as [E | (l & El & Hne & E)]; rewrite E.
    - assert (gives (ef_inv b) b (ef_set_cache DX DP) (let! l := ix_offsets ix in py_assert (negb (len (sort_z l) =? 0)) (Ok tt))) as Hg.
      { unfold ef_set_cache. apply gives_then; [apply on_index_gives, offsets_told, Ho|]. intros l El.
        apply (gives_then _ _ _ _ (Ok dp) (fun _ => py_assert (negb (len (sort_z l) =? 0)) (Ok tt))); [apply data_gives|]. intros q Hq. injection Hq as <-. cbv zeta.
        destruct (len (sort_z l) =? 0) eqn:En; cbn [negb py_assert].
        - apply (gives_then _ _ _ _ (Raise AssertionError) (fun _ => Raise AssertionError)); [apply gives_pure|discriminate].
        - apply (gives_then _ _ _ _ (Ok tt) (fun _ => Ok tt)); [apply gives_pure|]. intros _ _. apply gives_set. intros t (H1 & H2 & _). split; [easy|]. split; [easy|].
          right. now exists l. }
      assert (fst (ef_set_cache DX DP s) = Ok tt -> ef_map (snd (ef_set_cache DX DP s)) <> None) as Hset.
      { unfold ef_set_cache, then_do. destruct (on_index _ s) as [[l| |] s1]; [|easy|easy]. destruct (on_pack _ s1) as [[q| |] s2]; [|easy|easy].
        cbv zeta. unfold pure. destruct (negb _); cbn [py_assert]; easy. }
      destruct (Hg s Hs) as [Ha Hi]. destruct (ef_set_cache DX DP s) as [r s'] eqn:Es. cbn [fst snd] in *.
      destruct Ha as [-> | [Hb ->]]; [|cbn [fst snd]; split; [now right|easy]].
      destruct (ix_offsets ix) as [l|x|] eqn:El; cbn [bind] in *; [|split; [now left|easy]|split; [now left|easy]].
      destruct (negb (len (sort_z l) =? 0)) eqn:En; cbn [py_assert] in *; [|split; [now left|easy]].
      specialize (Hset eq_refl). destruct Hi as (H1 & H2 & [H3 | (l' & El' & _ & H3)]); [easy|]. rewrite H3. rewrite El in El'. injection El' as <-. cbn [pure fst snd].
      split; [now left|]. split; [easy|]. split; [easy|]. right. exists l. rewrite negb_true_iff in En. easy.
    - cbn [pure fst snd]. rewrite El. cbn [bind]. rewrite Hne. cbn [negb py_assert]. split; [now left|easy].
  Qed.
  Lemma ecrc_gives b n sha : gives (ef_inv b) b (ef_valid_crc pagesize DX DP n sha) (is_valid_crc pagesize n e sha).
  Proof.
    unfold ef_valid_crc, is_valid_crc. cbn [en_index en_pack e].
    apply (gives_then _ _ _ _ (Ok (ix_version ix)) (fun v => if v <? 2 then Raise UnsupportedOperation else _)); [apply on_index_gives, version_told, Ho|].
    intros v Hv. injection Hv as <-. destruct (ix_version ix <? 2); [apply gives_pure|].
    apply gives_then; [apply elookup_gives|]. intros i _. apply gives_then; [apply eoffset_gives|]. intros off _.
    assert (forall B (k : Z -> method efile B) s, then_do (get ef_map (ef_set_cache DX DP)) (fun pairs => then_do (pure (dict_get off pairs (Raise KeyError))) k) s =
      then_do (let? pairs := get ef_map (ef_set_cache DX DP) in pure (dict_get off pairs (Raise KeyError))) k s) as Hassoc.
    { intros B k s. unfold then_do. destruct (get ef_map _ s) as [[p| |] t]; [|easy|easy]. unfold pure. destruct (dict_get _ _ _); easy. }
    intros s Hs. rewrite Hassoc. revert s Hs.
    match goal with |- forall s, _ -> told _ (fst (?m s)) ?r /\ _ => change (gives (ef_inv b) b m r) end.
    apply gives_then; [apply emap_gives|]. intros nx _.
    apply gives_then; [apply on_index_gives, crc_told, Ho|]. intros c _.
    apply (gives_then _ _ _ _ (Ok dp) (fun d => let! this := crc_loop pagesize n d off nx 0 in Ok (Z.land this 4294967295 =? c))); [apply data_gives|]. intros q Hq. injection Hq as <-.
    apply gives_then; [apply gives_pure|]. intros t _. apply gives_pure.
  Qed.
  Lemma esha_gives b n sha : gives (ef_inv b) b (ef_valid_sha K sha1 pagesize DX DP n sha) (is_valid_sha K sha1 pagesize n e sha).
  Proof. unfold ef_valid_sha, is_valid_sha. apply gives_then; [apply estream_gives|]. intros st _. apply gives_pure. Qed.
  Lemma ecollect_at_gives b n off : gives (ef_inv b) b (ef_collect_at K DX DP n off) (collect_streams_at_offset K n e off).
  Proof.
    unfold ef_collect_at, collect_streams_at_offset. cbn [en_pack en_index e].
    apply gives_then; [apply on_pack_gives, (on_gives sig dp version count Hd b _ (fun d => collect_streams K n d off))|]. intros l El.
    apply gives_then; [apply gives_pure|]. intros o Eo. destruct (po_delta o) eqn:Ed; [apply gives_pure|apply gives_pure|].
    apply (gives_then _ _ _ _ (Ok e) (fun e => let! r := resolve_loop K n e o in Ok (l ++ r))); [apply view_gives|]. intros e' He. injection He as <-.
    eapply gives_same; [|apply gives_pure]. unfold collect_streams_at_offset. cbn [en_pack e]. rewrite El. cbn [bind]. rewrite Eo. cbn [bind]. now rewrite Ed.
  Qed.
  Lemma ecollect_gives b n sha : gives (ef_inv b) b (ef_collect K DX DP n sha) (entity_collect_streams K n e sha).
  Proof.
    unfold ef_collect, entity_collect_streams. apply gives_then; [apply elookup_gives|]. intros i _. apply gives_then; [apply eoffset_gives|]. intros o _. apply ecollect_at_gives.
  Qed.

  Lemma ecall_inv b s s' : ef_inv b s -> ef_call K sha1 pagesize DX DP s s' -> ef_inv b s'.
  Proof.
    intros Hs H. destruct H.
    - destruct Hs as (Hx & Hp & Hm). split; [now apply (x_call_inv dx ix Ho b (ef_index s))|]. split; easy.
    - destruct Hs as (Hx & Hp & Hm). split; [easy|]. split; [now apply (call_ready sig dp version count Hd b (ef_pack s))|easy].
    - now apply (einfo_gives b). - now apply (estream_gives b). - now apply (einfo_at_gives b). - now apply (estream_at_gives b).
    - now apply (ecrc_gives b). - now apply (esha_gives b). - now apply (ecollect_gives b). - now apply (ecollect_at_gives b).
  Qed.
  Lemma eclose_inv b s : ef_inv b s -> ef_inv true (snd (ef_close s)).
  Proof.
    intros (Hx & Hp & Hm). unfold ef_close, then_do, on_index, on_pack. cbn. split; [now apply (x_close_inv dx ix b)|]. split; [now apply (close_ready sig dp version count b)|easy].
  Qed.
  Notation all_right := (ef_right K sha1 pagesize dx dp e).
  Lemma inv_right b s : ef_inv b s -> all_right b s.
  Proof.
    intros H n. repeat split; intros; [now apply einfo_gives|now apply estream_gives|now apply einfo_at_gives|now apply estream_at_gives|
      now apply ecrc_gives|now apply esha_gives|now apply ecollect_gives|now apply ecollect_at_gives].
  Qed.
  Lemma entity_always b s : sig = str_PACK -> ef_reach K sha1 pagesize DX DP b s -> all_right b s.
  Proof.
    intros Hsig H. apply inv_right. induction H as [|b s s' Hr IH Hc|b s Hr IH]; [|now apply (ecall_inv b s)|now apply (eclose_inv b)].
    split; [split; [now left|]; split; [now left|]; split; [now left|]; split; now left|].
    split; [split; [split; [now left|split; now left]|now left]|now left].
  Qed.
  (** With another signature: the first call that finds its object fails, later ones do not. *)
  Definition fresh_pack (s : efile) : Prop := xf_inv dx ix false (ef_index s) /\ ef_pack s = pf_new /\ ef_map s = None.
  Lemma fresh_index A (m : method ifile A) r : gives (xf_inv dx ix false) false m r -> gives fresh_pack false (on_index m) r.
  Proof.
    intros H s (Hx & Hp & Hm). destruct (H _ Hx) as [Ha Hi]. unfold on_index. destruct (m (ef_index s)) as [x t]. cbn [fst snd] in *. split; [easy|]. split; easy.
  Qed.
  Lemma entity_other n sha i off : sig <> str_PACK -> entity_index e sha = Ok i -> ix_offset ix i = Ok off ->
    fst (ef_info K DX DP n sha ef_new) = Raise ParseError /\ fst (ef_stream K DX DP n sha ef_new) = Raise ParseError /\
    (forall s, ef_inv false s -> all_right false s) /\
    ef_inv false (snd (ef_info K DX DP n sha ef_new)) /\ ef_inv false (snd (ef_stream K DX DP n sha ef_new)).
  Proof.
    intros Hsig Hi Hoff.
    assert (forall A (object : entity -> bytes -> Z -> res A),
      let m := (let? i := ef_sha_to_index DX sha in ef_object DX DP object (Some sha) i) in fst (m ef_new) = Raise ParseError /\ ef_inv false (snd (m ef_new))) as Hm.
    { intros A object m. assert (fresh_pack ef_new) as Hf.
      { split; [split; [now left|]; split; [now left|]; split; [now left|]; split; now left|easy]. }
      assert (gives fresh_pack false (ef_sha_to_index DX sha) (Ok i)) as H1.
      { eapply gives_same; [exact Hi|]. unfold ef_sha_to_index, entity_index. apply gives_then; [apply fresh_index, lookup_told, Ho|]. intros j _. apply gives_pure. }
      assert (gives fresh_pack false (on_index (xf_offset DX i)) (Ok off)) as H2.
      { rewrite <- Hoff. apply fresh_index, offset_told, Ho. }
      destruct (H1 _ Hf) as [[Ea | [? _]] Hf1]; [|discriminate]. unfold m, then_do. destruct (ef_sha_to_index DX sha ef_new) as [r s1]. cbn [fst snd] in *. subst r.
      destruct (H2 _ Hf1) as [[Eb | [? _]] Hf2]; [|discriminate]. unfold ef_object, then_do. cbn [pure]. destruct (on_index (xf_offset DX i) s1) as [r s2]. cbn [fst snd] in *. subst r.
      destruct Hf2 as (Hx & Hp & Hmm).
      assert (pf_on DP Ok pf_new = (Raise ParseError, mk_pfile (Some (Some dp)) (Some version) (Some count))) as Hon.
      { unfold pf_on, get, then_do. change (pf_cursor pf_new) with (@None (option bytes)). cbn [fst snd]. unfold DP. rewrite (pf_load sig dp version count Hd).
        assert ((be_dec sig =? 1346454347) = false) as -> by (destruct (_ =? _) eqn:E; [|easy]; now apply (sig_is sig dp version count Hd) in E). easy. }
      unfold on_pack. rewrite Hp, Hon. cbn [fst snd]. split; [easy|]. split; [easy|]. split; [apply loaded_ready|now left]. }
    split; [apply (Hm _ (info_at K n))|]. split; [apply (Hm _ (stream_at K n))|]. split; [intros s; apply inv_right|].
    split; [apply (Hm _ (info_at K n))|apply (Hm _ (stream_at K n))].
  Qed.
  Lemma later_inv s0 s : ef_inv false s0 -> ef_later K sha1 pagesize DX DP s0 s -> ef_inv false s.
  Proof. intros H0 H. induction H as [|s s' H IH Hc]; [easy|]. now apply (ecall_inv false s). Qed.
End Entity.
