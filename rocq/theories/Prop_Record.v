(** The records of gitdb/base.py and small helpers: C96, C97 and C98. *)
From Coq Require Import ZifyBool ZifyNat.
From Verif Require Import Py PyFacts FunModel FunSpec FunProofs RecordModel UtilModel RecordSpec.
Ltac Zify.zify_post_hook ::= Z.div_mod_to_equations.

(** ** C96 *)
(** A record can be made from its arguments, and its properties give them back; only the
    size of an ODeltaStream is that of its stream.  Missing: InvalidOInfo and
    InvalidOStream. *)
Theorem C96_fields_partial : forall S (size_of : S -> res (item S)) c args,
  c <> InvalidOInfo -> c <> InvalidOStream -> length args = length (parameters c) ->
  exists o, construct S c args = Ok o /\
    (forall i a x, nth_error (parameters c) i = Some a -> nth_error args i = Some x ->
       ~ (c = ODeltaStream /\ a = Size) -> get S size_of c o a = Ok x) /\
    (c = ODeltaStream -> forall s, nth_error args 3 = Some (IStr s) -> get S size_of c o Size = size_of s) /\
    (c = IStream -> get S size_of c o Error_ = Ok INone).
Proof.
  intros S size_of c args H1 H2 Hl.
  destruct args as [|a0 [|a1 [|a2 [|a3 [|a4 [|a5 args]]]]]]; destruct c; try discriminate Hl; try congruence;
    (eexists; split; [reflexivity|]; split; [|split; [intros HC; try discriminate HC|intros HC; first [discriminate HC|reflexivity]]]);
    try (intros i a x Ha Hx Hd; destruct i as [|[|[|[|[|i]]]]]; cbn in Ha, Hx;
         try (injection Ha as <-); try (injection Hx as <-); try discriminate; try reflexivity;
         try (elim Hd; now split); try (destruct i; discriminate));
    try (intros s Hs; cbn in Hs; injection Hs as ->; reflexivity).
Qed.
Print Assumptions C96_fields_partial.
Example C96_fields_example :
  let size_of := fun s : bytes => Ok (IInt (len s)) in
  exists o, construct bytes ODeltaPackStream [IInt 12; IInt 6; IInt 30; IInt 5; IStr [1; 2]] = Ok o /\
    get bytes size_of ODeltaPackStream o DeltaInfo = Ok (IInt 5) /\
    get bytes size_of ODeltaPackStream o Type_ = Ok (IText (PStr str_ofs_delta)) /\
  exists o, construct bytes ODeltaStream [IText (PBytes (repeat 7 20)); IText (PBytes str_blob_type); INone; IStr [1; 2]] = Ok o /\
    get bytes size_of ODeltaStream o Size = Ok (IInt 2).
Proof. cbn zeta. eexists. split; [reflexivity|]. split; [reflexivity|]. split; [reflexivity|]. eexists. now split. Qed.

(** No InvalidOInfo or InvalidOStream can ever be made. *)
Theorem C96_invalid_refuted : forall S c args, c = InvalidOInfo \/ c = InvalidOStream ->
  construct S c args = Raise TypeError.
Proof. intros S c args [-> | ->]; now destruct args. Qed.
Print Assumptions C96_invalid_refuted.
Example C96_invalid_example :
  length [IText (S := bytes) (PBytes (repeat 7 20)); IExc BadObject] = length (parameters InvalidOInfo) /\
  construct bytes InvalidOInfo [IText (PBytes (repeat 7 20)); IExc BadObject] = Raise TypeError.
Proof. now split. Qed.

(** The properties of such records are right, for those made by tuple.__new__. *)
Theorem C96_invalid_fields : forall S (size_of : S -> res (item S)) c o i a x, c = InvalidOInfo \/ c = InvalidOStream ->
  length o = length (parameters c) -> nth_error (parameters c) i = Some a -> nth_error o i = Some x -> get S size_of c o a = Ok x.
Proof.
  intros S size_of c o i a x [-> | ->] Hl Ha Hx; destruct o as [|a0 [|a1 [|a2 o]]]; try discriminate Hl;
    (destruct i as [|[|i]]; cbn in Ha, Hx; [injection Ha as <-; injection Hx as <-; reflexivity..|now destruct i]).
Qed.
Print Assumptions C96_invalid_fields.
Example C96_invalid_fields_example : get bytes (fun _ => Ok INone) InvalidOInfo [IText (PBytes (repeat 7 20)); IExc BadObject] Error_ = Ok (IExc BadObject).
Proof. reflexivity. Qed.

(** Names and numbers of types: a record of an object gives the number for the name it
    holds, a record of a pack entry the name for the number. *)
Theorem C96_types : forall S (size_of : S -> res (item S)) c o i name, In (i, name) git_kinds ->
  (In Binsha (parameters c) -> In Type_ (parameters c) -> c <> IStream -> get S size_of c o Type_ = Ok (IText (PBytes name)) ->
     get S size_of c o TypeId = Ok (IInt i)) /\
  (In PackOffset (parameters c) -> get S size_of c o TypeId = Ok (IInt i) ->
     get S size_of c o Type_ = Ok (IText (PBytes name))).
Proof.
  intros S size_of c o i name Hk. split.
  - intros Hb Ht Hc H. assert (H' : get S size_of c o TypeId = id_of_item S (IText (PBytes name))).
    { destruct c; cbn in Hb, Ht; try (exfalso; intuition discriminate); try congruence;
        cbn [get oinfo_get] in H |- *; rewrite H; reflexivity. }
    rewrite H'. cbn in Hk. repeat destruct Hk as [E|Hk]; try (injection E as <- <-; reflexivity). easy.
  - intros Hp H. assert (H' : get S size_of c o Type_ = name_of_item S (IInt i)).
    { destruct c; cbn in Hp; try (exfalso; intuition discriminate);
        cbn [get opackinfo_get] in H |- *; rewrite H; reflexivity. }
    rewrite H'. cbn in Hk. repeat destruct Hk as [E|Hk]; try (injection E as <- <-; reflexivity). easy.
Qed.
Print Assumptions C96_types.
Example C96_types_example :
  get bytes (fun _ => Raise AttributeError) OInfo [INone; IText (PBytes str_tag_type); INone] TypeId = Ok (IInt 4) /\
  get bytes (fun _ => Raise AttributeError) OPackStream [INone; IInt 2; INone; INone] Type_ = Ok (IText (PBytes str_tree_type)).
Proof. now split. Qed.

(** For anything else they raise KeyError: type_id gives a number for the four names and
    for the two words OFS_DELTA and REF_DELTA only, type a name for 0 to 7 only. *)
Theorem C96_no_other_types : forall S (size_of : S -> res (item S)) c o x,
  (In Binsha (parameters c) -> In Type_ (parameters c) -> c <> IStream -> get S size_of c o Type_ = Ok x ->
     (exists i, get S size_of c o TypeId = Ok (IInt i) /\
        ((exists name, In (i, name) git_kinds /\ x = IText (PBytes name)) \/
         (i = 6 /\ x = IText (PStr [79; 70; 83; 95; 68; 69; 76; 84; 65])) \/
         (i = 7 /\ x = IText (PStr [82; 69; 70; 95; 68; 69; 76; 84; 65])))) \/
     get S size_of c o TypeId = Raise KeyError) /\
  (In PackOffset (parameters c) -> get S size_of c o TypeId = Ok x ->
     (exists i name, 0 <= i <= 7 /\ x = IInt i /\ get S size_of c o Type_ = Ok (IText name)) \/
     ((forall i, 0 <= i <= 7 -> x <> IInt i) /\ get S size_of c o Type_ = Raise KeyError)).
Proof.
  intros S size_of c o x. split.
  - intros Hb Ht Hc H. assert (H' : get S size_of c o TypeId = id_of_item S x).
    { destruct c; cbn in Hb, Ht; try (exfalso; intuition discriminate); try congruence;
        cbn [get oinfo_get] in H |- *; rewrite H; reflexivity. }
    rewrite H'. destruct x; try (right; reflexivity). unfold id_of_item, type_to_type_id, type_to_type_id_map. cbn [assoc_type].
    assert (Hx : forall a b, pystr_eqb a b = true -> b = a).
    { intros [a|a] [b|b] E; cbn in E; try discriminate; apply beq_eq in E; now subst. }
    repeat match goal with |- context [if pystr_eqb ?k p then _ else _] =>
      let E := fresh "E" in destruct (pystr_eqb k p) eqn:E;
        [apply Hx in E; subst p; cbn [bind]; left; eexists; (split; [reflexivity|]);
         first [left; eexists; (split; [|reflexivity]); cbn; tauto|right; left; split; reflexivity|right; right; split; reflexivity]|clear E] end.
    right. reflexivity.
  - intros Hp H. assert (H' : get S size_of c o Type_ = name_of_item S x).
    { destruct c; cbn in Hp; try (exfalso; intuition discriminate);
        cbn [get opackinfo_get] in H |- *; rewrite H; reflexivity. }
    rewrite H'. destruct x as [ |p|i|s|e]; try (right; split; [discriminate|reflexivity]).
    unfold name_of_item, type_id_to_type. change OFS_DELTA with 6. change REF_DELTA with 7.
    repeat match goal with |- context [if i =? ?k then _ else _] =>
      destruct (Z.eqb_spec i k) as [->|?]; [left; eexists _, _; split; [|split; reflexivity]; lia|] end.
    right. split; [intros j Hj E; injection E as ->; lia|reflexivity].
Qed.
Print Assumptions C96_no_other_types.
Example C96_no_other_types_example :
  get bytes (fun _ => Raise AttributeError) OInfo [INone; IInt 3; INone] TypeId = Raise KeyError /\
  get bytes (fun _ => Raise AttributeError) OInfo [INone; IText (PBytes [98]); INone] TypeId = Raise KeyError /\
  get bytes (fun _ => Raise AttributeError) OPackStream [INone; IInt 8; INone; INone] Type_ = Raise KeyError.
Proof. repeat split. Qed.

(** hexsha is the sha in lower-case hex digits; a record whose sha is not (yet) known
    raises TypeError. *)
Theorem C96_hexsha : forall S (size_of : S -> res (item S)) c o,
  In Binsha (parameters c) ->
  (forall b, is_bytes b -> get S size_of c o Binsha = Ok (IText (PBytes b)) ->
     exists h, get S size_of c o Hexsha = Ok (IText (PBytes h)) /\ lower_hex h /\ hex_to_bin h = Ok b /\ len h = 2 * len b) /\
  (get S size_of c o Binsha = Ok INone -> get S size_of c o Hexsha = Raise TypeError).
Proof.
  intros S size_of c o Hc.
  assert (H : forall x, get S size_of c o Binsha = Ok x -> get S size_of c o Hexsha = hex_item S x).
  { intros x Hx. destruct c; cbn in Hc; try (exfalso; intuition discriminate);
      cbn [get oinfo_get] in Hx |- *; rewrite Hx; reflexivity. }
  split.
  - intros b Hb Hx. exists (bin_to_hex b). rewrite (H _ Hx). repeat split; [|now apply hex_to_bin_to_hex|apply bin_to_hex_len].
    clear - Hb. induction Hb as [|x b Hx Hb IH]; cbn [bin_to_hex]; [constructor|].
    assert (Hd : forall v, 0 <= v < 16 -> 48 <= hex_digit v <= 57 \/ 97 <= hex_digit v <= 102).
    { intros v Hv. unfold hex_digit. destruct (v <? 10) eqn:E; lia. }
    constructor; [apply Hd; unfold is_byte in Hx; lia|constructor; [apply Hd; lia|exact IH]].
  - intros Hx. now rewrite (H _ Hx).
Qed.
Print Assumptions C96_hexsha.
Example C96_hexsha_example :
  get bytes (fun _ => Raise AttributeError) OStream [IText (PBytes [175; 1]); INone; INone; INone] Hexsha
    = Ok (IText (PBytes [97; 102; 48; 49])) /\
  exists o, construct bytes IStream [IText (PBytes str_blob_type); IInt 2; IStr [1; 2]] = Ok o /\
    get bytes (fun _ => Raise AttributeError) IStream o Hexsha = Raise TypeError.
Proof. split; [reflexivity|]. eexists; now split. Qed.

(** Setting a property of an IStream changes that property and no other (hexsha goes with
    binsha); the other records cannot be changed. *)
Theorem C96_set : forall S (size_of : S -> res (item S)),
  (forall args o0 o a x, construct S IStream args = Ok o0 -> length o = length o0 -> settable a ->
     exists o', set S IStream o a x = Ok o' /\ length o' = length o /\ get S size_of IStream o' a = Ok x /\
       forall b, b <> a -> ~ (b = Hexsha /\ a = Binsha) -> get S size_of IStream o' b = get S size_of IStream o b) /\
  (forall o x, set S IStream o Hexsha x = Raise AttributeError) /\
  (forall c o a x, c <> IStream -> set S c o a x = Raise AttributeError).
Proof.
  intros S size_of. split; [|split].
  - intros args o0 o a x Hc Hl Ha.
    assert (H5 : length o0 = 5%nat).
    { destruct args as [|? [|? [|? [|? [|? ?]]]]]; cbn in Hc; try discriminate; injection Hc as <-; reflexivity. }
    rewrite H5 in Hl. destruct o as [|y0 [|y1 [|y2 [|y3 [|y4 [|? ?]]]]]]; try discriminate Hl.
    unfold settable in Ha. cbn in Ha.
    repeat destruct Ha as [<-|Ha]; [..|easy]; cbn [set put_at bind]; (eexists; split; [reflexivity|]; split; [reflexivity|]; split; [reflexivity|]);
      intros b Hb Hh; destruct b; try reflexivity; try congruence; elim Hh; now split.
  - reflexivity.
  - intros c o a x Hc. destruct c; try reflexivity. congruence.
Qed.
Print Assumptions C96_set.
Example C96_set_example : exists o o', construct bytes IStream [IText (PBytes str_blob_type); IInt 2; IStr [1; 2]] = Ok o /\
  settable Binsha /\ set bytes IStream o Binsha (IText (PBytes (repeat 7 20))) = Ok o' /\
  get bytes (fun _ => Raise AttributeError) IStream o' Binsha = Ok (IText (PBytes (repeat 7 20))) /\
  get bytes (fun _ => Raise AttributeError) IStream o' Size = Ok (IInt 2).
Proof. do 2 eexists. split; [reflexivity|]. split; [now left|]. now repeat split. Qed.

(** Reading from a record is reading from its stream. *)
Theorem C96_read : forall S (size_of : S -> res (item S)) (read_of : S -> Z -> res bytes) c o s n,
  readable_class c -> get S size_of c o Stream = Ok (IStr s) -> RecordModel.read S read_of c o n = read_of s n.
Proof.
  intros S size_of read_of c o s n Hc H. unfold readable_class in Hc.
  destruct c; cbn in Hc; try (exfalso; intuition discriminate); cbn [get] in H; unfold RecordModel.read; rewrite H; reflexivity.
Qed.
Print Assumptions C96_read.
Example C96_read_example : readable_class ODeltaPackStream /\
  RecordModel.read bytes (fun s n => Ok (slice_to s n)) ODeltaPackStream [IInt 12; IInt 6; IInt 30; IInt 5; IStr [1; 2; 3]] 2 = Ok [1; 2].
Proof. split; [unfold readable_class; cbn; intuition|reflexivity]. Qed.

(** ** C97 *)
(** The contents of a file that is not empty, whichever of the maps fail and whatever is
    allowed; if a stream is asked for, what comes back can be read.  Missing: empty files,
    short reads and descriptors read from before. *)
Theorem C97_contents_partial : forall f stream allow_mmap,
  of_contents f <> [] -> of_pos f = 0 -> reads_fully f ->
  exists m, file_contents_ro f stream allow_mmap = Ok m /\ contents_of m = of_contents f /\ (stream = true -> readable m).
Proof.
  intros f stream allow Hne Hp (Hs & Hr). rewrite Hp in Hr. cbn [Z.to_nat skipn] in Hr.
  assert (HM : exists m, read_manually f stream = Ok m /\ contents_of m = of_contents f /\ (stream = true -> readable m)).
  { unfold read_manually. rewrite Hs. cbn [bind]. rewrite Hr. cbn [bind]. destruct stream; eexists; now repeat split. }
  assert (HP : exists m, map_file false f = Ok m /\ contents_of m = of_contents f /\ (stream = true -> readable m)).
  { unfold map_file. destruct (of_contents f); [easy|]. eexists; now repeat split. }
  unfold file_contents_ro. destruct allow; [|easy].
  destruct (of_map1 f); [|destruct HP as (m & -> & H); exists m; easy].
  cbn [map_file]. rewrite Hs. cbn [bind].
  destruct (of_map2 f); [exact HM|destruct HP as (m & -> & H); exists m; easy].
Qed.
Print Assumptions C97_contents_partial.
Example C97_contents_example :
  let f := mk_open_file [1; 2; 3] 0 true true (Ok 3) (fun n => Ok (slice_to [1; 2; 3] n)) in
  of_contents f <> [] /\ of_pos f = 0 /\ reads_fully f /\ file_contents_ro f true true = Ok (Buffer [1; 2; 3]).
Proof. now repeat split. Qed.
(** Whatever comes back without an error is a stretch of the file, and if not all of it the
    file was not mapped; all errors are OSErrors, except for the ValueError of an empty file. *)
Theorem C97_never_other : forall f stream allow_mmap, honest f ->
  (exists m a b, file_contents_ro f stream allow_mmap = Ok m /\ of_contents f = a ++ contents_of m ++ b /\
     (forall d, m = Mapped d -> allow_mmap = true /\ d = of_contents f)) \/
  file_contents_ro f stream allow_mmap = Raise OSError \/
  file_contents_ro f stream allow_mmap = Raise ValueError /\ of_contents f = [] /\ allow_mmap = true.
Proof.
  intros f stream allow (Hp & Hs & Hr).
  assert (HM : (exists m a b, read_manually f stream = Ok m /\ of_contents f = a ++ contents_of m ++ b /\
     (forall d, m = Mapped d -> allow = true /\ d = of_contents f)) \/ read_manually f stream = Raise OSError).
  { unfold read_manually. destruct Hs as [-> | ->]; [|now right]. cbn [bind].
    destruct (Hr (len (of_contents f))) as [-> |(b & rest & -> & E & _)]; [now right|]. left. cbn [bind].
    exists (if stream then Buffer b else Plain b), (firstn (Z.to_nat (of_pos f)) (of_contents f)), rest.
    split; [now destruct stream|]. split; [|intros d; now destruct stream].
    destruct stream; cbn [contents_of]; now rewrite <- E, firstn_skipn. }
  unfold file_contents_ro. destruct allow; [|destruct HM; [now left|now right; left]].
  assert (HP : forall w, map_file w f = Raise OSError \/ map_file w f = Raise ValueError /\ of_contents f = [] \/ map_file w f = Ok (Mapped (of_contents f))).
  { intros w. unfold map_file. destruct w; [now left|]. right. destruct (of_contents f); [now left|now right]. }
  assert (HO : forall m, m = Mapped (of_contents f) -> exists a b, of_contents f = a ++ contents_of m ++ b /\
     (forall d, m = Mapped d -> true = true /\ d = of_contents f)).
  { intros m ->. exists [], []. split; [cbn; now rewrite app_nil_r|]. intros d [= ->]. now split. }
  destruct (HP (of_map1 f)) as [-> |[[-> He] | ->]].
  - destruct Hs as [-> | ->]; cbn [bind].
    + destruct (HP (of_map2 f)) as [-> |[[-> He] | ->]].
      * destruct HM; [now left|now right; left].
      * right. right. easy.
      * left. destruct (HO _ eq_refl) as (a & b & H1 & H2). exists (Mapped (of_contents f)), a, b. now split.
    + destruct HM; [now left|now right; left].
  - right. right. easy.
  - left. destruct (HO _ eq_refl) as (a & b & H1 & H2). exists (Mapped (of_contents f)), a, b. now split.
Qed.
Print Assumptions C97_never_other.
Example C97_never_other_example :
  honest (mk_open_file [1; 2; 3] 1 true true (Ok 3) (fun n => Ok (firstn (Z.to_nat (Z.min 1 n)) [2; 3]))).
Proof.
  split; [cbn; lia|]. split; [now left|]. intros n. right. cbn [of_read of_pos of_contents].
  exists (firstn (Z.to_nat (Z.min 1 n)) [2; 3]), (skipn (Z.to_nat (Z.min 1 n)) [2; 3]). split; [easy|].
  split; [now rewrite firstn_skipn|]. unfold len. rewrite firstn_length. lia.
Qed.
(** An empty file raises ValueError, although reading it would give its contents. *)
Theorem C97_empty_refuted : forall f stream, of_contents f = [] -> of_map1 f = false ->
  file_contents_ro f stream true = Raise ValueError /\
  (of_fstat f = Ok 0 -> of_read f 0 = Ok [] -> exists m, file_contents_ro f stream false = Ok m /\ contents_of m = of_contents f).
Proof.
  intros f stream He Hm. split; [unfold file_contents_ro, map_file; now rewrite Hm, He|].
  intros Hs Hr. unfold file_contents_ro, read_manually. rewrite Hs. cbn [bind]. rewrite Hr. cbn [bind]. rewrite He.
  destruct stream; eexists; now split.
Qed.
Print Assumptions C97_empty_refuted.
Example C97_empty_example : file_contents_ro (mk_open_file [] 0 false false (Ok 0) (fun _ => Ok [])) false true = Raise ValueError.
Proof. reflexivity. Qed.
(** A file of 2 GiB or more that is not mapped is cut off without an error. *)
Theorem C97_large_refuted : forall f stream, linux_reads f -> 2147479552 < len (of_contents f) ->
  exists m, file_contents_ro f stream false = Ok m /\ len (contents_of m) = 2147479552 /\ contents_of m <> of_contents f.
Proof.
  intros f stream (Hp & Hs & Hr) Hl. unfold file_contents_ro, read_manually. rewrite Hs. cbn [bind]. rewrite Hr. cbn [bind].
  set (b := firstn _ _). assert (Hb : len b = 2147479552).
  { unfold b, len. rewrite firstn_length. unfold len in Hl |- *. lia. }
  exists (if stream then Buffer b else Plain b). split; [now destruct stream|].
  assert (E : contents_of (if stream then Buffer b else Plain b) = b) by now destruct stream.
  rewrite E. split; [easy|]. intros E'. rewrite E' in Hb. lia.
Qed.
Print Assumptions C97_large_refuted.
Lemma C97_large_files d :
  let f := mk_open_file d 0 false false (Ok (len d)) (fun n => Ok (firstn (Z.to_nat (Z.min n 2147479552)) d)) in
  honest f /\ linux_reads f.
Proof.
  intros f. split; [|split; [reflexivity|split; reflexivity]].
  split; [cbn; lia|]. split; [now left|]. intros n. right. cbn [of_read of_pos of_contents f].
  assert (Hk : exists k, k = Z.to_nat (Z.min n 2147479552)) by now eexists. destruct Hk as (k & Hk). rewrite <- Hk.
  exists (firstn k d), (skipn k d). split; [reflexivity|].
  split; [cbn [Z.to_nat skipn]; now rewrite firstn_skipn|]. unfold len. rewrite firstn_length. lia.
Qed.
Example C97_large_example : exists f, honest f /\ linux_reads f /\ 2147479552 < len (of_contents f).
Proof.
  assert (H : exists d : bytes, 2147479552 < len d).
  { generalize (len_repeat Z 7 (Z.to_nat 2147483648)). generalize (repeat 7 (Z.to_nat 2147483648)). intros d Hd. exists d. lia. }
  destruct H as (d & Hd). destruct (C97_large_files d) as (H1 & H2). eexists. split; [exact H1|]. split; [exact H2|exact Hd].
Qed.
(** A descriptor that has been read from gives, unless it is mapped, only the rest. *)
Theorem C97_position_refuted : exists f, honest f /\ reads_fully f /\ of_contents f <> [] /\
  file_contents_ro f false false = Ok (Plain [3]) /\ file_contents_ro f false true = Ok (Mapped [1; 2; 3]).
Proof.
  exists (mk_open_file [1; 2; 3] 2 false false (Ok 3) (fun n => Ok (firstn (Z.to_nat n) [3]))).
  split; [|now repeat split]. split; [cbn; lia|]. split; [now left|]. intros n. right. cbn [of_read of_pos of_contents].
  exists (firstn (Z.to_nat n) [3]), (skipn (Z.to_nat n) [3]). split; [easy|]. split; [now rewrite firstn_skipn|].
  unfold len. rewrite firstn_length. lia.
Qed.
Print Assumptions C97_position_refuted.
(** So for every position but the start, and every file. *)
Theorem C97_every_position_refuted : forall f stream, reads_fully f -> of_contents f <> [] -> 0 < of_pos f ->
  exists m, file_contents_ro f stream false = Ok m /\ contents_of m = skipn (Z.to_nat (of_pos f)) (of_contents f) /\
    contents_of m <> of_contents f.
Proof.
  intros f stream (Hs & Hr) Hn Hp. unfold file_contents_ro, read_manually. rewrite Hs. cbn [bind]. rewrite Hr. cbn [bind].
  set (b := skipn _ _). exists (if stream then Buffer b else Plain b). split; [now destruct stream|].
  assert (E : contents_of (if stream then Buffer b else Plain b) = b) by now destruct stream.
  rewrite E. split; [easy|]. intros E'. assert (H : length b = (length (of_contents f) - Z.to_nat (of_pos f))%nat) by (unfold b; now rewrite skipn_length).
  rewrite E' in H. destruct (of_contents f); [easy|]. cbn [length] in H. lia.
Qed.
Print Assumptions C97_every_position_refuted.
Example C97_every_position_example :
  let f := mk_open_file [1; 2; 3] 2 false false (Ok 3) (fun n => Ok (firstn (Z.to_nat n) [3])) in
  reads_fully f /\ of_contents f <> [] /\ 0 < of_pos f /\ file_contents_ro f true false = Ok (Buffer [3]).
Proof. now repeat split. Qed.
(** By path: a file that was opened is closed again, whatever happens. *)
Theorem C97_closed : forall opened closing stream allow_mmap r events,
  file_contents_ro_filepath opened closing stream allow_mmap = (r, events) ->
  (forall f, opened = Ok f -> events = [Opened; Closed] /\ (closing = Ok tt -> r = file_contents_ro f stream allow_mmap)) /\
  (forall e, opened = Raise e -> events = [] /\ r = Raise e).
Proof.
  intros opened closing stream allow r events H. unfold file_contents_ro_filepath in H.
  destruct opened; injection H as <- <-; (split; intros x E; [|]); try discriminate; injection E as ->; split; try easy. now intros ->.
Qed.
Print Assumptions C97_closed.
Example C97_closed_example : file_contents_ro_filepath
    (Ok (mk_open_file [1] 0 true true (Raise OSError) (fun _ => Raise OSError))) (Ok tt) false true
  = (Raise OSError, [Opened; Closed]).
Proof. reflexivity. Qed.

(** ** C98 *)
(** Writing to an in-memory file: the bytes written are found where they were written, a gap
    before them is zeros, everything else is as it was. *)
Theorem C98_write : forall b d i, 0 <= bio_pos b -> d <> [] -> 0 <= i ->
  bio_pos (bio_write b d) = bio_pos b + len d /\
  bio_len (bio_write b d) = Z.max (bio_len b) (bio_pos b + len d) /\
  (forall x, bio_pos b <= i -> index d (i - bio_pos b) = Ok x -> bio_item (bio_write b d) i = Ok x) /\
  (i < bio_pos b \/ bio_pos b + len d <= i ->
     bio_item (bio_write b d) i = if (bio_len b <=? i) && (i <? bio_pos b) then Ok 0 else bio_item b i).
Proof.
  intros [old pos] d i Hp Hd Hi. cbn [bio_pos bio_data] in *. unfold bio_write, bio_len, bio_item. cbn [bio_pos bio_data].
  assert (Hd0 : 0 < len d) by (destruct d; [easy|rewrite len_cons; pose proof (len_nonneg _ d); lia]).
  replace (len d =? 0) with false by lia. cbn [bio_pos bio_data].
  rewrite slice_to_spec, slice_from_spec by lia.
  set (z := repeat 0 (Z.to_nat (pos - len old))).
  assert (H1 : len (firstn (Z.to_nat pos) old ++ z) = pos).
  { unfold z. rewrite len_app, len_repeat. rewrite len_firstn. pose proof (len_nonneg _ old). lia. }
  assert (HL : len (firstn (Z.to_nat pos) old ++ z ++ d ++ skipn (Z.to_nat (pos + len d)) old) = Z.max (len old) (pos + len d)).
  { rewrite app_assoc. unfold len in *. rewrite !app_length in *. rewrite skipn_length. lia. }
  split; [easy|]. split; [exact HL|]. split.
  - intros x Hi2 Hx. destruct (index_ok_split _ _ (i - pos) x ltac:(lia) Hx) as (u & v & -> & Hu).
    rewrite app_assoc. rewrite <- (app_assoc u). cbn [app]. rewrite (app_assoc _ u). apply index_app. rewrite len_app. lia.
  - intros Ho. rewrite app_assoc.
    destruct (i <? pos) eqn:Ei.
    + unfold index. rewrite app_assoc in HL. rewrite HL. replace (i <? 0) with false by lia.
      replace ((0 <=? i) && (i <? Z.max (len old) (pos + len d))) with true by lia.
      rewrite nth_error_app1 by (unfold len in *; lia).
      destruct (len old <=? i) eqn:Eo; cbn [andb].
      * rewrite nth_error_app2 by (rewrite firstn_length; unfold len in *; lia).
        unfold z. rewrite nth_error_repeat; [easy|]. rewrite firstn_length. unfold len in *. lia.
      * replace ((0 <=? i) && (i <? len old)) with true by lia.
        rewrite nth_error_app1 by (rewrite firstn_length; unfold len in *; lia).
        rewrite <- (firstn_skipn (Z.to_nat pos) old) at 2. rewrite nth_error_app1 by (rewrite firstn_length; unfold len in *; lia). easy.
    + replace ((len old <=? i) && false) with false by now destruct (len old <=? i).
      unfold index. rewrite app_assoc in HL. rewrite HL. replace (i <? 0) with false by lia.
      destruct (i <? len old) eqn:Eo.
      * replace ((0 <=? i) && (i <? Z.max (len old) (pos + len d))) with true by lia.
        replace ((0 <=? i) && true) with true by lia.
        rewrite nth_error_app2 by (unfold len in *; lia). rewrite nth_error_app2 by (unfold len in *; lia).
        assert (EN : nth_error old (Z.to_nat i) = nth_error (skipn (Z.to_nat (pos + len d)) old) (Z.to_nat i - Z.to_nat (pos + len d))).
        { rewrite <- (firstn_skipn (Z.to_nat (pos + len d)) old) at 1. rewrite nth_error_app2 by (rewrite firstn_length; unfold len in *; lia).
          f_equal. rewrite firstn_length. unfold len in *. lia. }
        rewrite EN. replace (Z.to_nat i - length (firstn (Z.to_nat pos) old ++ z) - length d)%nat with (Z.to_nat i - Z.to_nat (pos + len d))%nat by (unfold len in *; lia). easy.
      * replace ((0 <=? i) && (i <? Z.max (len old) (pos + len d))) with false by lia.
        replace ((0 <=? i) && false) with false by lia. easy.
Qed.
Print Assumptions C98_write.
(** Reading gives the bytes from the position on, and moves behind them. *)
Theorem C98_read : forall b n, 0 <= bio_pos b ->
  exists d b', bio_read b n = (d, b') /\ bio_data b' = bio_data b /\ bio_pos b' = bio_pos b + len d /\
    len d = (let left := Z.max 0 (bio_len b - bio_pos b) in if n <? 0 then left else Z.min n left) /\
    forall i, 0 <= i < len d -> index d i = bio_item b (bio_pos b + i).
Proof.
  intros [data pos] n Hp. cbn [bio_pos] in Hp. unfold bio_read, bio_len, bio_item. cbn [bio_pos bio_data].
  eexists _, _. split; [reflexivity|]. cbn [bio_pos bio_data]. split; [easy|]. split; [easy|].
  assert (HX : forall m, 0 <= m -> let d := firstn (Z.to_nat m) (skipn (Z.to_nat pos) data) in
    len d = Z.min m (Z.max 0 (len data - pos)) /\ forall i, 0 <= i < len d -> index d i = index data (pos + i)).
  { intros m Hm d. assert (Hl : len d = Z.min m (Z.max 0 (len data - pos))).
    { unfold d, len. rewrite firstn_length, skipn_length. lia. }
    split; [exact Hl|]. intros i Hi. unfold index.
    replace (i <? 0) with false by lia. replace (pos + i <? 0) with false by lia.
    replace ((0 <=? i) && (i <? len d)) with true by lia. replace ((0 <=? pos + i) && (pos + i <? len data)) with true by lia.
    replace (nth_error data (Z.to_nat (pos + i))) with (nth_error d (Z.to_nat i)); [easy|].
    unfold d. rewrite <- (firstn_skipn (Z.to_nat pos) data) at 2. rewrite nth_error_app2 by (rewrite firstn_length; unfold len in *; lia).
    rewrite <- (firstn_skipn (Z.to_nat m) (skipn (Z.to_nat pos) data)) at 2. rewrite firstn_length.
    rewrite nth_error_app1 by (rewrite firstn_length, skipn_length; unfold len in *; lia). f_equal. unfold len in *. lia. }
  destruct (n <? 0) eqn:En.
  - rewrite slice_from_spec by lia. specialize (HX (Z.max 0 (len data - pos)) ltac:(lia)). cbn zeta in HX.
    rewrite firstn_all2 in HX by (rewrite skipn_length; unfold len in *; lia). destruct HX as (H1 & H2). split; [lia|exact H2].
  - rewrite slice_spec by lia. replace (pos + n - pos) with n by lia. apply HX. lia.
Qed.
Print Assumptions C98_read.
Example C98_example :
  exists b, bio_new (PBytes [1; 2]) = Ok b /\
  exists b', bio_seek b 4 = Ok b' /\ bio_data (bio_write b' [9; 8]) = [1; 2; 0; 0; 9; 8] /\
  fst (bio_read b 5) = [1; 2].
Proof. do 2 (eexists; split; [reflexivity|]). now split. Qed.
(** The constructor's default is text, which is refused. *)
Theorem C98_default_refuted : bio_new bio_default = Raise TypeError.
Proof. reflexivity. Qed.
Print Assumptions C98_default_refuted.

(** byte_ord gives the number of a byte, given as a number or as bytes of length one. *)
Theorem C98_byte_ord : forall x,
  byte_ord (ONum x) = ONum x /\ byte_ord (OText (PBytes [x])) = ONum x /\
  (forall b, len b <> 1 -> byte_ord (OText (PBytes b)) = OText (PBytes b)).
Proof.
  intros x. split; [easy|]. split; [easy|]. intros [|y [|z b]] H; [easy|elim H; reflexivity|easy].
Qed.
Print Assumptions C98_byte_ord.
Example C98_byte_ord_example : byte_ord (OText (PBytes [200])) = ONum 200.
Proof. reflexivity. Qed.

(** A NullStream takes all bytes, but what it gives is text, not bytes. *)
Theorem C98_null_refuted : forall n d, null_write d = len d /\ forall b, null_read n <> PBytes b.
Proof. intros n d. now split. Qed.
Print Assumptions C98_null_refuted.

(** A path relative to a database's root has the root's names and then its own; an absolute
    path is itself, whatever the root. *)
Lemma names_from_app a b cur : names_from cur (a ++ 47 :: b) = names_from cur a ++ names_from [] b.
Proof.
  revert cur. induction a as [|x a IH]; intros cur; cbn [app names_from].
  - rewrite Z.eqb_refl. destruct cur; [easy|]. reflexivity.
  - destruct (x =? 47); [|apply IH]. destruct cur; [apply IH|]. cbn [app]. now rewrite IH.
Qed.
Theorem C98_db_path : forall root rela,
  (~ absolute rela -> path_names (UtilModel.db_path root rela) = path_names root ++ path_names rela) /\
  (absolute rela -> UtilModel.db_path root rela = rela).
Proof.
  intros root rela. unfold absolute, UtilModel.db_path, path_names, slash_char.
  assert (E : path_join root rela = if match hd_error rela with Some x => x =? 47 | None => false end then rela
    else match List.rev root with [] => rela | x :: _ => if x =? 47 then root ++ rela else root ++ 47 :: rela end).
  { unfold path_join, slash_char.
    assert (E2 : forall A (u v w : A), match List.rev root with [] => u | 47 :: _ => v | _ :: _ => w end = match List.rev root with [] => u | x :: _ => if x =? 47 then v else w end).
    { intros A u v w. destruct (List.rev root) as [|y r]; [easy|]. destruct (y =? 47) eqn:E; [apply Z.eqb_eq in E; now subst y|].
      destruct y as [|y|y]; try easy. do 6 (destruct y as [y|y|]; try easy). }
    destruct rela as [|x r]; cbn [hd_error]; [apply E2|]. destruct (x =? 47) eqn:Ex; [apply Z.eqb_eq in Ex; now subst x|].
    rewrite <- E2. destruct x as [|x|x]; try easy. do 6 (destruct x as [x|x|]; try easy). }
  rewrite E. split.
  - intros Hn. replace (match hd_error rela with Some x => x =? 47 | None => false end) with false.
    2:{ destruct (hd_error rela) as [x|]; [|easy]. destruct (x =? 47) eqn:Ex; [|easy]. elim Hn. f_equal. lia. }
    destruct (List.rev root) as [|x r] eqn:Er.
    { apply (f_equal (@List.rev Z)) in Er. rewrite rev_involutive in Er. now subst root. }
    apply (f_equal (@List.rev Z)) in Er. rewrite rev_involutive in Er. cbn [List.rev] in Er.
    destruct (x =? 47) eqn:Ex.
    + apply Z.eqb_eq in Ex. subst x root. rewrite <- app_assoc. cbn [app]. rewrite !names_from_app. cbn [names_from]. now rewrite app_nil_r.
    + apply names_from_app.
  - intros ->. cbn. easy.
Qed.
Print Assumptions C98_db_path.
Example C98_db_path_example : UtilModel.db_path [47; 97] [98; 47; 99] = [47; 97; 47; 98; 47; 99] /\
  path_names [47; 97; 47; 98; 47; 99] = [[97]; [98]; [99]] /\ ~ absolute [98; 47; 99].
Proof. split; [reflexivity|]. split; [reflexivity|]. intros H. discriminate H. Qed.
