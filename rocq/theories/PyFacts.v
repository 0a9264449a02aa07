(** Lemmas about the Python prelude. *)
From Coq Require Import ZifyBool ZifyNat.
From Verif Require Import Py.
Ltac Zify.zify_post_hook ::= Z.div_mod_to_equations.

Lemma len_nil A : len (@nil A) = 0.
Proof. reflexivity. Qed.
Lemma len_cons A (x : A) l : len (x :: l) = len l + 1.
Proof. unfold len; simpl length; lia. Qed.
Lemma len_app A (a b : list A) : len (a ++ b) = len a + len b.
Proof. unfold len; rewrite app_length; lia. Qed.
Lemma len_nonneg A (l : list A) : 0 <= len l.
Proof. unfold len; lia. Qed.
Lemma len_firstn A n (l : list A) : len (firstn n l) = Z.min (Z.of_nat n) (len l).
Proof. unfold len; rewrite firstn_length; lia. Qed.
Lemma len_skipn A n (l : list A) : len (skipn n l) = Z.max 0 (len l - Z.of_nat n).
Proof. unfold len; rewrite skipn_length; lia. Qed.
Lemma len_0_nil A (l : list A) : len l = 0 -> l = [].
Proof. destruct l; [easy|]. rewrite len_cons. pose proof (len_nonneg _ l). lia. Qed.
Lemma len_repeat A (x : A) n : len (repeat x n) = Z.of_nat n.
Proof. unfold len; now rewrite repeat_length. Qed.
Lemma len_rev A (l : list A) : len (rev l) = len l.
Proof. unfold len; now rewrite rev_length. Qed.
Lemma len_map A B (f : A -> B) l : len (map f l) = len l.
Proof. unfold len; now rewrite map_length. Qed.

Lemma is_bytes_app a b : is_bytes (a ++ b) <-> is_bytes a /\ is_bytes b.
Proof. apply Forall_app. Qed.
Lemma is_bytes_cons a b : is_bytes (a :: b) <-> is_byte a /\ is_bytes b.
Proof. split; [intros H; inversion H; auto | intros [? ?]; now constructor]. Qed.

Lemma is_bytes_firstn n l : is_bytes l -> is_bytes (firstn n l).
Proof. intros H. rewrite <- (firstn_skipn n l) in H. now apply is_bytes_app in H. Qed.
Lemma is_bytes_skipn n l : is_bytes l -> is_bytes (skipn n l).
Proof. intros H. rewrite <- (firstn_skipn n l) in H. now apply is_bytes_app in H. Qed.

Lemma app_inj_len A (a b c d : list A) : a ++ b = c ++ d -> len a = len c -> a = c /\ b = d.
Proof.
  unfold len. revert c; induction a as [|x a IH]; intros [|y c] H Hl; simpl in Hl; try lia; [easy|].
  simpl in H. injection H as -> H. destruct (IH c H) as [-> ->]; [lia|easy].
Qed.
Lemma skipn_skipn A (l : list A) n m : skipn n (skipn m l) = skipn (n + m) l.
Proof.
  revert m; induction l as [|x l IH]; intros m.
  - now rewrite !skipn_nil.
  - destruct m; [now rewrite Nat.add_0_r|].
    rewrite Nat.add_succ_r. cbn [skipn]. apply IH.
Qed.

(** Slices *)
Lemma slice_spec A (l : list A) a b :
  0 <= a -> a <= b ->
  slice l a b = firstn (Z.to_nat (b - a)) (skipn (Z.to_nat a) l).
Proof.
  intros Ha Hb. unfold slice, norm_idx. pose proof (len_nonneg _ l) as Hl.
  destruct (Z.ltb_spec a 0), (Z.ltb_spec b 0); try lia.
  destruct (Z.le_gt_cases (len l) a).
  - rewrite (Z.min_r a), (Z.min_r b) by lia.
    rewrite !skipn_all2 by (unfold len in *; lia). now rewrite !firstn_nil.
  - rewrite (Z.min_l a) by lia.
    destruct (Z.le_gt_cases b (len l)).
    + now rewrite (Z.min_l b) by lia.
    + rewrite (Z.min_r b) by lia.
      rewrite !firstn_all2; trivial; rewrite skipn_length; unfold len in *; lia.
Qed.
Lemma slice_to_spec A (l : list A) b : 0 <= b -> slice_to l b = firstn (Z.to_nat b) l.
Proof.
  intros Hb. unfold slice_to, norm_idx.
  destruct (Z.ltb_spec b 0); try lia.
  destruct (Z.le_gt_cases b (len l)).
  - now rewrite Z.min_l by lia.
  - rewrite Z.min_r by lia. rewrite !firstn_all2; trivial; unfold len in *; lia.
Qed.
Lemma slice_from_spec A (l : list A) a : 0 <= a -> slice_from l a = skipn (Z.to_nat a) l.
Proof.
  intros Hb. unfold slice_from, norm_idx.
  destruct (Z.ltb_spec a 0); try lia.
  destruct (Z.le_gt_cases a (len l)).
  - now rewrite Z.min_l by lia.
  - rewrite Z.min_r by lia. rewrite !skipn_all2; trivial; unfold len in *; lia.
Qed.
Lemma slice_mid A (a b c : list A) x y :
  x = len a -> y = len a + len b -> slice (a ++ b ++ c) x y = b.
Proof.
  intros -> ->. rewrite slice_spec; pose proof (len_nonneg _ a); pose proof (len_nonneg _ b); try lia.
  replace (len a + len b - len a) with (len b) by lia.
  unfold len. rewrite !Nat2Z.id, skipn_app, skipn_all, Nat.sub_diag. simpl.
  rewrite firstn_app, firstn_all, Nat.sub_diag. simpl. now rewrite app_nil_r.
Qed.
Lemma slice_from_app A (a b : list A) x : x = len a -> slice_from (a ++ b) x = b.
Proof.
  intros ->. rewrite slice_from_spec by apply len_nonneg. unfold len.
  rewrite Nat2Z.id, skipn_app, skipn_all, Nat.sub_diag. reflexivity.
Qed.
Lemma slice_to_app A (a b : list A) x : x = len a -> slice_to (a ++ b) x = a.
Proof.
  intros ->. rewrite slice_to_spec by apply len_nonneg. unfold len.
  rewrite Nat2Z.id, firstn_app, firstn_all, Nat.sub_diag. simpl. apply app_nil_r.
Qed.
Lemma len_slice A (l : list A) a b :
  0 <= a -> a <= b -> b <= len l -> len (slice l a b) = b - a.
Proof.
  intros. rewrite slice_spec by lia. rewrite len_firstn, len_skipn. lia.
Qed.
Lemma len_slice_le A (l : list A) a b :
  0 <= a -> a <= b -> len (slice l a b) <= b - a.
Proof.
  intros. rewrite slice_spec by lia. rewrite len_firstn, len_skipn. lia.
Qed.
Lemma slice_nil_ge A (l : list A) a b : len l <= a -> slice l a b = [].
Proof.
  intros H. unfold slice, norm_idx. pose proof (len_nonneg _ l).
  destruct (Z.ltb_spec a 0); try lia. rewrite (Z.min_r a) by lia.
  rewrite skipn_all2 by (unfold len; lia). apply firstn_nil.
Qed.
Lemma slice_app_l A (p q : list A) a b :
  0 <= a -> a <= b -> b <= len p -> slice (p ++ q) a b = slice p a b.
Proof.
  intros. rewrite !slice_spec by lia. rewrite skipn_app, firstn_app.
  rewrite skipn_length.
  replace (Z.to_nat (b - a) - (length p - Z.to_nat a))%nat with O by (unfold len in *; lia).
  simpl. apply app_nil_r.
Qed.
Lemma slice_app_r A (p q : list A) a b :
  len p <= a -> a <= b -> slice (p ++ q) a b = slice q (a - len p) (b - len p).
Proof.
  intros. pose proof (len_nonneg _ p). rewrite !slice_spec by lia. rewrite skipn_app.
  rewrite (skipn_all2 p) by (unfold len in *; lia). simpl.
  f_equal. lia. f_equal. unfold len in *; lia.
Qed.
Lemma slice_full A (l : list A) b : b = len l -> slice l 0 b = l.
Proof.
  intros ->. rewrite slice_spec by (pose proof (len_nonneg _ l); lia).
  simpl. rewrite Z.sub_0_r. unfold len. rewrite Nat2Z.id. apply firstn_all.
Qed.
Lemma slice_split A (l : list A) a b c :
  0 <= a -> a <= b -> b <= c -> slice l a c = slice l a b ++ slice l b c.
Proof.
  intros. rewrite !slice_spec by lia.
  rewrite <- (firstn_skipn (Z.to_nat (b - a)) (firstn (Z.to_nat (c - a)) (skipn (Z.to_nat a) l))).
  rewrite firstn_firstn, Nat.min_l by lia.
  rewrite skipn_firstn_comm, skipn_skipn.
  f_equal. f_equal; [lia | f_equal; lia].
Qed.

(** Indexing *)
Lemma index_nth A (l : list A) i d :
  0 <= i < len l -> index l i = Ok (nth (Z.to_nat i) l d).
Proof.
  intros H. unfold index. destruct (Z.ltb_spec i 0); try lia.
  destruct (Z.leb_spec 0 i), (Z.ltb_spec i (len l)); simpl; try lia.
  rewrite (nth_error_nth' l d); [easy|unfold len in *; lia].
Qed.
Lemma index_app A (a b : list A) x i : i = len a -> index (a ++ x :: b) i = Ok x.
Proof.
  intros ->. pose proof (len_nonneg _ a). rewrite (index_nth _ _ _ x).
  - unfold len. rewrite Nat2Z.id, app_nth2, Nat.sub_diag; [easy|lia].
  - rewrite len_app, len_cons. pose proof (len_nonneg _ b). lia.
Qed.
Lemma index_out A (l : list A) i : len l <= i -> index l i = Raise IndexError.
Proof.
  intros H. pose proof (len_nonneg _ l). unfold index.
  destruct (Z.ltb_spec i 0); try lia.
  destruct (Z.leb_spec 0 i), (Z.ltb_spec i (len l)); simpl; try lia; easy.
Qed.
Lemma index_ok_range A (l : list A) i x : 0 <= i -> index l i = Ok x -> i < len l.
Proof.
  intros Hi H. destruct (Z.lt_ge_cases i (len l)) as [|Hge]; [easy|].
  rewrite index_out in H by lia. discriminate.
Qed.
Lemma index_ok_split A (l : list A) i x :
  0 <= i -> index l i = Ok x -> exists a b, l = a ++ x :: b /\ len a = i.
Proof.
  intros Hi H. pose proof (index_ok_range _ _ _ _ Hi H) as Hr.
  unfold index in H. destruct (Z.ltb_spec i 0); try lia.
  destruct (Z.leb_spec 0 i), (Z.ltb_spec i (len l)); simpl in H; try lia.
  destruct (nth_error l (Z.to_nat i)) eqn:E; [|discriminate]. injection H as ->.
  destruct (nth_error_split l _ E) as (a & b & -> & Hl).
  exists a, b. split; [easy|]. unfold len. lia.
Qed.

Lemma bind_ok_inv A B (r : res A) (f : A -> res B) b :
  bind r f = Ok b -> exists a, r = Ok a /\ f a = Ok b.
Proof. destruct r; simpl; intros H; try discriminate. eauto. Qed.

(** Comparison *)
Lemma beq_refl a : beq a a = true.
Proof. induction a; simpl; [easy|]. rewrite Z.eqb_refl. easy. Qed.
Lemma beq_eq a b : beq a b = true <-> a = b.
Proof.
  split; [|intros ->; apply beq_refl].
  revert b; induction a as [|x a IH]; intros [|y b]; simpl; try easy.
  intros H. apply andb_true_iff in H as [H1 H2]. apply Z.eqb_eq in H1 as ->.
  f_equal. now apply IH.
Qed.
Lemma beq_neq a b : beq a b = false <-> a <> b.
Proof.
  rewrite <- not_true_iff_false, beq_eq. tauto.
Qed.
Lemma blt_irrefl a : blt a a = false.
Proof. induction a; simpl; [easy|]. rewrite Z.ltb_irrefl, Z.eqb_refl. easy. Qed.
Lemma blt_trans a b c : blt a b = true -> blt b c = true -> blt a c = true.
Proof.
  revert b c; induction a as [|x a IH]; intros [|y b] [|z c]; simpl; try easy.
  destruct (Z.ltb_spec x y), (Z.ltb_spec y z), (Z.ltb_spec x z); try easy; try lia;
  destruct (Z.eqb_spec x y), (Z.eqb_spec y z), (Z.eqb_spec x z); try easy; try lia.
  apply IH.
Qed.
Lemma blt_antisym a b : blt a b = true -> blt b a = false.
Proof.
  intros H. destruct (blt b a) eqn:E; [|easy].
  rewrite <- (blt_irrefl a). symmetry. eapply blt_trans; eauto.
Qed.
Lemma blt_total a b : blt a b = false -> beq a b = false -> blt b a = true.
Proof.
  revert b; induction a as [|x a IH]; intros [|y b]; simpl; try easy.
  destruct (Z.ltb_spec x y), (Z.ltb_spec y x); try easy; try lia.
  destruct (Z.eqb_spec x y), (Z.eqb_spec y x); try easy; try lia.
  simpl. apply IH.
Qed.
Lemma startswith_app p r : startswith (p ++ r) p = true.
Proof. induction p; simpl; [now destruct r|]. rewrite Z.eqb_refl. easy. Qed.
Lemma startswith_iff a p : startswith a p = true <-> exists r, a = p ++ r.
Proof.
  split; [|intros [r ->]; apply startswith_app].
  revert a; induction p as [|y p IH]; intros a; simpl.
  - intros _. now exists a.
  - destruct a as [|x a]; [easy|]. intros H.
    apply andb_true_iff in H as [H1 H2]. apply Z.eqb_eq in H1 as ->.
    destruct (IH _ H2) as [r ->]. now exists r.
Qed.

(** find / split *)
Lemma find_from_app b a l i : ~ In b a -> find_from b (a ++ b :: l) i = i + len a.
Proof.
  revert i; induction a as [|x a IH]; intros i H; simpl.
  - rewrite Z.eqb_refl. rewrite len_nil. lia.
  - destruct (Z.eqb_spec x b) as [->|]; [exfalso; apply H; now left|].
    rewrite IH by (intros ?; apply H; now right). rewrite len_cons. lia.
Qed.
Lemma find_app b a l : ~ In b a -> find b (a ++ b :: l) = len a.
Proof. intros. unfold find. rewrite find_from_app by easy. lia. Qed.
Lemma find_from_none b l i : ~ In b l -> find_from b l i = -1.
Proof.
  revert i; induction l as [|x l IH]; intros i H; simpl; [easy|].
  destruct (Z.eqb_spec x b) as [->|]; [exfalso; apply H; now left|].
  apply IH. intros ?; apply H; now right.
Qed.
Lemma split_none b l : ~ In b l -> split b l = [l].
Proof.
  induction l as [|x l IH]; intros H; simpl; [easy|].
  destruct (Z.eqb_spec x b) as [->|]; [exfalso; apply H; now left|].
  rewrite IH by (intros ?; apply H; now right). easy.
Qed.
Lemma split_app b a l : ~ In b a -> split b (a ++ b :: l) = a :: split b l.
Proof.
  induction a as [|x a IH]; intros H; simpl.
  - now rewrite Z.eqb_refl.
  - destruct (Z.eqb_spec x b) as [->|]; [exfalso; apply H; now left|].
    rewrite IH by (intros ?; apply H; now right). easy.
Qed.

(** Decimal formatting and parsing *)
Lemma dec_fuel_acc fuel n acc : dec_fuel fuel n acc = dec_fuel fuel n [] ++ acc.
Proof.
  revert n acc; induction fuel as [|f IH]; intros n acc; simpl; [easy|].
  destruct (n / 10 =? 0); [easy|].
  rewrite (IH _ (_ :: acc)), (IH _ [_]). now rewrite <- app_assoc.
Qed.
Lemma dec_fuel_digits fuel n acc :
  0 <= n -> Forall (fun c => 48 <= c <= 57) acc ->
  Forall (fun c => 48 <= c <= 57) (dec_fuel fuel n acc).
Proof.
  revert n acc; induction fuel as [|f IH]; intros n acc Hn Ha; simpl; [easy|].
  assert (Forall (fun c => 48 <= c <= 57) (48 + n mod 10 :: acc)).
  { constructor; [|easy]. lia. }
  destruct (n / 10 =? 0); [easy|]. apply IH; [lia|easy].
Qed.
Lemma dec_nonneg_digits n : 0 <= n -> Forall (fun c => 48 <= c <= 57) (dec_nonneg n).
Proof. intros. apply dec_fuel_digits; [lia|constructor]. Qed.
Lemma dec_nonneg_nonnil n : dec_nonneg n <> [].
Proof.
  unfold dec_nonneg. cbn [dec_fuel]. destruct (n / 10 =? 0); [easy|].
  rewrite dec_fuel_acc. intros H. apply app_eq_nil in H as [_ H]. discriminate.
Qed.
Lemma parse_digits_app l1 l2 acc e :
  Forall (fun c => 48 <= c <= 57) l1 -> l1 <> [] ->
  parse_digits (l1 ++ l2) acc e =
  parse_digits l2 (fold_left (fun a c => 10 * a + (c - 48)) l1 acc) false.
Proof.
  intros H. revert acc e; induction l1 as [|c l1 IH]; intros acc e Hn; [easy|].
  inversion H as [|? ? Hc Hl]; subst. cbn [app parse_digits fold_left].
  unfold is_digit. destruct (Z.leb_spec 48 c), (Z.leb_spec c 57); simpl; try lia.
  destruct l1 as [|c' l1]; [easy|]. now apply IH.
Qed.
Lemma dec_fuel_value fuel n acc :
  0 <= n -> n < 2 ^ Z.of_nat fuel -> (0 < fuel)%nat ->
  forall a, fold_left (fun a c => 10 * a + (c - 48)) (dec_fuel fuel n acc) a =
            fold_left (fun a c => 10 * a + (c - 48)) acc (fold_left (fun a c => 10 * a + (c - 48)) (dec_fuel fuel n []) a).
Proof.
  intros. rewrite dec_fuel_acc, fold_left_app. easy.
Qed.
Lemma dec_fuel_value0 fuel n :
  0 <= n -> n < 2 ^ Z.of_nat fuel -> (0 < fuel)%nat ->
  fold_left (fun a c => 10 * a + (c - 48)) (dec_fuel fuel n []) 0 = n.
Proof.
  revert n; induction fuel as [|f IH]; intros n Hn Hlt Hf; [lia|].
  cbn [dec_fuel].
  destruct (Z.eqb_spec (n / 10) 0) as [E|E].
  - cbn [fold_left]. lia.
  - rewrite dec_fuel_acc, fold_left_app.
    rewrite IH.
    + cbn [fold_left]. lia.
    + lia.
    + rewrite Nat2Z.inj_succ, Z.pow_succ_r in Hlt by lia. lia.
    + destruct f; [|lia]. simpl in Hlt. lia.
Qed.
Lemma parse_dec n : 0 <= n -> parse_digits (dec_nonneg n) 0 true = Some n.
Proof.
  intros Hn. rewrite <- (app_nil_r (dec_nonneg n)).
  rewrite parse_digits_app by (auto using dec_nonneg_digits, dec_nonneg_nonnil).
  cbn [parse_digits]. f_equal. apply dec_fuel_value0; try lia.
  rewrite Nat2Z.inj_succ. rewrite Z2Nat.id by apply Z.log2_nonneg.
  destruct (Z.eq_dec n 0) as [->|]; [reflexivity|].
  apply Z.log2_spec. lia.
Qed.
Lemma lstrip_digits l : Forall (fun c => 48 <= c <= 57) l -> lstrip l = l.
Proof.
  intros H; destruct l as [|c l]; [easy|]. inversion H; subst. simpl.
  unfold is_space. destruct (Z.eqb_spec c 32), (Z.leb_spec 9 c), (Z.leb_spec c 13); simpl; try lia; easy.
Qed.
Lemma py_int_fmt n : 0 <= n -> py_int (fmt_i n) = Ok n.
Proof.
  intros Hn. unfold fmt_i. destruct (Z.ltb_spec n 0); [lia|].
  unfold py_int. pose proof (dec_nonneg_digits n Hn) as Hd.
  assert (strip (dec_nonneg n) = dec_nonneg n) as ->.
  { unfold strip. rewrite (lstrip_digits (dec_nonneg n)) by easy.
    rewrite lstrip_digits by now apply Forall_rev. apply rev_involutive. }
  pose proof (parse_dec n Hn) as Hp.
  destruct (dec_nonneg n) as [|c l]; [discriminate|].
  inversion Hd; subst.
  assert (c = 48 \/ c = 49 \/ c = 50 \/ c = 51 \/ c = 52 \/ c = 53 \/ c = 54 \/ c = 55 \/ c = 56 \/ c = 57) as Hc by lia.
  repeat (destruct Hc as [->|Hc]; [rewrite Hp; reflexivity|]). subst c. rewrite Hp. reflexivity.
Qed.

(** Big-endian *)
Lemma be_enc_len n v : len (be_enc n v) = Z.of_nat n.
Proof. induction n; simpl be_enc; [easy|]. rewrite len_cons, IHn. lia. Qed.
Lemma be_enc_length n v : length (be_enc n v) = n.
Proof. induction n; simpl be_enc; [easy|]. simpl. now rewrite IHn. Qed.
Lemma be_enc_bytes n v : is_bytes (be_enc n v).
Proof.
  induction n; simpl; constructor; [|easy]. unfold is_byte.
  apply Z.mod_pos_bound. lia.
Qed.
Lemma be_dec_acc_enc n v acc :
  be_dec_acc (be_enc n v) acc = 256 ^ Z.of_nat n * acc + v mod 256 ^ Z.of_nat n.
Proof.
  revert acc; induction n as [|n IH]; intros acc; cbn [be_enc be_dec_acc].
  - simpl. rewrite Z.mod_1_r. destruct acc; lia.
  - rewrite IH. rewrite Nat2Z.inj_succ, Z.pow_succ_r by lia.
    set (P := 256 ^ Z.of_nat n). assert (0 < P) by (subst P; apply Z.pow_pos_nonneg; lia).
    rewrite (Z.mul_comm 256 P), (Z.rem_mul_r v P 256) by lia. ring.
Qed.
Lemma be_dec_enc n v : 0 <= v < 256 ^ Z.of_nat n -> be_dec (be_enc n v) = v.
Proof. intros H. unfold be_dec. rewrite be_dec_acc_enc, Z.mul_0_r, Z.mod_small; lia. Qed.
Lemma pack_be_ok n v b : pack_be n v = Ok b -> b = be_enc n v /\ 0 <= v < 256 ^ Z.of_nat n.
Proof.
  unfold pack_be. destruct (Z.leb_spec 0 v), (Z.ltb_spec v (256 ^ Z.of_nat n)); simpl; intros H1; try discriminate.
  injection H1 as <-. split; [easy|lia].
Qed.
Lemma pack_be_range n v : 0 <= v < 256 ^ Z.of_nat n -> pack_be n v = Ok (be_enc n v).
Proof.
  intros. unfold pack_be. destruct (Z.leb_spec 0 v), (Z.ltb_spec v (256 ^ Z.of_nat n)); simpl; try lia; easy.
Qed.
Lemma unpack_be_app n v a c off :
  0 <= v < 256 ^ Z.of_nat n -> off = len a ->
  unpack_be n (a ++ be_enc n v ++ c) off = Ok v.
Proof.
  intros Hv ->. unfold unpack_be. pose proof (len_nonneg _ a). pose proof (len_nonneg _ c).
  rewrite !len_app, be_enc_len.
  destruct (Z.leb_spec 0 (len a)), (Z.leb_spec (len a + Z.of_nat n) (len a + (Z.of_nat n + len c))); simpl; try lia.
  rewrite slice_mid; [|easy|now rewrite be_enc_len]. now rewrite be_dec_enc.
Qed.

(** Hex *)
Lemma bin_to_hex_len l : len (bin_to_hex l) = 2 * len l.
Proof. induction l; cbn [bin_to_hex]; rewrite ?len_cons; [easy|]. lia. Qed.
Lemma bin_to_hex_app a b : bin_to_hex (a ++ b) = bin_to_hex a ++ bin_to_hex b.
Proof. induction a; cbn [bin_to_hex app]; [easy|]. now rewrite IHa. Qed.
Lemma hex_val_digit v : 0 <= v < 16 -> hex_val (hex_digit v) = Some v.
Proof.
  intros H. unfold hex_digit, hex_val. destruct (Z.ltb_spec v 10).
  - replace ((48 <=? 48 + v) && (48 + v <=? 57)) with true by lia. f_equal; lia.
  - replace ((48 <=? 87 + v) && (87 + v <=? 57)) with false by lia.
    replace ((97 <=? 87 + v) && (87 + v <=? 102)) with true by lia. f_equal; lia.
Qed.
Lemma hex_to_bin_to_hex l : is_bytes l -> hex_to_bin (bin_to_hex l) = Ok l.
Proof.
  induction 1 as [|b l Hb Hl IH]; [easy|].
  cbn [bin_to_hex hex_to_bin].
  rewrite !hex_val_digit by (unfold is_byte in Hb; lia).
  rewrite IH. cbn [bind]. replace (16 * (b / 16) + b mod 16) with b by lia. easy.
Qed.
Definition is_lhex (c : Z) : Prop := 48 <= c <= 57 \/ 97 <= c <= 102.
Lemma hex_digit_val c v : is_lhex c -> hex_val c = Some v -> hex_digit v = c /\ 0 <= v < 16.
Proof.
  unfold is_lhex, hex_val, hex_digit. intros Hc.
  destruct Hc as [Hc|Hc].
  - replace ((48 <=? c) && (c <=? 57)) with true by lia.
    intros H; injection H as <-. destruct (Z.ltb_spec (c - 48) 10); lia.
  - replace ((48 <=? c) && (c <=? 57)) with false by lia.
    replace ((97 <=? c) && (c <=? 102)) with true by lia.
    intros H; injection H as <-. destruct (Z.ltb_spec (c - 87) 10); lia.
Qed.
Lemma is_lhex_val c : is_lhex c -> exists v, hex_val c = Some v.
Proof.
  unfold is_lhex, hex_val. intros Hc.
  destruct Hc as [Hc|Hc].
  - replace ((48 <=? c) && (c <=? 57)) with true by lia. eauto.
  - replace ((48 <=? c) && (c <=? 57)) with false by lia.
    replace ((97 <=? c) && (c <=? 102)) with true by lia. eauto.
Qed.
Lemma bin_to_hex_to_bin : forall n h, (length h <= n)%nat -> Forall is_lhex h -> Z.even (len h) = true ->
  exists b, hex_to_bin h = Ok b /\ bin_to_hex b = h /\ is_bytes b /\ 2 * len b = len h.
Proof.
  induction n as [|n IH]; intros h Hn Hh He.
  - destruct h; [|simpl in Hn; lia]. exists []. repeat split; constructor.
  - destruct h as [|a [|b h]].
    + exists []. repeat split; constructor.
    + discriminate.
    + inversion Hh as [|? ? Ha Hh']; subst. inversion Hh' as [|? ? Hb Hh'']; subst.
      destruct (is_lhex_val _ Ha) as [x Hx], (is_lhex_val _ Hb) as [y Hy].
      destruct (IH h) as (r & Hr & Hr2 & Hr3 & Hr4); [simpl in Hn; lia|easy| |].
      { rewrite !len_cons in He. rewrite <- He.
        replace (len h + 1 + 1) with (len h + 2 * 1) by lia. now rewrite Z.even_add_mul_2. }
      destruct (hex_digit_val _ _ Ha Hx) as [Hx1 Hx2], (hex_digit_val _ _ Hb Hy) as [Hy1 Hy2].
      exists (16 * x + y :: r). cbn [hex_to_bin]. rewrite Hx, Hy, Hr. cbn [bind].
      repeat split.
      * cbn [bin_to_hex]. f_equal; [rewrite <- Hx1; f_equal; lia|f_equal; [rewrite <- Hy1; f_equal; lia|easy]].
      * constructor; [unfold is_byte; lia|easy].
      * rewrite !len_cons. lia.
Qed.
Lemma bin_to_hex_inj a b : is_bytes a -> is_bytes b -> bin_to_hex a = bin_to_hex b -> a = b.
Proof.
  intros Ha Hb H. apply hex_to_bin_to_hex in Ha, Hb. rewrite H in Ha. congruence.
Qed.

(** Bit operations as arithmetic *)
Lemma land_127 c : Z.land c 127 = c mod 128.
Proof. change 127 with (Z.ones 7). rewrite Z.land_ones by lia. reflexivity. Qed.
Lemma land_15 c : Z.land c 15 = c mod 16.
Proof. change 15 with (Z.ones 4). rewrite Z.land_ones by lia. reflexivity. Qed.
Lemma land_7 c : Z.land c 7 = c mod 8.
Proof. change 7 with (Z.ones 3). rewrite Z.land_ones by lia. reflexivity. Qed.
Lemma land_pow2_testbit c k : 0 <= k -> (Z.land c (2 ^ k) =? 0) = negb (Z.testbit c k).
Proof.
  intros Hk. destruct (Z.testbit c k) eqn:E; simpl.
  - apply Z.eqb_neq. intros H.
    assert (Z.testbit (Z.land c (2 ^ k)) k = false) as H1 by (rewrite H; apply Z.bits_0).
    rewrite Z.land_spec, E, Z.pow2_bits_true in H1 by easy. discriminate.
  - apply Z.eqb_eq. apply Z.bits_inj'. intros n Hn.
    rewrite Z.land_spec, Z.bits_0, Z.pow2_bits_eqb by easy.
    destruct (Z.eqb_spec k n) as [->|]; [now rewrite E|apply andb_false_r].
Qed.
Lemma land_128_small c : 0 <= c < 128 -> (Z.land c 128 =? 0) = true.
Proof.
  intros. change 128 with (2 ^ 7). rewrite land_pow2_testbit by lia.
  assert (Z.testbit c 7 = false) as ->; [|reflexivity].
  apply Z.testbit_false; [lia|]. change (2 ^ 7) with 128. lia.
Qed.
Lemma land_128_big c : 128 <= c < 256 -> (Z.land c 128 =? 0) = false.
Proof.
  intros. change 128 with (2 ^ 7). rewrite land_pow2_testbit by lia.
  assert (Z.testbit c 7 = true) as ->; [|reflexivity].
  apply Z.testbit_true; [lia|]. change (2 ^ 7) with 128. lia.
Qed.
Lemma lor_disjoint_add a b k : 0 <= k -> 0 <= a < 2 ^ k -> Z.lor a (Z.shiftl b k) = a + Z.shiftl b k.
Proof.
  intros Hk Ha.
  assert (Z.land a (Z.shiftl b k) = 0) as E.
  { apply Z.bits_inj'. intros n Hn. rewrite Z.land_spec, Z.bits_0.
    destruct (Z.lt_ge_cases n k).
    - rewrite (Z.shiftl_spec_low b) by lia. apply andb_false_r.
    - destruct (Z.eq_dec a 0) as [->|]; [now rewrite Z.bits_0|].
      rewrite (Z.bits_above_log2 a); [easy|lia|].
      apply Z.lt_le_trans with k; [|lia]. apply Z.log2_lt_pow2; lia. }
  rewrite Z.add_nocarry_lxor, Z.lxor_lor by easy. easy.
Qed.

Lemma index_in A (l : list A) i : 0 <= i < len l -> exists x, index l i = Ok x.
Proof.
  intros Hi. unfold index, norm_idx. replace (i <? 0) with false by lia.
  replace ((0 <=? i) && (i <? len l)) with true by lia.
  destruct (nth_error l (Z.to_nat i)) as [x|] eqn:E; [now exists x|].
  apply nth_error_None in E. unfold len in Hi. lia.
Qed.
Lemma firstn_plus A (a b : nat) (l : list A) : firstn (a + b) l = firstn a l ++ firstn b (skipn a l).
Proof. revert l; induction a as [|a IH]; intros [|x l]; cbn; rewrite ?firstn_nil; try easy. now rewrite IH. Qed.
Lemma skipn_repeat A (x : A) n k : skipn k (repeat x n) = repeat x (n - k).
Proof. revert k; induction n as [|n IH]; intros [|k]; cbn; auto. Qed.
Lemma Forall2_length A B (P : A -> B -> Prop) l l' : Forall2 P l l' -> length l = length l'.
Proof. induction 1; cbn; auto. Qed.
