(** Proofs about reverse delta aggregation (DeltaModel.v, chunk lists). *)
From Coq Require Import ZifyBool ZifyNat.
From Verif Require Import Py PyFacts FunModel FunSpec FunProofs DeltaModel DeltaSpec DeltaProofs.
Ltac Zify.zify_post_hook ::= Z.div_mod_to_equations.

Fixpoint total (l : list chunk) : Z := match l with [] => 0 | d :: l' => c_ts d + total l' end.

Lemma total_app a b : total (a ++ b) = total a + total b.
Proof. induction a as [|d a IH]; cbn [app total]; lia. Qed.
Lemma contiguous_app n a : forall t b, contiguous n t (a ++ b) <-> contiguous n t a /\ contiguous n (t + total a) b.
Proof.
  induction a as [|d a IH]; intros t b; cbn [app contiguous total].
  - rewrite Z.add_0_r. tauto.
  - rewrite IH. replace (t + (c_ts d + total a)) with (t + c_ts d + total a) by lia. tauto.
Qed.
Lemma total_nonneg n l : forall t, contiguous n t l -> 0 <= total l.
Proof. induction l as [|d l IH]; intros t; cbn [contiguous total]; [lia|]. intros (_ & [H _] & H2). apply IH in H2. lia. Qed.
Lemma total_pos n l t : contiguous n t l -> l <> [] -> 0 < total l.
Proof.
  destruct l as [|d l]; [easy|]. cbn [contiguous total]. intros (_ & [H _] & H2) _.
  apply total_nonneg in H2. lia.
Qed.
Lemma chunk_apply_len d base : chunk_ok (len base) d -> len (delta_chunk_apply d base) = c_ts d.
Proof.
  intros [H1 H2]. unfold delta_chunk_apply. destruct (c_data d) as [b|].
  - destruct (Z.ltb_spec (c_ts d) (len b)); [|lia].
    rewrite slice_to_spec by lia. unfold len in *. rewrite firstn_length. lia.
  - rewrite len_slice; lia.
Qed.
Lemma list_apply_len l base : forall t, contiguous (len base) t l -> len (delta_list_apply l base) = total l.
Proof.
  induction l as [|d l IH]; intros t; [easy|]. cbn [contiguous total]. intros (_ & H & H2).
  unfold delta_list_apply in *. cbn [map concat]. rewrite len_app, chunk_apply_len, (IH _ H2); easy.
Qed.
Lemma list_apply_app a b base : delta_list_apply (a ++ b) base = delta_list_apply a base ++ delta_list_apply b base.
Proof. unfold delta_list_apply. now rewrite map_app, concat_app. Qed.
Lemma list_apply_cons d l base : delta_list_apply (d :: l) base = delta_chunk_apply d base ++ delta_list_apply l base.
Proof. easy. Qed.

(** ** Cutting chunks *)
Lemma chunk_apply_data d b base : c_data d = Some b -> c_ts d <= len b -> 0 <= c_ts d ->
  delta_chunk_apply d base = firstn (Z.to_nat (c_ts d)) b.
Proof.
  intros E H1 H2. unfold delta_chunk_apply. rewrite E. destruct (Z.ltb_spec (c_ts d) (len b)).
  - now rewrite slice_to_spec by lia.
  - rewrite firstn_all2; [easy|]. unfold len in *. lia.
Qed.
Lemma set_ts_apply d n k base : chunk_ok n d -> 0 <= k <= c_ts d ->
  delta_chunk_apply (set_ts d k) base = firstn (Z.to_nat k) (delta_chunk_apply d base).
Proof.
  intros [H1 H2] Hk. destruct (c_data d) as [b|] eqn:E.
  - rewrite (chunk_apply_data _ b) by (cbn [set_ts c_data c_ts]; (easy || lia)).
    rewrite (chunk_apply_data d b) by (easy || lia).
    cbn [set_ts c_ts]. rewrite firstn_firstn. f_equal. lia.
  - unfold delta_chunk_apply. cbn [set_ts c_data c_so c_ts]. rewrite E.
    rewrite !slice_spec by lia. rewrite firstn_firstn. f_equal. lia.
Qed.
Lemma set_ts_ok d n k : chunk_ok n d -> 0 < k <= c_ts d -> chunk_ok n (set_ts d k).
Proof. unfold chunk_ok, set_ts. cbn [c_ts c_data c_so]. intros [H1 H2] Hk. destruct (c_data d); lia. Qed.
Lemma move_ok d n k : chunk_ok n d -> 0 <= k < c_ts d -> chunk_ok n (move_delta_lbound d k).
Proof.
  unfold chunk_ok, move_delta_lbound. intros [H1 H2] Hk.
  destruct (Z.eqb_spec k 0); [tauto|]. cbn [c_ts c_data c_so]. destruct (c_data d) as [b|]; [|lia].
  split; [lia|]. rewrite slice_from_spec by lia. unfold len in *. rewrite skipn_length. lia.
Qed.
Lemma move_apply d n k base : chunk_ok n d -> 0 <= k < c_ts d ->
  delta_chunk_apply (move_delta_lbound d k) base = skipn (Z.to_nat k) (delta_chunk_apply d base).
Proof.
  intros Hok Hk. pose proof (move_ok d n k Hok Hk) as Hm. destruct Hok as [H1 H2].
  destruct (Z.eqb_spec k 0) as [->|Hn].
  { unfold move_delta_lbound. now rewrite Z.eqb_refl. }
  destruct (c_data d) as [b|] eqn:E.
  - rewrite (chunk_apply_data d b) by (easy || lia).
    assert (c_data (move_delta_lbound d k) = Some (slice_from b k)) as E2.
    { unfold move_delta_lbound. destruct (Z.eqb_spec k 0); [lia|]. cbn [c_data]. now rewrite E. }
    destruct Hm as [Hm1 Hm2]. rewrite E2 in Hm2.
    rewrite (chunk_apply_data _ _ base E2) by lia.
    assert (c_ts (move_delta_lbound d k) = c_ts d - k) as ->.
    { unfold move_delta_lbound. destruct (Z.eqb_spec k 0); [lia|]. easy. }
    rewrite slice_from_spec by lia. rewrite firstn_skipn_comm.
    f_equal. f_equal. lia.
  - unfold delta_chunk_apply, move_delta_lbound. destruct (Z.eqb_spec k 0); [lia|].
    cbn [c_data c_so c_ts]. rewrite E. rewrite !slice_spec by lia.
    rewrite skipn_firstn_comm, skipn_skipn. f_equal; [lia|]. f_equal. lia.
Qed.
Lemma move_to d k : c_to (move_delta_lbound d k) = c_to d + k.
Proof. unfold move_delta_lbound. destruct (Z.eqb_spec k 0); cbn [c_to]; lia. Qed.
Lemma move_ts d k : c_ts (move_delta_lbound d k) = c_ts d - k.
Proof. unfold move_delta_lbound. destruct (Z.eqb_spec k 0); cbn [c_ts]; lia. Qed.

(** ** _closest_index *)
Lemma contiguous_to n dcl a d b t : dcl = a ++ d :: b -> contiguous n t dcl -> c_to d = t + total a.
Proof. intros -> H. apply contiguous_app in H as [_ H]. now destruct H. Qed.
Lemma locate n : forall dcl t x, contiguous n t dcl -> t <= x < t + total dcl ->
  exists a d b, dcl = a ++ d :: b /\ c_to d <= x < c_rbound d.
Proof.
  induction dcl as [|d dcl IH]; intros t x Hc Hx; cbn [total contiguous] in *; [lia|].
  destruct Hc as (Ht & Hd & Hc).
  destruct (Z.lt_ge_cases x (t + c_ts d)).
  - exists [], d, dcl. split; [easy|]. unfold c_rbound. lia.
  - destruct (IH _ x Hc) as (a & d' & b & -> & H1); [lia|].
    exists (d :: a), d', b. easy.
Qed.
Lemma app_cons_compare {A} (a a' : list A) d d' b b' :
  a ++ d :: b = a' ++ d' :: b' ->
  (a = a' /\ d = d' /\ b = b') \/
  (exists m, a' = a ++ d :: m) \/ (exists m, a = a' ++ d' :: m).
Proof.
  revert a'; induction a as [|x a IH]; intros [|y a'] H; cbn [app] in H.
  - injection H as -> ->. now left.
  - injection H as -> ->. right; left. now exists a'.
  - injection H as -> <-. right; right. now exists a.
  - injection H as -> H. apply IH in H as [(-> & -> & ->)|[[m ->]|[m ->]]].
    + now left.
    + right; left. now exists m.
    + right; right. now exists m.
Qed.
Lemma closest_loop_ok n dcl x a d b : contiguous n 0 dcl -> dcl = a ++ d :: b ->
  c_to d <= x < c_rbound d ->
  forall fuel lo hi, 0 <= lo -> lo <= len a < hi -> hi <= len dcl -> hi - lo <= Z.of_nat fuel ->
  closest_loop Py2 fuel dcl x lo hi = Ok (len a).
Proof.
  intros Hc Hdcl Hx. induction fuel as [|f IH]; intros lo hi Hlo Hk Hhi Hf; [lia|].
  cbn [closest_loop]. replace (lo <? hi) with true by lia.
  set (mid := (lo + hi) / 2).
  assert (lo <= mid < hi) as Hm by (subst mid; lia).
  destruct (index dcl mid) as [dc| |] eqn:Ei.
  2,3: destruct (index_in _ dcl mid) as [y Hy]; [lia|]; rewrite Hy in Ei; discriminate.
  cbn [bind]. apply index_ok_split in Ei as (a' & b' & Hdcl' & Ha'); [|lia].
  pose proof (contiguous_to _ _ _ _ _ _ Hdcl Hc) as Hto.
  pose proof (contiguous_to _ _ _ _ _ _ Hdcl' Hc) as Hto'.
  unfold c_rbound in *.
  pose proof Hc as Hc2. rewrite Hdcl in Hc2. apply contiguous_app in Hc2 as [Hca Hcd].
  pose proof Hc as Hc3. rewrite Hdcl' in Hc3. apply contiguous_app in Hc3 as [Hca' Hcd'].
  cbn [contiguous] in Hcd, Hcd'. destruct Hcd as (_ & [Hts _] & _), Hcd' as (_ & [Hts' _] & _).
  rewrite Hdcl in Hdcl'. apply app_cons_compare in Hdcl' as [(-> & -> & ->)|[[m ->]|[m ->]]].
  - replace (x <? c_to dc) with false by lia.
    replace ((x <? c_to dc + c_ts dc) || (c_to dc =? x)) with true by lia. now rewrite <- Ha'.
  - (* target left of mid *)
    rewrite total_app in Hto'. cbn [total] in Hto'.
    apply contiguous_app in Hca' as [_ Hca']. cbn [contiguous] in Hca'.
    destruct Hca' as (_ & _ & Hm'). apply total_nonneg in Hm'.
    replace (x <? c_to dc) with true by lia.
    rewrite len_app, len_cons in Ha'. pose proof (len_nonneg _ m). apply IH; lia.
  - rewrite total_app in Hto. cbn [total] in Hto.
    apply contiguous_app in Hca as [_ Hca]. cbn [contiguous] in Hca.
    destruct Hca as (_ & _ & Hm'). apply total_nonneg in Hm'.
    replace (x <? c_to dc) with false by lia.
    replace ((x <? c_to dc + c_ts dc) || (c_to dc =? x)) with false by lia.
    rewrite len_app, len_cons in *. pose proof (len_nonneg _ m). apply IH; lia.
Qed.
Lemma closest_index_ok n dcl x : contiguous n 0 dcl -> 0 <= x < total dcl ->
  exists a d b, dcl = a ++ d :: b /\ c_to d <= x < c_rbound d /\ closest_index Py2 dcl x = Ok (len a).
Proof.
  intros Hc Hx. destruct (locate n dcl 0 x Hc) as (a & d & b & Hd & Hr); [lia|].
  exists a, d, b. repeat split; try easy; try lia.
  unfold closest_index. apply (closest_loop_ok n dcl x a d b); try easy; try lia;
  rewrite Hd; unfold len; rewrite ?app_length; simpl; lia.
Qed.
Lemma closest_loop_beyond n dcl x : contiguous n 0 dcl -> total dcl <= x ->
  forall fuel lo hi, 0 <= lo -> hi <= len dcl -> hi - lo <= Z.of_nat fuel ->
  closest_loop Py2 fuel dcl x lo hi = Ok (len dcl - 1).
Proof.
  intros Hc Hx. induction fuel as [|f IH]; intros lo hi Hlo Hhi Hf; cbn [closest_loop]; (destruct (lo <? hi) eqn:E; [|easy]); [lia|].
  set (mid := (lo + hi) / 2). assert (lo <= mid < hi) as Hm by (subst mid; lia).
  destruct (index dcl mid) as [dc| |] eqn:Ei.
  2,3: destruct (index_in _ dcl mid) as [y Hy]; [lia|]; rewrite Hy in Ei; discriminate.
  cbn [bind]. apply index_ok_split in Ei as (a' & b' & Hdcl' & Ha'); [|lia].
  pose proof (contiguous_to _ _ _ _ _ _ Hdcl' Hc) as Hto'. unfold c_rbound.
  assert (c_to dc + c_ts dc <= total dcl /\ 0 < c_ts dc) as [H1 H2].
  { rewrite Hdcl' in Hc. apply contiguous_app in Hc as [_ Hc]. cbn [contiguous] in Hc. destruct Hc as (_ & [H _] & Hb). apply total_nonneg in Hb. rewrite Hdcl', total_app. cbn [total]. lia. }
  replace (x <? c_to dc) with false by lia. replace ((x <? c_to dc + c_ts dc) || (c_to dc =? x)) with false by lia. apply IH; lia.
Qed.
Lemma slice_beyond n dcl x size : contiguous n 0 dcl -> dcl <> [] -> total dcl <= x -> 0 <= size ->
  exists d, delta_list_slice Py2 dcl x size = Ok [d] /\ c_to d = x /\ c_ts d = total dcl - x.
Proof.
  intros Hc Hne Hx Hs. unfold delta_list_slice, closest_index. rewrite (closest_loop_beyond n) by (try easy; unfold len; lia). cbn [bind].
  destruct (exists_last Hne) as (a & d & ->). assert (len (a ++ [d]) - 1 = len a) as -> by (rewrite len_app; cbn; lia). rewrite index_app by easy. cbn [bind].
  pose proof (contiguous_to n _ a d [] 0 eq_refl Hc) as Ht. rewrite total_app in *. cbn [total] in *. apply contiguous_app in Hc as [_ (_ & [Hp _] & _)].
  replace (negb (c_to d =? x)) with true by lia. unfold move_delta_lbound. replace (x - c_to d =? 0) with false by lia. cbn [c_ts set_ts c_to c_so c_data].
  rewrite slice_from_spec by (pose proof (len_nonneg _ a); lia). rewrite skipn_all2 by (rewrite app_length; cbn; unfold len; lia).
  eexists. split; [reflexivity|]. cbn. lia.
Qed.

(** ** delta_list_slice *)
Lemma firstn_app_ge {A} (k : nat) (a b : list A) : (length a <= k)%nat ->
  firstn k (a ++ b) = a ++ firstn (k - length a) b.
Proof. intros. rewrite firstn_app. now rewrite (firstn_all2 a) by lia. Qed.
Lemma slice_loop_ok base : forall rest t size, contiguous (len base) t rest -> 0 <= size <= total rest ->
  let r := slice_loop rest size in
  contiguous (len base) t r /\ total r = size /\
  delta_list_apply r base = firstn (Z.to_nat size) (delta_list_apply rest base).
Proof.
  induction rest as [|d rest IH]; intros t size Hc Hs; cbn [slice_loop total contiguous] in *.
  - replace size with 0 by lia. easy.
  - destruct Hc as (Ht & Hd & Hc). destruct (Z.eqb_spec size 0) as [->|].
    { easy. }
    pose proof (chunk_apply_len _ _ Hd) as Hl. pose proof (proj1 Hd) as Hpos.
    destruct (Z.leb_spec (c_ts d) size).
    + destruct (IH (t + c_ts d) (size - c_ts d) Hc) as (H1 & H2 & H3); [lia|].
      cbn [contiguous total]. split; [easy|]. split; [lia|].
      rewrite !list_apply_cons, H3. unfold len in Hl. rewrite firstn_app_ge by lia.
      do 2 f_equal. lia.
    + cbn [contiguous total]. split; [|split].
      * split; [easy|]. split; [|easy]. apply set_ts_ok; [easy|lia].
      * cbn [set_ts c_ts]. lia.
      * rewrite !list_apply_cons. rewrite (set_ts_apply d (len base)) by (easy || lia).
        rewrite firstn_app. replace (Z.to_nat size - length (delta_chunk_apply d base))%nat with 0%nat
          by (unfold len in Hl; lia). easy.
Qed.
Lemma delta_list_slice_ok base dcl o size : contiguous (len base) 0 dcl ->
  0 <= o -> 0 < size -> o + size <= total dcl ->
  exists r, delta_list_slice Py2 dcl o size = Ok r /\ contiguous (len base) o r /\ total r = size /\
    delta_list_apply r base = firstn (Z.to_nat size) (skipn (Z.to_nat o) (delta_list_apply dcl base)).
Proof.
  intros Hc Ho Hs Hb. destruct (closest_index_ok _ dcl o Hc) as (a & d & b & Hdcl & Hr & Hci); [lia|].
  unfold delta_list_slice. rewrite Hci. cbn [bind].
  assert (index dcl (len a) = Ok d) as -> by (rewrite Hdcl; now apply index_app). cbn [bind].
  pose proof (contiguous_to _ _ _ _ _ _ Hdcl Hc) as Hto.
  pose proof Hc as Hc2. rewrite Hdcl in Hc2. apply contiguous_app in Hc2 as [Hca Hcd].
  pose proof (list_apply_len a base 0 Hca) as Hla.
  rewrite Hdcl in Hb. rewrite total_app in Hb. cbn [total] in Hb.
  pose proof Hcd as Hcd0. cbn [contiguous] in Hcd. destruct Hcd as (_ & Hd & Hcb).
  pose proof (total_nonneg _ _ _ Hca). pose proof (total_nonneg _ _ _ Hcb).
  pose proof (proj1 Hd) as Hpos. unfold c_rbound in Hr.
  pose proof (chunk_apply_len _ _ Hd) as Hl.
  destruct (Z.eqb_spec (c_to d) o) as [Heq|Hne]; cbn [negb].
  - assert (slice_from dcl (len a) = d :: b) as -> by (rewrite Hdcl; now apply slice_from_app).
    destruct (slice_loop_ok base (d :: b) (0 + total a) size Hcd0) as (H1 & H2 & H3);
      [cbn [total]; lia|].
    eexists. split; [reflexivity|]. replace o with (0 + total a) by lia.
    split; [exact H1|]. split; [exact H2|]. rewrite H3. f_equal.
    rewrite Hdcl, list_apply_app, skipn_app.
    rewrite skipn_all2 by (unfold len in Hla; lia). cbn [app].
    replace (Z.to_nat (0 + total a) - length (delta_list_apply a base))%nat with 0%nat
      by (unfold len in Hla; lia). easy.
  - set (k := o - c_to d).
    assert (0 <= k < c_ts d) as Hk by (subst k; lia).
    set (tcd := move_delta_lbound d k).
    assert (c_ts tcd = c_ts d - k) as Htts by apply move_ts.
    assert (c_to tcd = o) as Htto by (subst tcd; rewrite move_to; subst k; lia).
    assert (chunk_ok (len base) tcd) as Htok by now apply move_ok.
    set (m := Z.min (c_ts tcd) size).
    assert (0 < m <= c_ts tcd) as Hm by (subst m; lia).
    assert (slice_from dcl (len a + 1) = b) as ->.
    { rewrite Hdcl. replace (a ++ d :: b) with ((a ++ [d]) ++ b) by now rewrite <- app_assoc.
      apply slice_from_app. rewrite len_app, len_cons, len_nil. lia. }
    assert (delta_list_apply dcl base = delta_list_apply a base ++ delta_chunk_apply d base ++ delta_list_apply b base) as Happ.
    { rewrite Hdcl, list_apply_app. easy. }
    cbn [set_ts c_ts].
    destruct (slice_loop_ok base b (0 + total a + c_ts d) (size - m) Hcb) as (H1 & H2 & H3); [lia|].
    eexists. split; [reflexivity|]. cbn [contiguous total set_ts c_to c_ts].
    split; [|split].
    + split; [easy|]. split; [now apply (set_ts_ok tcd)|].
      destruct (Z.le_gt_cases size (c_ts tcd)).
      * replace m with size by (subst m; lia). rewrite Z.sub_diag.
        destruct b; cbn [slice_loop]; easy.
      * replace (o + m) with (0 + total a + c_ts d) by (subst m; lia). exact H1.
    + lia.
    + rewrite list_apply_cons, H3. fold (set_ts tcd m). rewrite (set_ts_apply tcd (len base)) by (easy || lia).
      subst tcd. rewrite (move_apply d (len base)) by easy.
      rewrite Happ. rewrite skipn_app. rewrite (skipn_all2 (delta_list_apply a base)) by (unfold len in Hla; lia). cbn [app].
      rewrite skipn_app.
      replace (Z.to_nat o - length (delta_list_apply a base))%nat with (Z.to_nat k)
        by (unfold len in Hla; lia).
      replace (Z.to_nat k - length (delta_chunk_apply d base))%nat with 0%nat by (unfold len in Hl; lia).
      cbn [skipn]. rewrite firstn_app. rewrite skipn_length.
      destruct (Z.le_gt_cases size (c_ts d - k)).
      * replace m with size by (subst m; lia). rewrite Z.sub_diag. cbn [Z.to_nat firstn].
        replace (Z.to_nat size - (length (delta_chunk_apply d base) - Z.to_nat k))%nat with 0%nat
          by (unfold len in Hl; lia). easy.
      * rewrite (firstn_all2 (n := Z.to_nat m)) by (rewrite skipn_length; unfold len in Hl; lia).
        rewrite (firstn_all2 (n := Z.to_nat size)) by (rewrite skipn_length; unfold len in Hl; lia).
        do 2 f_equal. unfold len in Hl. lia.
Qed.

Lemma delta_list_slice_exact base dcl ofs size : contiguous (len base) 0 dcl ->
  0 <= ofs -> 0 < size -> ofs + size <= len (delta_list_apply dcl base) ->
  exists r, delta_list_slice Py2 dcl ofs size = Ok r /\ contiguous (len base) ofs r /\
    delta_list_apply r base =
    firstn (Z.to_nat size) (skipn (Z.to_nat ofs) (delta_list_apply dcl base)).
Proof.
  intros Hc Ho Hs Hb. rewrite (list_apply_len _ _ _ Hc) in Hb.
  destruct (delta_list_slice_ok base dcl ofs size) as (r & H1 & H2 & _ & H3); try easy.
  now exists r.
Qed.

(** ** connect_with_next_base *)
Definition shift_to (o : Z) (c : chunk) : chunk := mk_chunk (c_to c + o) (c_ts c) (c_so c) (c_data c).
Lemma shift_contiguous n o l : forall t, contiguous n t l -> contiguous n (t + o) (map (shift_to o) l).
Proof.
  induction l as [|d l IH]; intros t; cbn [map contiguous]; [easy|].
  intros (H1 & H2 & H3). cbn [shift_to c_to c_ts]. split; [lia|]. split; [exact H2|].
  replace (t + o + c_ts d) with (t + c_ts d + o) by lia. now apply IH.
Qed.
Lemma shift_total o l : total (map (shift_to o) l) = total l.
Proof. induction l as [|d l IH]; cbn [map total]; [easy|]. rewrite IH. easy. Qed.
Lemma shift_apply o l base : delta_list_apply (map (shift_to o) l) base = delta_list_apply l base.
Proof. unfold delta_list_apply. now rewrite map_map. Qed.

Definition all_data (l : list chunk) : Prop := Forall (fun d => c_data d <> None) l.

Lemma connect_loop_ok base bdcl : contiguous (len base) 0 bdcl ->
  let mid := delta_list_apply bdcl base in
  forall rest acc nfc,
  contiguous (len base) 0 acc -> contiguous (len mid) (total acc) rest ->
  nfc <= len acc -> (nfc = len acc -> all_data acc) ->
  exists l go_on, connect_loop Py2 bdcl acc rest nfc = Ok (l, go_on) /\
    contiguous (len base) 0 l /\
    delta_list_apply l base = delta_list_apply acc base ++ delta_list_apply rest mid /\
    (go_on = false -> all_data l).
Proof.
  intros Hb mid. assert (len mid = total bdcl) as Hmid by apply (list_apply_len _ _ _ Hb).
  induction rest as [|dc rest IH]; intros acc nfc Hacc Hrest Hn Hd; cbn [connect_loop contiguous] in *.
  - eexists _, _. split; [reflexivity|]. split; [easy|]. split; [now rewrite app_nil_r|].
    intros Hg. apply Hd. lia.
  - destruct Hrest as (Ht & Hok & Hrest). pose proof (proj1 Hok) as Hpos. destruct (c_data dc) as [b|] eqn:E.
    + destruct (IH (acc ++ [dc]) (nfc + 1)) as (l & g & H1 & H2 & H3 & H4).
      * apply contiguous_app. split; [easy|]. cbn [contiguous]. repeat split; try lia.
        unfold chunk_ok in Hok. rewrite E in *. lia.
      * rewrite total_app. cbn [total]. now rewrite Z.add_0_r.
      * rewrite len_app, len_cons, len_nil. lia.
      * rewrite len_app, len_cons, len_nil. intros. apply Forall_app. split; [apply Hd; lia|].
        constructor; [congruence|constructor].
      * exists l, g. split; [exact H1|]. split; [exact H2|]. split; [|exact H4].
        rewrite H3, list_apply_app, !list_apply_cons, <- app_assoc. f_equal.
        cbn. rewrite app_nil_r. unfold delta_chunk_apply. rewrite E. reflexivity.
    + unfold chunk_ok in Hok. rewrite E in Hok. rewrite Hmid in Hok.
      destruct (delta_list_slice_ok base bdcl (c_so dc) (c_ts dc) Hb) as (r & Hr & Hrc & Hrt & Hra); try lia.
      rewrite Hr. cbn [bind]. fold (shift_to (c_to dc - c_so dc)).
      change (map (fun c : chunk => mk_chunk (c_to c + (c_to dc - c_so dc)) (c_ts c) (c_so c) (c_data c)) r)
        with (map (shift_to (c_to dc - c_so dc)) r).
      set (r' := map (shift_to (c_to dc - c_so dc)) r).
      assert (r <> []) as Hne by (intros ->; cbn in Hrt; lia).
      assert (1 <= len r') as Hlr.
      { subst r'. destruct r; [easy|]. cbn [map]. rewrite len_cons.
        pose proof (len_nonneg _ (map (shift_to (c_to dc - c_so dc)) r)). lia. }
      destruct (IH (acc ++ r') nfc) as (l & g & H1 & H2 & H3 & H4).
      * apply contiguous_app. split; [easy|].
        replace (0 + total acc) with (c_so dc + (c_to dc - c_so dc)) by lia.
        now apply shift_contiguous.
      * rewrite total_app. subst r'. rewrite shift_total, Hrt. exact Hrest.
      * rewrite len_app. lia.
      * rewrite len_app. lia.
      * exists l, g. split; [exact H1|]. split; [exact H2|]. split; [|exact H4].
        rewrite H3, list_apply_app, list_apply_cons, <- app_assoc. f_equal. f_equal.
        subst r'. rewrite shift_apply, Hra. fold mid.
        unfold delta_chunk_apply. rewrite E, slice_spec by lia. f_equal. lia.
Qed.

(** ** compress *)
Lemma all_data_app a b : all_data (a ++ b) <-> all_data a /\ all_data b.
Proof. apply Forall_app. Qed.
Lemma run_data_ok n base : forall l t, contiguous n t l -> all_data l ->
  run_data Py2 l = Ok (delta_list_apply l base) /\ len (delta_list_apply l base) = total l.
Proof.
  induction l as [|d l IH]; intros t Hc Ha; [easy|]. cbn [contiguous run_data total] in *.
  destruct Hc as (_ & [Hp Hd] & Hc). inversion Ha; subst.
  destruct (IH _ Hc) as [IH1 IH2]; [easy|].
  destruct (c_data d) as [b|] eqn:E; [|easy]. rewrite IH1. cbn [bind].
  rewrite list_apply_cons, (chunk_apply_data d b) by (easy || lia).
  rewrite slice_to_spec by lia. split; [easy|].
  rewrite len_app, IH2. f_equal. unfold len in *. rewrite firstn_length. lia.
Qed.

Definition cst := (list chunk * Z * option Z)%type.
Definition cinv (n : Z) (base : bytes) (l0 : list chunk) (s : cst) : Prop :=
  let '(l, i, first) := s in
  exists a m b, l = a ++ m ++ b /\ i = len a + len m /\
    match first with None => m = [] | Some f => f = len a /\ all_data m /\ m <> [] end /\
    contiguous n 0 l /\ delta_list_apply l base = delta_list_apply l0 base /\ total l = total l0 /\ len l <= len l0.
Definition cmeasure (s : cst) : Z :=
  let '(l, i, first) := s in 2 * (len l - i) + match first with Some _ => 1 | None => 0 end.

Lemma compress_step_ok n base l0 s : cinv n base l0 s ->
  (exists s', compress_step Py2 s = Ok (inl s') /\ cinv n base l0 s' /\ 0 <= cmeasure s' < cmeasure s) \/
  (exists l, compress_step Py2 s = Ok (inr l) /\ contiguous n 0 l /\
     delta_list_apply l base = delta_list_apply l0 base /\ total l = total l0 /\ len l <= len l0).
Proof.
  destruct s as [[l i] first]. intros (a & m & b & Hl & Hi & Hf & Hc & Happ & Htot & Hlen).
  unfold compress_step.
  pose proof (len_nonneg _ a). pose proof (len_nonneg _ m). pose proof (len_nonneg _ b).
  assert (len l = len a + len m + len b) as Hll by (rewrite Hl, !len_app; lia).
  destruct b as [|dc b].
  { right. rewrite len_nil in Hll. replace (i <? len l) with false by lia. now exists l. }
  left. rewrite len_cons in *. pose proof (len_nonneg _ b).
  replace (i <? len l) with true by lia.
  assert (index l i = Ok dc) as Hidx.
  { rewrite Hl, app_assoc. apply index_app. rewrite len_app. lia. }
  rewrite Hidx. cbn [bind]. destruct (c_data dc) as [bd|] eqn:E.
  - eexists. split; [reflexivity|]. split.
    + destruct first as [f|].
      * destruct Hf as (-> & Hm & Hmn). exists a, (m ++ [dc]), b.
        split; [rewrite Hl, <- app_assoc; easy|]. split; [rewrite len_app, len_cons, len_nil; lia|].
        split; [|easy]. split; [easy|]. split; [|now destruct m].
        apply all_data_app. split; [easy|]. constructor; [congruence|constructor].
      * subst m. exists a, [dc], b. split; [easy|]. rewrite len_cons, len_nil in *. split; [lia|].
        split; [|easy]. repeat split; try easy; try lia. constructor; [congruence|constructor].
    + unfold cmeasure. destruct first; lia.
  - destruct first as [f|].
    + destruct Hf as (-> & Hm & Hmn).
      destruct (Z.ltb_spec 1 (i + 1 - 2 - len a)).
      * destruct m as [|f m]; [easy|].
        assert (index l (len a) = Ok f) as Hidf by (rewrite Hl; now apply index_app).
        rewrite Hidf. cbn [bind].
        replace (i + 1 - 1) with (len a + len (f :: m)) by lia.
        assert (slice l (len a) (len a + len (f :: m)) = f :: m) as ->.
        { rewrite Hl. now apply slice_mid. }
        rewrite Hl in Hc. apply contiguous_app in Hc as [Hca Hc]. apply contiguous_app in Hc as [Hcm Hcb].
        destruct (run_data_ok n base (f :: m) _ Hcm Hm) as [Hr Hrl].
        rewrite Hr. cbn [bind].
        assert (slice_to l (len a) = a) as -> by (rewrite Hl; now apply slice_to_app).
        assert (slice_from l (len a + len (f :: m)) = dc :: b) as ->.
        { rewrite Hl, app_assoc. apply slice_from_app. rewrite len_app. lia. }
        rewrite Hrl. cbn [app].
        set (nd := mk_chunk (c_to f) (total (f :: m)) 0 (Some (delta_list_apply (f :: m) base))).
        assert (chunk_ok n nd) as Hnd.
        { unfold chunk_ok. subst nd. cbn [c_ts c_data]. split; [|rewrite Hrl; lia].
          now apply (total_pos n (f :: m) (0 + total a)). }
        assert (delta_chunk_apply nd base = delta_list_apply (f :: m) base) as Hna.
        { rewrite (chunk_apply_data nd (delta_list_apply (f :: m) base)).
          - subst nd. cbn [c_ts]. apply firstn_all2. unfold len in Hrl. lia.
          - easy.
          - subst nd. cbn [c_ts]. lia.
          - destruct Hnd. lia. }
        eexists. split; [reflexivity|]. split.
        -- exists (a ++ [nd]), [], (dc :: b). cbn [app].
           split; [now rewrite <- app_assoc|]. split; [rewrite len_app, len_cons, !len_nil; lia|].
           split; [easy|].
           change (a ++ nd :: dc :: b) with (a ++ [nd] ++ (dc :: b)).
           split; [|split; [|split]].
           ++ apply contiguous_app. split; [easy|]. apply contiguous_app. split.
              ** cbn [contiguous]. repeat split; try apply Hnd. subst nd. cbn [c_to].
                 destruct Hcm as [-> _]. easy.
              ** replace (0 + total a + total [nd]) with (0 + total a + total (f :: m)); [easy|].
                 cbn [total]. subst nd. cbn [c_ts total]. lia.
           ++ rewrite <- Happ, Hl, !list_apply_app. f_equal. f_equal.
              rewrite <- Hna. cbn. now rewrite app_nil_r.
           ++ rewrite <- Htot, Hl, !total_app. cbn [total]. subst nd. cbn [c_ts total]. lia.
           ++ rewrite Hl in Hlen. rewrite !len_app, !len_cons in *. change (len (@nil chunk)) with 0 in *. lia.
        -- unfold cmeasure. rewrite !len_app, !len_cons in *. rewrite Hll. lia.
      * eexists. split; [reflexivity|]. split.
        -- exists (a ++ m ++ [dc]), [], b.
           split; [rewrite Hl, <- !app_assoc; easy|]. rewrite !len_app, len_cons, !len_nil.
           split; [lia|]. easy.
        -- unfold cmeasure. lia.
    + subst m. eexists. split; [reflexivity|]. split.
      * exists (a ++ [dc]), [], b. split; [rewrite Hl, <- !app_assoc; easy|].
        rewrite !len_app, len_cons, !len_nil in *. split; [lia|]. easy.
      * unfold cmeasure. lia.
Qed.
Lemma compress_loop_ok n base l0 : forall fuel s, cinv n base l0 s -> cmeasure s < Z.of_nat fuel ->
  exists l, while fuel (compress_step Py2) s = Ok l /\ contiguous n 0 l /\
    delta_list_apply l base = delta_list_apply l0 base /\ total l = total l0 /\ len l <= len l0.
Proof.
  induction fuel as [|f IH]; intros s Hs Hm.
  - destruct s as [[l i] first]. destruct Hs as (a & m & b & Hl & Hi & _).
    unfold cmeasure in Hm. rewrite Hl, !len_app in Hm. pose proof (len_nonneg _ b).
    destruct first; lia.
  - cbn [while]. destruct (compress_step_ok n base l0 s Hs) as [(s' & -> & Hs' & Hlt)|(l & -> & H)].
    + apply IH; [easy|lia].
    + now exists l.
Qed.
Lemma compress_ok' n base l : contiguous n 0 l ->
  exists l', compress Py2 l = Ok l' /\ contiguous n 0 l' /\
    delta_list_apply l' base = delta_list_apply l base /\ total l' = total l /\ len l' <= len l.
Proof.
  intros H. unfold compress. destruct (len l <? 2); [exists l; repeat (split; [easy|]); lia|].
  apply (compress_loop_ok n base l).
  - exists [], [], l. repeat (split; [easy|]). lia.
  - unfold cmeasure, len. lia.
Qed.
Lemma compress_ok n base l : contiguous n 0 l ->
  exists l', compress Py2 l = Ok l' /\ contiguous n 0 l' /\
    delta_list_apply l' base = delta_list_apply l base /\ total l' = total l.
Proof. intros H. destruct (compress_ok' n base l H) as (l' & H1 & H2 & H3 & H4 & _). now exists l'. Qed.
Lemma compress_keeps base l : contiguous (len base) 0 l ->
  exists l', compress Py2 l = Ok l' /\ contiguous (len base) 0 l' /\ dcl_apply l' base = dcl_apply l base /\ len l' <= len l.
Proof. intros H. destruct (compress_ok' (len base) base l H) as (l' & H1 & H2 & H3 & _ & H4). now exists l'. Qed.

(** ** Parsing *)
Fixpoint op_chunks (t : Z) (ops : list dop) : list chunk :=
  match ops with
  | [] => []
  | Copy off size :: ops' => mk_chunk t size off None :: op_chunks (t + size) ops'
  | Insert d :: ops' => mk_chunk t (len d) 0 (Some d) :: op_chunks (t + len d) ops'
  end.
Lemma op_chunks_ok n ops e : ops_enc ops e -> Forall (op_inside n) ops ->
  forall t, contiguous n t (op_chunks t ops).
Proof.
  induction 1 as [|op ops b bs Hop Hops IH]; intros Hin t; [easy|].
  inversion Hin; subst. destruct Hop; cbn [op_chunks contiguous c_to c_ts].
  - repeat split; try (cbn [c_ts c_data]; lia). auto.
  - cbn [op_inside] in *.
    unfold is_bytes in *. repeat rewrite Forall_cons_iff in *.
    pose proof (copy_size_pos s0 s1 s2).
    repeat split; try (cbn [c_ts c_data c_so]; intuition lia). auto.
Qed.
Lemma op_chunks_apply n base ops e : ops_enc ops e -> Forall (op_inside n) ops -> forall t,
  delta_list_apply (op_chunks t ops) base = ops_bytes base ops.
Proof.
  induction 1 as [|op ops b bs Hop Hops IH]; intros Hin t; [easy|].
  inversion Hin; subst. unfold ops_bytes in *. cbn [map concat].
  destruct Hop; cbn [op_chunks]; rewrite list_apply_cons; f_equal; auto.
  - unfold delta_chunk_apply. cbn [c_data c_ts]. now rewrite Z.ltb_irrefl.
  - unfold delta_chunk_apply. cbn [c_data c_ts c_so].
    cbn [op_inside] in *. unfold is_bytes in *. repeat rewrite Forall_cons_iff in *.
    pose proof (copy_size_pos s0 s1 s2). apply slice_op_bytes; intuition lia.
Qed.

Lemma gets_ext get get' l : forall i, (forall j, get j = get' j) -> gets get i l -> gets get' i l.
Proof.
  induction l as [|b l IH]; intros i He; cbn [gets]; [easy|].
  intros [H1 H2]. rewrite <- He. split; [easy|]. now apply IH.
Qed.
Lemma get_py2 db : forall j, index db j = (let! b := index db j in ord_item Py2 b).
Proof. intros j. now destruct (index db j). Qed.
Lemma parse_loop_ok n ops e : ops_enc ops e ->
  Forall (op_inside n) ops -> forall fuel pre tbw dcl, (length e <= fuel)%nat ->
  parse_loop Py2 fuel (pre ++ e) (len (pre ++ e)) n (len pre) tbw dcl =
  Ok (dcl ++ op_chunks tbw ops).
Proof.
  induction 1 as [|op ops b bs Hop Hops IH]; intros Hin fuel pre tbw dcl Hf.
  - rewrite (app_nil_r pre). destruct fuel; cbn [parse_loop op_chunks];
    rewrite Z.ltb_irrefl, app_nil_r; easy.
  - inversion Hin as [|? ? Hi Hin']; subst.
    pose proof (op_enc_nonempty _ _ Hop) as Hb1.
    assert (len pre <? len (pre ++ b ++ bs) = true) as Hlt
      by (rewrite !len_app; pose proof (len_nonneg _ bs); lia).
    destruct fuel as [|f].
    { destruct b; [rewrite len_nil in Hb1; lia|simpl in Hf; lia]. }
    cbn [parse_loop]. rewrite Hlt.
    destruct Hop as [d Hd Hdb|f0 f1 f2 f3 f4 f5 f6 o0 o1 o2 o3 s0 s1 s2 Hb A0 A1 A2 A3 A4 A5 A6].
    + cbn [app]. rewrite index_app by easy. cbn [bind ord_item].
      rewrite land_128_small by lia. cbn [negb].
      replace (len d =? 0) with false by lia. cbn [negb].
      rewrite (app_assoc pre [len d] (d ++ bs) : pre ++ len d :: d ++ bs = (pre ++ [len d]) ++ d ++ bs).
      rewrite slice_mid by (rewrite len_app, len_cons, len_nil; lia).
      replace (len pre + 1 + len d) with (len ((pre ++ [len d]) ++ d))
        by (rewrite !len_app, len_cons, len_nil; lia).
      rewrite (app_assoc (pre ++ [len d]) d bs). rewrite IH; [|easy|].
      * cbn [op_chunks]. now rewrite <- app_assoc.
      * rewrite app_length in Hf. simpl in Hf. lia.
    + set (args := arg f0 o0 ++ arg f1 o1 ++ arg f2 o2 ++ arg f3 o3 ++ arg f4 s0 ++ arg f5 s1 ++ arg f6 s2) in *.
      fold (opcode f0 f1 f2 f3 f4 f5 f6). fold (opcode f0 f1 f2 f3 f4 f5 f6) in Hlt.
      cbn [app]. rewrite index_app by easy. cbn [bind ord_item].
      destruct (opcode_bits f0 f1 f2 f3 f4 f5 f6) as (_ & _ & _ & _ & _ & _ & _ & -> & _).
      cbn [negb].
      set (c := opcode f0 f1 f2 f3 f4 f5 f6).
      rewrite (app_assoc pre [c] (args ++ bs) : pre ++ c :: args ++ bs = (pre ++ [c]) ++ args ++ bs).
      replace (len pre + 1) with (len (pre ++ [c])) by (rewrite len_app, len_cons, len_nil; lia).
      unfold c at 2. rewrite (parse_copy_ok _ _ f0 f1 f2 f3 f4 f5 f6 o0 o1 o2 o3 s0 s1 s2)
        by (easy || (eapply gets_ext; [apply get_py2|apply gets_index])).
      cbn [bind]. fold args. fold c.
      cbn [op_inside] in Hi.
      set (off := o0 + 256 * o1 + 65536 * o2 + 16777216 * o3) in *.
      assert (1 <= (if s0 + 256 * s1 + 65536 * s2 =? 0 then 65536 else s0 + 256 * s1 + 65536 * s2)) as Hsz.
      { unfold is_bytes in Hb. repeat rewrite Forall_cons_iff in Hb. apply copy_size_pos; tauto. }
      set (sz := if s0 + 256 * s1 + 65536 * s2 =? 0 then 65536 else s0 + 256 * s1 + 65536 * s2) in *.
      replace ((off + sz <? sz) || (n <? off + sz)) with false by lia.
      replace (len (pre ++ [c]) + len args) with (len ((pre ++ [c]) ++ args)) by now rewrite !len_app.
      rewrite (app_assoc (pre ++ [c]) args bs). rewrite IH; [|easy|].
      * cbn [op_chunks]. now rewrite <- app_assoc.
      * rewrite app_length in Hf. simpl in Hf. lia.
Qed.

(** The same with something behind the instructions. *)
Lemma parse_loop_prefix n ops e t : ops_enc ops e ->
  Forall (op_inside n) ops -> forall fuel pre tbw dcl, (length e < fuel)%nat ->
  exists f tbw' dcl', parse_loop Py2 fuel (pre ++ e ++ t) (len (pre ++ e ++ t)) n (len pre) tbw dcl =
    parse_loop Py2 (S f) (pre ++ e ++ t) (len (pre ++ e ++ t)) n (len (pre ++ e)) tbw' dcl'.
Proof.
  induction 1 as [|op ops b bs Hop Hops IH]; intros Hin fuel pre tbw dcl Hf.
  - rewrite (app_nil_r pre). destruct fuel as [|f]; [simpl in Hf; lia|]. now exists f, tbw, dcl.
  - inversion Hin as [|? ? Hi Hin']; subst.
    pose proof (op_enc_nonempty _ _ Hop) as Hb1.
    assert (len pre <? len (pre ++ (b ++ bs) ++ t) = true) as Hlt
      by (rewrite !len_app; pose proof (len_nonneg _ bs); pose proof (len_nonneg _ t); lia).
    destruct fuel as [|f]; [lia|].
    cbn [parse_loop]. rewrite Hlt. rewrite <- (app_assoc b bs t).
    destruct Hop as [d Hd Hdb|f0 f1 f2 f3 f4 f5 f6 o0 o1 o2 o3 s0 s1 s2 Hb A0 A1 A2 A3 A4 A5 A6].
    + cbn [app]. rewrite index_app by easy. cbn [bind ord_item].
      rewrite land_128_small by lia. cbn [negb].
      replace (len d =? 0) with false by lia. cbn [negb].
      rewrite (app_assoc pre [len d] (d ++ bs ++ t) : pre ++ len d :: d ++ bs ++ t = (pre ++ [len d]) ++ d ++ bs ++ t).
      rewrite slice_mid by (rewrite len_app, len_cons, len_nil; lia).
      replace (len pre + 1 + len d) with (len ((pre ++ [len d]) ++ d))
        by (rewrite !len_app, len_cons, len_nil; lia).
      rewrite (app_assoc (pre ++ [len d]) d (bs ++ t)).
      destruct (IH Hin' f ((pre ++ [len d]) ++ d) (tbw + len d) (dcl ++ [mk_chunk tbw (len d) 0 (Some d)])) as (f' & tbw' & dcl' & ->).
      { cbn [length app] in Hf. rewrite app_length in Hf. lia. }
      exists f', tbw', dcl'. now rewrite <- !app_assoc.
    + set (args := arg f0 o0 ++ arg f1 o1 ++ arg f2 o2 ++ arg f3 o3 ++ arg f4 s0 ++ arg f5 s1 ++ arg f6 s2) in *.
      fold (opcode f0 f1 f2 f3 f4 f5 f6). fold (opcode f0 f1 f2 f3 f4 f5 f6) in Hlt.
      cbn [app]. rewrite index_app by easy. cbn [bind ord_item].
      destruct (opcode_bits f0 f1 f2 f3 f4 f5 f6) as (_ & _ & _ & _ & _ & _ & _ & -> & _).
      cbn [negb].
      set (c := opcode f0 f1 f2 f3 f4 f5 f6).
      rewrite (app_assoc pre [c] (args ++ bs ++ t) : pre ++ c :: args ++ bs ++ t = (pre ++ [c]) ++ args ++ bs ++ t).
      replace (len pre + 1) with (len (pre ++ [c])) by (rewrite len_app, len_cons, len_nil; lia).
      unfold c at 2. rewrite (parse_copy_ok _ _ f0 f1 f2 f3 f4 f5 f6 o0 o1 o2 o3 s0 s1 s2)
        by (easy || (eapply gets_ext; [apply get_py2|apply gets_index])).
      cbn [bind]. fold args. fold c.
      cbn [op_inside] in Hi.
      set (off := o0 + 256 * o1 + 65536 * o2 + 16777216 * o3) in *.
      assert (1 <= (if s0 + 256 * s1 + 65536 * s2 =? 0 then 65536 else s0 + 256 * s1 + 65536 * s2)) as Hsz.
      { unfold is_bytes in Hb. repeat rewrite Forall_cons_iff in Hb. apply copy_size_pos; tauto. }
      set (sz := if s0 + 256 * s1 + 65536 * s2 =? 0 then 65536 else s0 + 256 * s1 + 65536 * s2) in *.
      replace ((off + sz <? sz) || (n <? off + sz)) with false by lia.
      replace (len (pre ++ [c]) + len args) with (len ((pre ++ [c]) ++ args)) by now rewrite !len_app.
      rewrite (app_assoc (pre ++ [c]) args (bs ++ t)).
      destruct (IH Hin' f ((pre ++ [c]) ++ args) (tbw + sz) (dcl ++ [mk_chunk tbw sz off None])) as (f' & tbw' & dcl' & ->).
      { cbn [length app] in Hf. rewrite app_length in Hf. lia. }
      exists f', tbw', dcl'. now rewrite <- !app_assoc.
Qed.
Lemma connect_zero v1 v2 n m ops e rest ds : varint v1 n -> varint v2 m -> ops_enc ops e -> Forall (op_inside n) ops ->
  connect_deltas Py2 ((v1 ++ v2 ++ e ++ 0 :: rest, len (v1 ++ v2 ++ e ++ 0 :: rest)) :: ds) = Raise ValueError.
Proof.
  intros H1 H2 He Hin. cbn [connect_deltas]. unfold parse_delta.
  pose proof (msb_size_ok [] v1 (v2 ++ e ++ 0 :: rest) n H1) as M1. cbn [app] in M1.
  rewrite len_nil in M1. rewrite M1. cbn [bind].
  pose proof (msb_size_ok v1 v2 (e ++ 0 :: rest) m H2) as M2.
  rewrite Z.add_0_l, M2. cbn [bind]. rewrite <- len_app, app_assoc.
  destruct (parse_loop_prefix n ops e (0 :: rest) He Hin (Z.to_nat (len ((v1 ++ v2) ++ e ++ 0 :: rest))) (v1 ++ v2) 0 []) as (f & tbw & dcl & ->).
  { unfold len. rewrite !app_length. cbn [length]. lia. }
  cbn [parse_loop]. replace (len ((v1 ++ v2) ++ e) <? len ((v1 ++ v2) ++ e ++ 0 :: rest)) with true by (rewrite !len_app, len_cons; pose proof (len_nonneg _ rest); lia).
  rewrite (app_assoc (v1 ++ v2) e). rewrite index_app by easy. reflexivity.
Qed.

(** ** connect_deltas *)
Lemma parse_delta_ok src d tgt : is_delta src d tgt ->
  exists l, parse_delta Py2 d (len d) = Ok l /\ contiguous (len src) 0 l /\
    delta_list_apply l src = tgt.
Proof.
  intros (v1 & v2 & ops & e & -> & H1 & H2 & Hlen & He & Hin & ->).
  unfold parse_delta.
  pose proof (msb_size_ok [] v1 (v2 ++ e) (len src) H1) as M1. cbn [app] in M1.
  change 0 with (len (@nil Z)) at 1. rewrite M1. cbn [bind].
  pose proof (msb_size_ok v1 v2 e (len (ops_bytes src ops)) H2) as M2.
  rewrite len_nil, Z.add_0_l. rewrite M2. cbn [bind].
  rewrite <- len_app, app_assoc.
  rewrite (parse_loop_ok (len src) ops e He Hin) by (unfold len; rewrite !app_length; lia).
  cbn [bind app].
  destruct (compress_ok (len src) src (op_chunks 0 ops)) as (l & Hl & Hc & Ha & _).
  { now apply (op_chunks_ok _ _ e). }
  exists l. split; [exact Hl|]. split; [exact Hc|]. rewrite Ha. now apply (op_chunks_apply (len src) src ops e).
Qed.

Lemma all_data_any_base l n base base' : forall t, contiguous n t l -> all_data l ->
  delta_list_apply l base = delta_list_apply l base'.
Proof.
  induction l as [|d l IH]; intros t Hc Ha; [easy|]. destruct Hc as (_ & _ & Hc). inversion Ha; subst.
  rewrite !list_apply_cons, (IH _ Hc) by easy. f_equal. unfold delta_chunk_apply.
  now destruct (c_data d).
Qed.
Lemma all_data_contiguous l n n' : forall t, contiguous n t l -> all_data l -> contiguous n' t l.
Proof.
  induction l as [|d l IH]; intros t Hc Ha; [easy|]. destruct Hc as (H1 & H2 & Hc). inversion Ha; subst.
  cbn [contiguous]. split; [easy|]. split; [|auto]. unfold chunk_ok in *. now destruct (c_data d).
Qed.
Lemma connect_rest_ok base : forall ds mid, delta_chain base ds mid ->
  forall tdcl, contiguous (len mid) 0 tdcl ->
  exists l, connect_rest Py2 tdcl (map (fun d => (d, len d)) ds) = Ok l /\
    contiguous (len base) 0 l /\
    delta_list_apply l base = delta_list_apply tdcl mid.
Proof.
  induction 1 as [|d ds mid tgt Hch IH Hd]; intros tdcl Ht; cbn [map connect_rest].
  - now exists tdcl.
  - destruct (parse_delta_ok _ _ _ Hd) as (dcl & -> & Hc & Ha). cbn [bind].
    unfold connect_with_next_base.
    destruct (connect_loop_ok mid dcl Hc tdcl [] 0) as (l & g & -> & Hl & Hla & Hg).
    + easy.
    + cbn [total]. now rewrite Ha.
    + easy.
    + constructor.
    + cbn [bind]. cbn [delta_list_apply map concat app] in Hla. rewrite Ha in Hla. destruct g.
      * destruct (IH l Hl) as (l' & -> & Hl' & Hla'). exists l'. split; [easy|]. split; [easy|].
        now rewrite Hla'.
      * exists l. split; [easy|]. specialize (Hg eq_refl). split.
        -- now apply (all_data_contiguous l (len mid)).
        -- rewrite <- Hla. now apply (all_data_any_base l (len mid) _ _ 0).
Qed.
Lemma connect_deltas_ok base ds result : delta_chain base ds result -> ds <> [] ->
  exists l, connect_deltas Py2 (map (fun d => (d, len d)) ds) = Ok l /\
    contiguous (len base) 0 l /\
    delta_list_apply l base = result.
Proof.
  intros H Hn. destruct H as [|d ds mid tgt Hch Hd]; [easy|].
  cbn [map connect_deltas]. destruct (parse_delta_ok _ _ _ Hd) as (dcl & -> & Hc & Ha). cbn [bind].
  destruct (connect_rest_ok base ds mid Hch dcl Hc) as (l & -> & Hl & Hla).
  exists l. split; [easy|]. split; [easy|]. now rewrite Hla.
Qed.

(** ** check_integrity accepts contiguous lists *)
Lemma contiguous_adjacent n l : forall t, contiguous n t l -> adjacent_ok l = true.
Proof.
  induction l as [|d l IH]; intros t Hc; [easy|]. destruct Hc as (H1 & H2 & Hc).
  destruct l as [|d' l]; [easy|]. change (adjacent_ok (d :: d' :: l)) with ((c_rbound d =? c_to d') && adjacent_ok (d' :: l)).
  rewrite (IH _ Hc), andb_true_r.
  destruct Hc as [H3 _]. unfold c_rbound. lia.
Qed.
Lemma fold_total l : forall a, fold_left (fun a d => a + c_ts d) l a = a + total l.
Proof. induction l as [|d l IH]; intros a; cbn [fold_left total]; [lia|]. rewrite IH. lia. Qed.
Lemma index_last {A} (a : list A) x : index (a ++ [x]) (-1) = Ok x.
Proof.
  unfold index, norm_idx. rewrite len_app, len_cons, len_nil. pose proof (len_nonneg _ a).
  cbn [Z.ltb Z.compare].
  replace ((0 <=? -1 + (len a + (0 + 1))) && (-1 + (len a + (0 + 1)) <? len a + (0 + 1))) with true by lia.
  rewrite nth_error_app2 by (unfold len; lia).
  now replace (Z.to_nat (-1 + (len a + (0 + 1))) - length a)%nat with 0%nat by (unfold len; lia).
Qed.
Lemma check_integrity_ok n l : contiguous n 0 l -> l <> [] -> check_integrity Py2 l (total l) = Ok tt.
Proof.
  intros Hc Hn. unfold check_integrity. pose proof (total_nonneg _ _ _ Hc).
  replace (-1 <? total l) with true by lia.
  destruct (exists_last Hn) as (a & x & E).
  assert (index l (-1) = Ok x) as -> by (rewrite E; apply index_last). cbn [bind].
  assert (c_rbound x = total l) as ->.
  { pose proof (contiguous_to n l a x [] 0 E Hc). unfold c_rbound. rewrite E, total_app. cbn [total]. lia. }
  unfold py_assert. rewrite Z.eqb_refl, fold_total, Z.add_0_l, Z.eqb_refl. cbn [bind].
  destruct (len l <? 2); [easy|].
  assert (forallb chunk_data_ok l = true) as ->.
  { clear - Hc. revert Hc. generalize 0. induction l as [|d l IH]; intros t Hc; [easy|].
    destruct Hc as (_ & [H1 H2] & Hc). cbn [forallb]. rewrite (IH _ Hc). unfold chunk_data_ok.
    destruct (c_data d); lia. }
  now rewrite (contiguous_adjacent n l 0 Hc).
Qed.
Lemma connect_deltas_integrity base ds result : delta_chain base ds result -> ds <> [] -> result <> [] ->
  exists l, connect_deltas Py2 (map (fun d => (d, len d)) ds) = Ok l /\
    check_integrity Py2 l (len result) = Ok tt.
Proof.
  intros H Hn Hr. destruct (connect_deltas_ok base ds result H Hn) as (l & Hl & Hc & Ha).
  exists l. split; [easy|].
  pose proof (list_apply_len l base 0 Hc) as Ht. rewrite Ha in Ht. rewrite Ht.
  apply (check_integrity_ok (len base)); [easy|]. intros ->. apply Hr. rewrite <- Ha. easy.
Qed.

(** ** What lists say about themselves *)
Lemma dcl_bounds n t l : contiguous n t l -> l <> [] -> dcl_lbound l = Ok t /\ dcl_rbound l = Ok (t + total l).
Proof.
  intros Hc Hn. unfold dcl_lbound, dcl_rbound. assert (0 < len l) by (destruct l; [easy|rewrite len_cons; pose proof (len_nonneg _ l); lia]). replace (len l =? 0) with false by lia. split.
  - destruct l as [|d l]; [easy|]. destruct Hc as [<- _]. reflexivity.
  - destruct (exists_last Hn) as (a & x & E). assert (index l (-1) = Ok x) as -> by (rewrite E; apply index_last). cbn [bind].
    pose proof (contiguous_to n l a x [] t E Hc). unfold c_rbound. rewrite E, total_app. cbn [total]. f_equal. lia.
Qed.
Lemma dcl_size_ok base t l : contiguous (len base) t l -> dcl_size l = Ok (len (dcl_apply l base)).
Proof.
  intros Hc. unfold dcl_apply. rewrite (list_apply_len l base t Hc). destruct l as [|d l]; [reflexivity|].
  destruct (dcl_bounds _ t (d :: l) Hc) as [H1 H2]; [easy|]. unfold dcl_size. rewrite H2, H1. cbn [bind]. f_equal. lia.
Qed.
Lemma dcl_bounds_ok base t l : contiguous (len base) t l -> l <> [] -> dcl_lbound l = Ok t /\ dcl_rbound l = Ok (t + len (dcl_apply l base)).
Proof. intros Hc Hn. unfold dcl_apply. rewrite (list_apply_len l base t Hc). now apply (dcl_bounds (len base)). Qed.
Lemma adjacent_contiguous n : forall l d, adjacent_ok (d :: l) = true -> Forall (chunk_ok n) (d :: l) -> contiguous n (c_to d) (d :: l).
Proof.
  induction l as [|d' l IH]; intros d Ha Hk; inversion Hk as [|? ? H1 H2]; subst; cbn [contiguous]; [easy|]. split; [easy|]. split; [easy|].
  cbn [adjacent_ok] in Ha. apply andb_true_iff in Ha as [H3 H4]. unfold c_rbound in H3. replace (c_to d + c_ts d) with (c_to d') by lia. now apply (IH d').
Qed.
Lemma integrity_sound base l target : check_integrity Py2 l target = Ok tt -> 0 <= target -> 2 <= len l ->
  Forall (fun d => c_data d = None -> 0 <= c_so d /\ c_so d + c_ts d <= len base) l ->
  contiguous (len base) 0 l /\ len (dcl_apply l base) = target.
Proof.
  intros H Ht Hl Hin. unfold check_integrity in H. replace (-1 <? target) with true in H by lia. apply bind_ok_inv in H as ([] & H1 & H2).
  apply bind_ok_inv in H1 as (x & Hx & H1). unfold py_assert in H1. destruct (c_rbound x =? target) eqn:E1; [|discriminate]. destruct (fold_left _ l 0 =? target) eqn:E2; [|discriminate]. clear H1.
  rewrite fold_total in E2. replace (len l <? 2) with false in H2 by lia. unfold py_assert in H2. destruct (forallb chunk_data_ok l) eqn:E3; [|discriminate]. destruct (adjacent_ok l) eqn:E4; [|discriminate].
  destruct l as [|d l]; [rewrite len_nil in Hl; lia|]. assert (Hk : Forall (chunk_ok (len base)) (d :: l)).
  { rewrite Forall_forall in *. rewrite forallb_forall in E3. intros c Hc. specialize (Hin c Hc). specialize (E3 c Hc). unfold chunk_data_ok in E3. unfold chunk_ok. destruct (c_data c); [lia|]. specialize (Hin eq_refl). lia. }
  pose proof (adjacent_contiguous (len base) l d E4 Hk) as Hc. assert (c_to d = 0) as E0.
  { destruct (dcl_bounds _ _ _ Hc) as [_ Hr]; [easy|]. unfold dcl_rbound in Hr. replace (len (d :: l) =? 0) with false in Hr by lia. rewrite Hx in Hr. cbn [bind] in Hr. assert (c_rbound x = c_to d + total (d :: l)) by congruence. clear Hr. lia. }
  rewrite E0 in Hc. split; [exact Hc|]. unfold dcl_apply. rewrite (list_apply_len _ base 0 Hc). lia.
Qed.

(** ** Python 3 *)
Lemma integrity_py3 n l : contiguous n 0 l -> 2 <= len l -> check_integrity Py3 l (-1) = Raise AttributeError.
Proof.
  intros Hc Hl. unfold check_integrity. cbn [Z.ltb Z.compare bind]. replace (len l <? 2) with false by lia.
  assert (forallb chunk_data_ok l = true) as ->; [|reflexivity].
  clear - Hc. revert Hc. generalize 0. induction l as [|d l IH]; intros t Hc; [easy|].
  destruct Hc as (_ & [H1 H2] & Hc). cbn [forallb]. rewrite (IH _ Hc). unfold chunk_data_ok. destruct (c_data d); lia.
Qed.
Lemma connect_deltas_py3 src d tgt ds : is_delta src d tgt -> tgt <> [] ->
  connect_deltas Py3 ((d, len d) :: ds) = Raise TypeError.
Proof.
  intros (v1 & v2 & ops & e & -> & H1 & H2 & Hlen & He & Hin & ->) Hn.
  destruct He as [|op ops b bs Hop Hops]; [easy|].
  cbn [connect_deltas]. unfold parse_delta.
  pose proof (msb_size_ok [] v1 (v2 ++ b ++ bs) (len src) H1) as M1. cbn [app] in M1.
  change 0 with (len (@nil Z)) at 1. rewrite M1. cbn [bind].
  pose proof (msb_size_ok v1 v2 (b ++ bs) _ H2) as M2.
  rewrite len_nil, Z.add_0_l, M2. cbn [bind].
  pose proof (op_enc_nonempty _ _ Hop) as Hb. pose proof (len_nonneg _ bs).
  pose proof (len_nonneg _ v1). pose proof (len_nonneg _ v2).
  destruct (Z.to_nat (len (v1 ++ v2 ++ b ++ bs))) as [|f] eqn:E.
  { rewrite !len_app in E. lia. }
  cbn [parse_loop]. rewrite !len_app.
  replace (len v1 + len v2 <? len v1 + (len v2 + (len b + len bs))) with true by lia.
  destruct b as [|c b]; [rewrite len_nil in Hb; lia|].
  cbn [app]. rewrite app_assoc, index_app by (rewrite len_app; lia). easy.
Qed.

(** ** compress() on Python 3 *)
Fixpoint joins (run : Z) (l : list chunk) : bool :=
  match l with
  | [] => false
  | c :: l' => match c_data c with Some _ => joins (run + 1) l' | None => (3 <=? run) || joins 0 l' end
  end.
Lemma compress_py3_loop : forall rest pre run fuel, (length rest < fuel)%nat -> 0 <= run <= len pre ->
  while fuel (compress_step Py3) (pre ++ rest, len pre, if run =? 0 then None else Some (len pre - run)) =
  if joins run rest then Raise TypeError else Ok (pre ++ rest).
Proof.
  induction rest as [|c rest IH]; intros pre run fuel Hf Hr; (destruct fuel as [|f]; [cbn in Hf; lia|]); cbn [while].
  - unfold compress_step at 1. rewrite app_nil_r. replace (len pre <? len pre) with false by lia. easy.
  - unfold compress_step at 1. rewrite len_app, len_cons. pose proof (len_nonneg _ rest). replace (len pre <? len pre + (len rest + 1)) with true by lia.
    rewrite index_app by easy. cbn [bind joins]. assert (E : pre ++ c :: rest = (pre ++ [c]) ++ rest) by now rewrite <- app_assoc. assert (El : len (pre ++ [c]) = len pre + 1) by (rewrite len_app; easy).
    cbn [length] in Hf. assert (H0 : while f (compress_step Py3) (pre ++ c :: rest, len pre + 1, None) = if joins 0 rest then Raise TypeError else Ok (pre ++ c :: rest)).
    { rewrite E, <- El. apply (IH (pre ++ [c]) 0 f); [lia|]. pose proof (len_nonneg _ (pre ++ [c])). lia. }
    destruct (c_data c) as [d|] eqn:Ed.
    + rewrite E, <- El. rewrite <- (IH (pre ++ [c]) (run + 1) f) by lia. replace (run + 1 =? 0) with false by lia. rewrite El.
      destruct (run =? 0) eqn:E0; [replace (len pre + 1 - (run + 1)) with (len pre + 1 - 1) by lia|replace (len pre + 1 - (run + 1)) with (len pre - run) by lia]; reflexivity.
    + destruct (run =? 0) eqn:E0; [replace (3 <=? run) with false by lia; cbn [orb]; rewrite <- H0; reflexivity|].
      replace (1 <? len pre + 1 - 2 - (len pre - run)) with (3 <=? run) by lia. destruct (3 <=? run) eqn:E3; [|cbn [orb]; rewrite <- H0; reflexivity].
      cbn [orb]. destruct (index_in _ (pre ++ c :: rest) (len pre - run)) as (x & ->); [rewrite len_app, len_cons; lia|]. cbn [bind].
      destruct (slice (pre ++ c :: rest) (len pre - run) (len pre + 1 - 1)) as [|y l] eqn:Es; [|reflexivity]. exfalso.
      pose proof (len_slice _ (pre ++ c :: rest) (len pre - run) (len pre + 1 - 1)) as Hl. rewrite Es, len_app, len_cons in Hl. cbn in Hl. lia.
Qed.
Lemma joins_iff l : forall run, 0 <= run -> joins run l = true <->
  (exists k c d, l = k ++ c :: d /\ Forall (fun x => c_data x <> None) k /\ c_data c = None /\ 3 <= run + len k) \/
  exists a x y z c d, l = a ++ [x; y; z; c] ++ d /\ c_data x <> None /\ c_data y <> None /\ c_data z <> None /\ c_data c = None.
Proof.
  induction l as [|e l IH]; intros run Hr.
  - cbn [joins]. split; [easy|]. intros [(k & c & d & H & _)|(a & x & y & z & c & d & H & _)]; [now destruct k|now destruct a].
  - cbn [joins]. destruct (c_data e) as [b|] eqn:Ee.
    + rewrite IH by lia. split.
      * intros [(k & c & d & -> & H1 & H2 & H3)|(a & x & y & z & c & d & -> & H)].
        -- left. exists (e :: k), c, d. split; [easy|]. split; [constructor; congruence|]. split; [easy|]. rewrite len_cons. lia.
        -- right. exists (e :: a), x, y, z, c, d. now split.
      * intros [(k & c & d & H0 & H1 & H2 & H3)|(a & x & y & z & c & d & H0 & H)].
        -- destruct k as [|e' k]; [injection H0 as -> _; congruence|]. injection H0 as <- ->. inversion H1; subst. left. exists k, c, d. split; [easy|]. split; [easy|]. split; [easy|]. rewrite len_cons in H3. lia.
        -- destruct a as [|e' a]; [|injection H0 as <- ->; right; now exists a, x, y, z, c, d]. injection H0 as <- ->. left. exists [y; z], c, d. split; [easy|]. split; [repeat constructor; easy|]. split; [easy|]. cbn. lia.
    + rewrite orb_true_iff, IH by lia. split.
      * intros [H|[(k & c & d & -> & H1 & H2 & H3)|(a & x & y & z & c & d & -> & H)]].
        -- left. exists [], e, l. split; [easy|]. split; [easy|]. split; [easy|]. cbn. lia.
        -- destruct (@exists_last _ k) as (k1 & z & ->); [intros ->; cbn in H3; lia|]. destruct (@exists_last _ k1) as (k2 & y & ->); [intros ->; cbn in H3; lia|].
           destruct (@exists_last _ k2) as (k3 & x & ->); [intros ->; cbn in H3; lia|]. right. rewrite !Forall_app, !Forall_cons_iff in H1. exists (e :: k3), x, y, z, c, d. split; [now rewrite <- !app_assoc|]. tauto.
        -- right. exists (e :: a), x, y, z, c, d. now split.
      * intros [(k & c & d & H0 & H1 & H2 & H3)|(a & x & y & z & c & d & H0 & H)].
        -- destruct k as [|e' k]; [left; cbn in H3; lia|]. injection H0 as <- ->. inversion H1; subst. congruence.
        -- destruct a as [|e' a]; [injection H0 as <- _; now destruct H|]. injection H0 as <- ->. right. right. now exists a, x, y, z, c, d.
Qed.
Lemma compress_py3 l :
  let joined := exists a x y z c d, l = a ++ [x; y; z; c] ++ d /\ c_data x <> None /\ c_data y <> None /\ c_data z <> None /\ c_data c = None in
  (joined -> compress Py3 l = Raise TypeError) /\ (~ joined -> compress Py3 l = Ok l).
Proof.
  intros joined. assert (Hj : joins 0 l = true <-> joined).
  { rewrite joins_iff by lia. split; [|now right]. intros [(k & c & d & -> & H1 & H2 & H3)|H]; [|easy].
    destruct (@exists_last _ k) as (k1 & z & ->); [intros ->; cbn in H3; lia|]. destruct (@exists_last _ k1) as (k2 & y & ->); [intros ->; cbn in H3; lia|].
    destruct (@exists_last _ k2) as (k3 & x & ->); [intros ->; cbn in H3; lia|]. rewrite !Forall_app, !Forall_cons_iff in H1. exists k3, x, y, z, c, d. split; [now rewrite <- !app_assoc|]. tauto. }
  assert (Hc : compress Py3 l = if joins 0 l then Raise TypeError else Ok l).
  { unfold compress. destruct (len l <? 2) eqn:E; [|apply (compress_py3_loop l [] 0); cbn; lia].
    destruct l as [|a [|b l]]; [easy| |rewrite !len_cons in E; pose proof (len_nonneg _ l); lia]. cbn [joins]. now destruct (c_data a). }
  rewrite Hc. destruct (joins 0 l); [|].
  - split; [easy|]. intros H. elim H. now apply Hj.
  - split; [|easy]. intros H. apply Hj in H. congruence.
Qed.
