(** Model of delta application and reverse delta aggregation, gitdb/fun.py:61-390 and
    536-678.  Definitions only. *)
From Verif Require Import Py FunModel.

(** ** Instruction decoding shared by apply_delta_data and connect_deltas *)

(** [get i] is [db[i]] (apply_delta_data) or [ord(db[i])] (connect_deltas). *)
Section Decode.
  Variable get : Z -> res Z.
  (** [if (c & flag): acc |= get(i) << sh; i += 1] *)
  Definition opt_arg (c flag sh acc i : Z) : res (Z * Z) :=
    if Z.land c flag =? 0 then Ok (acc, i)
    else let! b := get i in Ok (Z.lor acc (Z.shiftl b sh), i + 1).
  (** gitdb/fun.py:562-586 and 638-662: offset, size and the next position. *)
  Definition parse_copy (c i : Z) : res (Z * Z * Z) :=
    let! (cp_off, i) := opt_arg c 1 0 0 i in
    let! (cp_off, i) := opt_arg c 2 8 cp_off i in
    let! (cp_off, i) := opt_arg c 4 16 cp_off i in
    let! (cp_off, i) := opt_arg c 8 24 cp_off i in
    let! (cp_size, i) := opt_arg c 16 0 0 i in
    let! (cp_size, i) := opt_arg c 32 8 cp_size i in
    let! (cp_size, i) := opt_arg c 64 16 cp_size i in
    let cp_size := if cp_size =? 0 then 65536 else cp_size in
    Ok (cp_off, cp_size, i).
End Decode.

(** ** apply_delta_data: gitdb/fun.py:621-678 *)
Section Apply.
  Context {W : Type}.
  Variable write : W -> bytes -> res W.

  (** Lines 632-675; returns the position at which the loop was left.  [break] leaves the
      loop with the position after the copy arguments. *)
  Fixpoint apply_loop (fuel : nat) (src_buf : bytes) (src_buf_size : Z) (db : bytes)
    (delta_buf_size i : Z) (w : W) : res (Z * W) :=
    if i <? delta_buf_size then
      match fuel with
      | O => Diverge
      | S f =>
          let! c := index db i in
          let i := i + 1 in
          if negb (Z.land c 128 =? 0) then
            let! (cp_off, cp_size, i) := parse_copy (index db) c i in
            let rbound := cp_off + cp_size in
            if (rbound <? cp_size) || (src_buf_size <? rbound) then Ok (i, w)
            else
              let! w := write w (slice src_buf cp_off (cp_off + cp_size)) in
              apply_loop f src_buf src_buf_size db delta_buf_size i w
          else if negb (c =? 0) then
            let! w := write w (slice db i (i + c)) in
            apply_loop f src_buf src_buf_size db delta_buf_size (i + c) w
          else Raise ValueError
      end
    else Ok (i, w).
  (** Lines 621-678.  Every iteration advances [i], so [delta_buf_size] iterations are
      enough fuel. *)
  Definition apply_delta_data (src_buf : bytes) (src_buf_size : Z) (delta_buf : bytes)
    (delta_buf_size : Z) (w : W) : res W :=
    let! (i, w) := apply_loop (Z.to_nat delta_buf_size) src_buf src_buf_size delta_buf
                     delta_buf_size 0 w in
    py_assert (i =? delta_buf_size) (Ok w).
End Apply.

(** ** Delta chunks: gitdb/fun.py:61-146 *)
Record chunk := mk_chunk { c_to : Z; c_ts : Z; c_so : Z; c_data : option bytes }.
Definition c_rbound (d : chunk) : Z := c_to d + c_ts d.

(** gitdb/fun.py:75-90 *)
Definition move_delta_lbound (d : chunk) (n : Z) : chunk :=
  if n =? 0 then d
  else mk_chunk (c_to d + n) (c_ts d - n) (c_so d + n)
         (match c_data d with None => None | Some b => Some (slice_from b n) end).
(** [d.ts = n], as in gitdb/fun.py:63-72, 194 and 208 *)
Definition set_ts (d : chunk) (n : Z) : chunk := mk_chunk (c_to d) n (c_so d) (c_data d).

(** gitdb/fun.py:97-113: the bytes handed to [write]. *)
Definition delta_chunk_apply (d : chunk) (bbuf : bytes) : bytes :=
  match c_data d with
  | None => slice bbuf (c_so d) (c_so d + c_ts d)
  | Some b => if c_ts d <? len b then slice_to b (c_ts d) else b
  end.
(** gitdb/fun.py:170-179, with an accepting writer: the concatenation. *)
Definition delta_list_apply (dcl : list chunk) (bbuf : bytes) : bytes :=
  concat (map (fun d => delta_chunk_apply d bbuf) dcl).

(** Interpreter semantics: [Py2] stands for the interpreter the aggregation was written
    for (indexing bytes gives one-character strings, [/] on ints truncates, StringIO takes
    bytes); [Py3] for the supported one. *)

(** gitdb/fun.py:154-167.  On Python 3 [(lo + hi) / 2] is a float and [dcl[mid]] raises. *)
Fixpoint closest_loop (it : interp) (fuel : nat) (dcl : list chunk) (absofs lo hi : Z) : res Z :=
  if lo <? hi then
    match fuel with
    | O => Diverge
    | S f =>
        match it with
        | Py3 => Raise TypeError
        | Py2 =>
            let mid := (lo + hi) / 2 in
            let! dc := index dcl mid in
            if absofs <? c_to dc then closest_loop it f dcl absofs lo mid
            else if (absofs <? c_rbound dc) || (c_to dc =? absofs) then Ok mid
            else closest_loop it f dcl absofs (mid + 1) hi
        end
    end
  else Ok (len dcl - 1).
Definition closest_index (it : interp) (dcl : list chunk) (absofs : Z) : res Z :=
  closest_loop it (length dcl) dcl absofs 0 (len dcl).

(** gitdb/fun.py:200-214; [rest] is [dcl[cdi:]]. *)
Fixpoint slice_loop (rest : list chunk) (size : Z) : list chunk :=
  match rest with
  | [] => []
  | cd :: rest' =>
      if size =? 0 then []
      else if c_ts cd <=? size then cd :: slice_loop rest' (size - c_ts cd)
      else [set_ts cd size]
  end.
(** gitdb/fun.py:182-214: the chunks appended to [ndcl]. *)
Definition delta_list_slice (it : interp) (dcl : list chunk) (absofs size : Z) : res (list chunk) :=
  let! cdi := closest_index it dcl absofs in
  let! cd := index dcl cdi in
  if negb (c_to cd =? absofs) then
    let tcd := move_delta_lbound cd (absofs - c_to cd) in
    let tcd := set_ts tcd (Z.min (c_ts tcd) size) in
    Ok (tcd :: slice_loop (slice_from dcl (cdi + 1)) (size - c_ts tcd))
  else Ok (slice_loop (slice_from dcl cdi) size).

(** gitdb/fun.py:227-231 *)
Definition dcl_rbound (dcl : list chunk) : res Z :=
  if len dcl =? 0 then Ok 0 else let! d := index dcl (-1) in Ok (c_rbound d).

(** gitdb/fun.py:233-237 *)
Definition dcl_lbound (dcl : list chunk) : res Z :=
  if len dcl =? 0 then Ok 0 else let! d := index dcl 0 in Ok (c_to d).
(** gitdb/fun.py:239-241 *)
Definition dcl_size (dcl : list chunk) : res Z :=
  let! r := dcl_rbound dcl in let! l := dcl_lbound dcl in Ok (r - l).
(** gitdb/fun.py:243-246 *)
Definition dcl_apply (dcl : list chunk) (bbuf : bytes) : bytes := delta_list_apply dcl bbuf.

(** [nd.write(xdc.data[:xdc.ts])] for the chunks of a run: gitdb/fun.py:264-269.  On
    Python 3 io.StringIO rejects bytes.  [None] data does not occur inside a run. *)
Fixpoint run_data (it : interp) (l : list chunk) : res bytes :=
  match l with
  | [] => Ok []
  | x :: l' =>
      match it, c_data x with
      | Py3, _ => Raise TypeError
      | Py2, None => Raise TypeError
      | Py2, Some b => let! r := run_data it l' in Ok (slice_to b (c_ts x) ++ r)
      end
  end.

(** gitdb/fun.py:248-289, one iteration of the loop; the state is the list, [i] and
    [first_data_index]. *)
Definition compress_step (it : interp) (st : list chunk * Z * option Z)
  : res ((list chunk * Z * option Z) + list chunk) :=
  let '(l, i, first) := st in
  if i <? len l then
    let! dc := index l i in
    let i := i + 1 in
    match c_data dc with
    | None =>
        match first with
        | Some fdi =>
            if 1 <? i - 2 - fdi then
              let! f := index l fdi in
              let! buf := run_data it (slice l fdi (i - 1)) in
              let l := slice_to l fdi ++ [mk_chunk (c_to f) (len buf) 0 (Some buf)]
                       ++ slice_from l (i - 1) in
              Ok (inl (l, fdi + 1, None))
            else Ok (inl (l, i, None))
        | None => Ok (inl (l, i, None))
        end
    | Some _ =>
        Ok (inl (l, i, match first with None => Some (i - 1) | Some f => Some f end))
    end
  else Ok (inr l).
Definition compress (it : interp) (l : list chunk) : res (list chunk) :=
  if len l <? 2 then Ok l
  else while (2 * length l + 2) (compress_step it) (l, 0, None).

(** gitdb/fun.py:337-387 as a zipper: [acc] is [self[:dci]] (already final), [rest] is
    [self[dci:]].  Returns the new list and whether to go on. *)
Fixpoint connect_loop (it : interp) (bdcl acc rest : list chunk) (nfc : Z)
  : res (list chunk * bool) :=
  match rest with
  | [] => Ok (acc, negb (nfc =? len acc))
  | dc :: rest' =>
      match c_data dc with
      | Some _ => connect_loop it bdcl (acc ++ [dc]) rest' (nfc + 1)
      | None =>
          let! ccl := delta_list_slice it bdcl (c_so dc) (c_ts dc) in
          let ofs := c_to dc - c_so dc in
          let ccl := map (fun c => mk_chunk (c_to c + ofs) (c_ts c) (c_so c) (c_data c)) ccl in
          connect_loop it bdcl (acc ++ ccl) rest' nfc
      end
  end.
Definition connect_with_next_base (it : interp) (self bdcl : list chunk) : res (list chunk * bool) :=
  connect_loop it bdcl [] self 0.

(** gitdb/fun.py:556-604: instructions of one delta stream to chunks ([break] on a copy
    outside the base, no check at the end). *)
Fixpoint parse_loop (it : interp) (fuel : nat) (db : bytes) (delta_buf_size base_size i tbw : Z)
  (dcl : list chunk) : res (list chunk) :=
  let get i := let! b := index db i in ord_item it b in
  if i <? delta_buf_size then
    match fuel with
    | O => Diverge
    | S f =>
        let! c := get i in
        let i := i + 1 in
        if negb (Z.land c 128 =? 0) then
          let! (cp_off, cp_size, i) := parse_copy get c i in
          let rbound := cp_off + cp_size in
          if (rbound <? cp_size) || (base_size <? rbound) then Ok dcl
          else parse_loop it f db delta_buf_size base_size i (tbw + cp_size)
                 (dcl ++ [mk_chunk tbw cp_size cp_off None])
        else if negb (c =? 0) then
          parse_loop it f db delta_buf_size base_size (i + c) (tbw + c)
            (dcl ++ [mk_chunk tbw c 0 (Some (slice db i (i + c)))])
        else Raise ValueError
    end
  else Ok dcl.
(** gitdb/fun.py:549-606: [db] is the stream's content, [size] its declared size. *)
Definition parse_delta (it : interp) (db : bytes) (size : Z) : res (list chunk) :=
  let! (i, base_size) := msb_size db 0 in
  let! (i, target_size) := msb_size db i in
  let! dcl := parse_loop it (Z.to_nat size) db size base_size i 0 [] in
  compress it dcl.

(** gitdb/fun.py:536-618: the streams after the first are merged into the list of the
    first; merging stops early when nothing refers to the base any more. *)
Fixpoint connect_rest (it : interp) (tdcl : list chunk) (ds : list (bytes * Z)) : res (list chunk) :=
  match ds with
  | [] => Ok tdcl
  | (db, size) :: ds' =>
      let! dcl := parse_delta it db size in
      let! (tdcl, go_on) := connect_with_next_base it tdcl dcl in
      if go_on then connect_rest it tdcl ds' else Ok tdcl
  end.
Definition connect_deltas (it : interp) (ds : list (bytes * Z)) : res (list chunk) :=
  match ds with
  | [] => Ok []
  | (db, size) :: ds' =>
      let! tdcl := parse_delta it db size in
      connect_rest it tdcl ds'
  end.

(** gitdb/fun.py:291-319.  [right.next()] does not exist on Python 3. *)
Fixpoint adjacent_ok (l : list chunk) : bool :=
  match l with
  | a :: ((b :: _) as l') => (c_rbound a =? c_to b) && adjacent_ok l'
  | _ => true
  end.
Definition chunk_data_ok (d : chunk) : bool :=
  (0 <? c_ts d) && match c_data d with None => true | Some b => c_ts d <=? len b end.
Definition check_integrity (it : interp) (l : list chunk) (target_size : Z) : res unit :=
  let! _ := (if -1 <? target_size then
               let! d := index l (-1) in
               py_assert (c_rbound d =? target_size)
                 (py_assert (fold_left (fun a d => a + c_ts d) l 0 =? target_size) (Ok tt))
             else Ok tt) in
  if len l <? 2 then Ok tt
  else py_assert (forallb chunk_data_ok l)
         (match it with
          | Py3 => Raise AttributeError
          | Py2 => py_assert (adjacent_ok l) (Ok tt)
          end).
