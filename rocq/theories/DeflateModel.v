(** A third executable implementation of the zlib interface: a decoder for all streams of
    RFC 1950 and RFC 1951 (without preset dictionary), and a simple compressor.  It models no
    code of /repo; it shows that the laws of ZlibModel.v hold of the real format, and examples
    use streams that zlib made. *)
From Verif Require Import Py PyFacts ZlibModel.

(** ** Decompression objects around a byte-wise decoder *)

(** [feed] takes one byte and gives some output; [done] says that the stream is finished,
    [direct] that the next byte is put out as it is.  Such a byte is not taken if there is no
    room for it; other output that found no room is kept. *)
Section Automaton.
  Variables (S : Type) (feed : S -> Z -> res (S * bytes)) (done direct : S -> bool).
  Record astate := mk_a { a_core : S; a_pend : bytes; a_tail : bytes; a_unused : bytes }.
  (** Goes on while there is input, unless the stream is finished or output finds no room. *)
  Fixpoint a_go (st : S) (pend inp : bytes) (room : Z) : res (S * bytes * bytes * bytes) :=
    if room <? len pend then Ok (st, slice_from pend room, slice_to pend room, inp)
    else match inp with
         | [] => Ok (st, [], pend, [])
         | c :: inp' =>
             if done st || (direct st && (room <=? len pend)) then Ok (st, [], pend, inp)
             else let! (st, o) := feed st c in
                  let! (st, p, out, over) := a_go st o inp' (room - len pend) in
                  Ok (st, p, pend ++ out, over)
         end.
  Definition a_decompress (st : astate) (inp : bytes) (n : Z) : res (bytes * astate) :=
    let! (c, p, out, over) := a_go (a_core st) (a_pend st) inp n in
    Ok (out, if done c then mk_a c p (match a_tail st with [] => [] | _ => over end) (a_unused st ++ over)
             else mk_a c p over (a_unused st)).
  (** All the output from all the input, which ends with the stream. *)
  Fixpoint a_run (st : S) (z : bytes) : option bytes :=
    match z with
    | [] => if done st then Some [] else None
    | c :: z' =>
        if done st then None
        else match feed st c with
             | Ok (st, o) => match a_run st z' with Some d => Some (o ++ d) | None => None end
             | _ => None
             end
    end.
End Automaton.
Arguments mk_a {S}. Arguments a_core {S}. Arguments a_pend {S}. Arguments a_tail {S}. Arguments a_unused {S}.

(** ** Huffman codes (RFC 1951, 3.2.2) *)

(** How many codes there are of the lengths 1 to 15, and the symbols in the order of their codes. *)
Record huff := mk_huff { h_count : list Z; h_symbol : list Z }.
Definition upto (n : nat) : list Z := map Z.of_nat (seq 0 n).
Definition code_lengths : list Z := tl (upto 16).
Definition with_length (lens : list Z) (l : Z) : list Z :=
  map snd (filter (fun p => fst p =? l) (combine lens (upto (length lens)))).
Definition build (lens : list Z) : huff :=
  mk_huff (map (fun l => len (with_length lens l)) code_lengths) (flat_map (with_length lens) code_lengths).
(** How many codes of 15 bits are not used; None: too many codes. *)
Definition left_over (counts : list Z) : option Z :=
  fold_left (fun left c => match left with Some n => if 2 * n <? c then None else Some (2 * n - c) | None => None end) counts (Some 1).
(** As zlib: a code must be complete, unless it has only codes of one bit, or none at all. *)
Definition usable (strict : bool) (h : huff) : bool :=
  match left_over (h_count h) with
  | None => false
  | Some 0 => true
  | Some _ => forallb (fun c => c =? 0) (tl (h_count h)) && (negb strict || (hd 0 (h_count h) =? 0))
  end.
(** RFC 1951, 3.2.6 *)
Definition fixed_lit : huff := build (repeat 8 144 ++ repeat 9 112 ++ repeat 7 24 ++ repeat 8 8).
Definition fixed_dist : huff := build (repeat 5 32).

(** ** The decoder *)

(** RFC 1951, 3.2.5 and 3.2.7 *)
Definition length_base : list Z :=
  [3; 4; 5; 6; 7; 8; 9; 10; 11; 13; 15; 17; 19; 23; 27; 31; 35; 43; 51; 59; 67; 83; 99; 115; 131; 163; 195; 227; 258].
Definition length_extra : list Z :=
  [0; 0; 0; 0; 0; 0; 0; 0; 1; 1; 1; 1; 2; 2; 2; 2; 3; 3; 3; 3; 4; 4; 4; 4; 5; 5; 5; 5; 0].
Definition dist_base : list Z :=
  [1; 2; 3; 4; 5; 7; 9; 13; 17; 25; 33; 49; 65; 97; 129; 193; 257; 385; 513; 769; 1025; 1537; 2049; 3073; 4097; 6145; 8193; 12289; 16385; 24577].
Definition dist_extra : list Z :=
  [0; 0; 0; 0; 1; 1; 2; 2; 3; 3; 4; 4; 5; 5; 6; 6; 7; 7; 8; 8; 9; 9; 10; 10; 11; 11; 12; 12; 13; 13].
Definition clen_order : list Z := [16; 17; 18; 0; 8; 7; 9; 6; 10; 5; 11; 4; 12; 3; 13; 2; 14; 1; 15].
Definition at_ (l : list Z) (i : Z) : Z := nth (Z.to_nat i) l 0.

(** What a number of fixed width is read for, *)
Inductive goal :=
| GBlock                                                  (* block header, 3 bits *)
| GCounts                                                 (* the three counts of a dynamic block *)
| GClen (nlen ndist todo : Z) (got : list Z)              (* lengths of the code length code *)
| GRepeat (ch : huff) (nlen ndist : Z) (rlens : list Z) (sym : Z)
| GLen (lit dist : huff) (base : Z)
| GDist (lit dist : huff) (n base : Z).
(** and a symbol. *)
Inductive wgoal :=
| WClen (ch : huff) (nlen ndist : Z) (rlens : list Z)     (* code lengths so far, backwards *)
| WLit (lit dist : huff)
| WDist (lit dist : huff) (n : Z).
(** The first two and the last four phases take whole bytes, the others bits. *)
Inductive phase :=
| PHead | PHead2 (cmf : Z)
| PCollect (g : goal) (need weight acc : Z)
| PWalk (g : wgoal) (counts symbols : list Z) (code first index : Z)
| PLen (l : bytes) | PCopy (n : Z) | PTrail (l : bytes) | PDone.
Definition bitwise (ph : phase) : bool := match ph with PCollect _ _ _ _ | PWalk _ _ _ _ _ _ => true | _ => false end.
Definition collect (g : goal) (n : Z) : phase := PCollect g n 1 0.
Definition walk (g : wgoal) (h : huff) : phase := PWalk g (h_count h) (h_symbol h) 0 0 0.
(** After a block. *)
Definition next_block (fin : bool) : phase := if fin then PTrail [] else collect GBlock 3.

(** n bytes from d bytes back in what was put out so far (backwards). *)
Fixpoint copy_back (n : nat) (d : nat) (hist : bytes) : bytes :=
  match n with
  | O => []
  | S n => let b := nth d hist 0 in b :: copy_back n d (b :: hist)
  end.
Definition match_out (hist : bytes) (n d : Z) : res bytes :=
  if len hist <? d then Raise ZlibError else Ok (copy_back (Z.to_nat n) (Z.to_nat (d - 1)) hist).

(** With the code lengths so far: the next one, or the data. *)
Definition next_clen (ch : huff) (nlen ndist : Z) (rlens : list Z) : res phase :=
  if len rlens <? nlen + ndist then Ok (walk (WClen ch nlen ndist rlens) ch)
  else
    let lens := rev' rlens in
    let lit := build (slice_to lens nlen) in let dist := build (slice_from lens nlen) in
    if (len rlens =? nlen + ndist) && negb (at_ lens 256 =? 0) && usable false lit && usable false dist then Ok (walk (WLit lit dist) lit)
    else Raise ZlibError.
(** A number has been read: is it the last block, the next phase, output. *)
Definition arrive (g : goal) (fin : bool) (hist : bytes) (v : Z) : res (bool * phase * bytes) :=
  match g with
  | GBlock =>
      let fin := v mod 2 =? 1 in
      match v / 2 with
      | 0 => Ok (fin, PLen [], [])
      | 1 => Ok (fin, walk (WLit fixed_lit fixed_dist) fixed_lit, [])
      | 2 => Ok (fin, collect GCounts 14, [])
      | _ => Raise ZlibError
      end
  | GCounts =>
      let nlen := 257 + v mod 32 in let ndist := 1 + v / 32 mod 32 in
      if (286 <? nlen) || (30 <? ndist) then Raise ZlibError
      else Ok (fin, collect (GClen nlen ndist (4 + v / 1024) []) 3, [])
  | GClen nlen ndist todo got =>
      let got := got ++ [v] in
      if len got <? todo then Ok (fin, collect (GClen nlen ndist todo got) 3, [])
      else
        let ch := build (map (fun s => fold_left (fun a p => if fst p =? s then snd p else a) (combine clen_order got) 0) (upto 19)) in
        if usable true ch then let! ph := next_clen ch nlen ndist [] in Ok (fin, ph, []) else Raise ZlibError
  | GRepeat ch nlen ndist rlens sym =>
      let add := match sym with
                 | 16 => repeat (hd 0 rlens) (Z.to_nat (3 + v))
                 | 17 => repeat 0 (Z.to_nat (3 + v))
                 | _ => repeat 0 (Z.to_nat (11 + v))
                 end in
      let! ph := next_clen ch nlen ndist (add ++ rlens) in Ok (fin, ph, [])
  | GLen lit dist base => Ok (fin, walk (WDist lit dist (base + v)) dist, [])
  | GDist lit dist n base => let! o := match_out hist n (base + v) in Ok (fin, walk (WLit lit dist) lit, o)
  end.
(** A symbol has been read. *)
Definition symbol (g : wgoal) (fin : bool) (hist : bytes) (s : Z) : res (bool * phase * bytes) :=
  match g with
  | WClen ch nlen ndist rlens =>
      if s <? 16 then let! ph := next_clen ch nlen ndist (s :: rlens) in Ok (fin, ph, [])
      else if (s =? 16) && (len rlens =? 0) then Raise ZlibError
      else Ok (fin, collect (GRepeat ch nlen ndist rlens s) (match s with 16 => 2 | 17 => 3 | _ => 7 end), [])
  | WLit lit dist =>
      if s <? 256 then Ok (fin, walk (WLit lit dist) lit, [s])
      else if s =? 256 then Ok (fin, next_block fin, [])
      else if 285 <? s then Raise ZlibError
      else
        let base := at_ length_base (s - 257) in
        match at_ length_extra (s - 257) with
        | 0 => Ok (fin, walk (WDist lit dist base) dist, [])
        | e => Ok (fin, collect (GLen lit dist base) e, [])
        end
  | WDist lit dist n =>
      if 29 <? s then Raise ZlibError
      else
        let base := at_ dist_base s in
        match at_ dist_extra s with
        | 0 => let! o := match_out hist n base in Ok (fin, walk (WLit lit dist) lit, o)
        | e => Ok (fin, collect (GDist lit dist n base) e, [])
        end
  end.
(** One bit.  Codes are read beginning with their first bit, numbers with their last. *)
Definition bit_step (ph : phase) (fin : bool) (hist : bytes) (b : Z) : res (bool * phase * bytes) :=
  match ph with
  | PCollect g need weight acc =>
      let acc := acc + weight * b in
      if need <=? 1 then arrive g fin hist acc else Ok (fin, PCollect g (need - 1) (2 * weight) acc, [])
  | PWalk g (c :: counts) symbols code first index =>
      let code := code + b in
      if code - first <? c then symbol g fin hist (at_ symbols (index + (code - first)))
      else Ok (fin, PWalk g counts symbols (2 * code) (2 * (first + c)) (index + c), [])
  | _ => Raise ZlibError
  end.
(** Phase, is it the last block, all output so far (backwards), its checksum. *)
Record core := mk_core { c_ph : phase; c_fin : bool; c_hist : bytes; c_ab : Z * Z }.
Definition with_out (st : core) (fin : bool) (ph : phase) (o : bytes) : core :=
  mk_core ph fin (rev_append o (c_hist st)) (fold_left adler_step o (c_ab st)).
(** The bits of a byte; after the last one of a block the others are skipped. *)
Fixpoint bits_step (st : core) (bits : list Z) : res (core * bytes) :=
  match bits with
  | [] => Ok (st, [])
  | b :: bits =>
      if bitwise (c_ph st) then
        let! (fin, ph, o) := bit_step (c_ph st) (c_fin st) (c_hist st) b in
        let! (st, o') := bits_step (with_out st fin ph o) bits in Ok (st, o ++ o')
      else Ok (st, [])
  end.
Fixpoint bits_of (n : nat) (c : Z) : list Z := match n with O => [] | S n => c mod 2 :: bits_of n (c / 2) end.
Definition after_bytes (fin : bool) (n : Z) : phase := if 0 <? n then PCopy n else next_block fin.
Definition inflate_feed (st : core) (c : Z) : res (core * bytes) :=
  let fin := c_fin st in
  let to ph o := Ok (with_out st fin ph o, o) in
  match c_ph st with
  | PHead => to (PHead2 c) []
  | PHead2 cmf =>
      if ((256 * cmf + c) mod 31 =? 0) && (cmf mod 16 =? 8) && (cmf / 16 <=? 7) && (c / 32 mod 2 =? 0) then to (collect GBlock 3) []
      else Raise ZlibError
  | PLen [l0; l1; n0] =>
      let n := l0 + 256 * l1 in
      if n0 + 256 * c =? 65535 - n then to (after_bytes fin n) [] else Raise ZlibError
  | PLen l => to (PLen (l ++ [c])) []
  | PCopy n => to (after_bytes fin (n - 1)) [c]
  | PTrail [x; y; z] => if beq [x; y; z; c] (adler_bytes (c_ab st)) then to PDone [] else Raise ZlibError
  | PTrail l => to (PTrail (l ++ [c])) []
  | PDone => Raise ZlibError
  | _ => bits_step st (bits_of 8 c)
  end.
Definition inflate_start : core := mk_core PHead false [] (1, 0).
Definition inflate_direct (st : core) : bool := match c_ph st with PCopy _ => true | _ => false end.
Definition inflate_done (st : core) : bool := match c_ph st with PDone => true | _ => false end.

(** ** A compressor *)

(** Literals and repetitions of the last byte, of 3 to 10 or 258 bytes. *)
Inductive token := Lit (b : Z) | Run (n : Z).
Fixpoint runs_of (d : bytes) : list (Z * Z) :=
  match d with
  | [] => []
  | b :: d' => match runs_of d' with
               | (c, n) :: l => if c =? b then (b, n + 1) :: l else (b, 1) :: (c, n) :: l
               | [] => [(b, 1)]
               end
  end.
Definition run_tokens (b n : Z) : list token :=
  let m := n - 1 in
  let k := m mod 258 in
  Lit b :: repeat (Run 258) (Z.to_nat (m / 258)) ++ repeat (Run 10) (Z.to_nat (k / 10)) ++
  (if 3 <=? k mod 10 then [Run (k mod 10)] else repeat (Lit b) (Z.to_nat (k mod 10))).
(** RFC 1951, 3.2.6, first bit first *)
Definition fixed_code (s : Z) : list Z :=
  let code n v := rev' (bits_of n v) in
  if s <? 144 then code 8%nat (48 + s)
  else if s <? 256 then code 9%nat (400 + (s - 144))
  else if s <? 280 then code 7%nat (s - 256)
  else code 8%nat (192 + (s - 280)).
Definition token_bits (t : token) : list Z :=
  match t with
  | Lit b => fixed_code b
  | Run n => fixed_code (if n =? 258 then 285 else 254 + n) ++ [0; 0; 0; 0; 0]
  end.
Fixpoint number (bits : list Z) : Z := match bits with [] => 0 | b :: l => b + 2 * number l end.
Fixpoint pack_bits (fuel : nat) (bits : list Z) : bytes :=
  match fuel, bits with
  | O, _ | _, [] => []
  | S f, _ => number (firstn 8 bits) :: pack_bits f (skipn 8 bits)
  end.
Definition fixed_bits (d : bytes) : list Z :=
  [1; 1; 0] ++ flat_map token_bits (flat_map (fun p => run_tokens (fst p) (snd p)) (runs_of d)) ++ fixed_code 256.
Definition fixed_compress (d : bytes) : bytes :=
  let bits := fixed_bits d in [120; 1] ++ pack_bits (length bits) bits ++ adler_bytes (adler d).
(** Level 0 is no compression. *)
Definition deflate : zlib :=
  mk_zlib (astate core) (mk_a inflate_start [] [] []) (a_decompress core inflate_feed inflate_done inflate_direct) a_tail a_unused
    (Z * bytes) (fun level => (level, [])) (fun c d => ([], (fst c, snd c ++ d)))
    (fun c => if fst c =? 0 then s_compress (snd c) else fixed_compress (snd c)).
