(** SHA-1 (FIPS 180-4), concretely.  hashlib is not part of /repo; the theorems are about every
    function with 20-byte results, this one is used in examples with real files. *)
From Verif Require Import Py PyFacts.

Definition mask32 (x : Z) : Z := Z.land x 4294967295.
Definition rotl (n x : Z) : Z := Z.lor (mask32 (Z.shiftl x n)) (Z.shiftr x (32 - n)).
Definition sha_f (t b c d : Z) : Z :=
  if t <? 20 then Z.lor (Z.land b c) (Z.land (Z.lxor b 4294967295) d)
  else if t <? 40 then Z.lxor (Z.lxor b c) d
  else if t <? 60 then Z.lor (Z.lor (Z.land b c) (Z.land b d)) (Z.land c d)
  else Z.lxor (Z.lxor b c) d.
Definition sha_k (t : Z) : Z :=
  if t <? 20 then 1518500249 else if t <? 40 then 1859775393 else if t <? 60 then 2400959708 else 3395469782.
Record sha_state := mk_sha { sa : Z; sb : Z; sc : Z; sd : Z; se : Z }.
(** [w]: this word of the schedule and the next 15. *)
Fixpoint sha_rounds (n : nat) (t : Z) (w : list Z) (s : sha_state) : sha_state :=
  match n with
  | O => s
  | S n =>
      let at_ i := nth i w 0 in
      let temp := mask32 (rotl 5 (sa s) + sha_f t (sb s) (sc s) (sd s) + se s + sha_k t + at_ 0%nat) in
      let next := rotl 1 (Z.lxor (Z.lxor (at_ 13%nat) (at_ 8%nat)) (Z.lxor (at_ 2%nat) (at_ 0%nat))) in
      sha_rounds n (t + 1) (tl w ++ [next]) (mk_sha temp (sa s) (rotl 30 (sb s)) (sc s) (sd s))
  end.
Fixpoint words (n : nat) (block : bytes) : list Z :=
  match n with O => [] | S n => be_dec_acc (firstn 4 block) 0 :: words n (skipn 4 block) end.
Definition sha_block (s : sha_state) (block : bytes) : sha_state :=
  let s' := sha_rounds 80 0 (words 16 block) s in
  mk_sha (mask32 (sa s + sa s')) (mask32 (sb s + sb s')) (mask32 (sc s + sc s')) (mask32 (sd s + sd s')) (mask32 (se s + se s')).
Fixpoint sha_blocks (n : nat) (s : sha_state) (data : bytes) : sha_state :=
  match n with O => s | S n => sha_blocks n (sha_block s (firstn 64 data)) (skipn 64 data) end.
Definition sha_start : sha_state := mk_sha 1732584193 4023233417 2562383102 271733878 3285377520.
(** A byte 128, zeros up to 8 bytes before the end of a block, the number of bits. *)
Definition sha_pad (data : bytes) : bytes :=
  data ++ [128] ++ repeat 0 (Z.to_nat ((55 - len data) mod 64)) ++ be_enc 8 (8 * len data).
Definition sha1_of (data : bytes) : bytes :=
  let p := sha_pad data in
  let s := sha_blocks (Z.to_nat (len p / 64)) sha_start p in
  be_enc 4 (sa s) ++ be_enc 4 (sb s) ++ be_enc 4 (sc s) ++ be_enc 4 (sd s) ++ be_enc 4 (se s).

(** FIPS 180-4: "abc"; git's empty blob; more than one block. *)
Example sha1_checks :
  sha1_of [97; 98; 99] =
    [169; 153; 62; 54; 71; 6; 129; 106; 186; 62; 37; 113; 120; 80; 194; 108; 156; 208; 216; 157] /\
  sha1_of [98; 108; 111; 98; 32; 48; 0] =
    [230; 157; 226; 155; 178; 209; 214; 67; 75; 139; 41; 174; 119; 90; 216; 194; 228; 140; 83; 145] /\
  sha1_of (repeat 97 200) =
    [230; 28; 255; 254; 13; 145; 149; 165; 37; 252; 108; 240; 108; 162; 215; 113; 25; 194; 74; 64].
Proof. repeat split; vm_compute; reflexivity. Qed.
Lemma sha1_of_ok data : len (sha1_of data) = 20 /\ is_bytes (sha1_of data).
Proof.
  unfold sha1_of. split; [rewrite !len_app, !be_enc_len; reflexivity|].
  do 4 (apply Forall_app; split; [apply be_enc_bytes|]). apply be_enc_bytes.
Qed.
