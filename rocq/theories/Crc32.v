(** binascii.crc32 / zlib.crc32 (the same function), used at gitdb/pack.py:152, 163, 832 and
    966.  Not part of /repo: this is the definition of RFC 1952, section 8, bit by bit. *)
From Verif Require Import Py.

Definition crc_poly : Z := 3988292384.      (* 0xEDB88320 *)
(** One bit of division *)
Definition crc_bit (c : Z) : Z := if Z.odd c then Z.lxor (Z.shiftr c 1) crc_poly else Z.shiftr c 1.
Fixpoint crc_bits (n : nat) (c : Z) : Z :=
  match n with O => c | S n' => crc_bits n' (crc_bit c) end.
Definition crc_byte (c b : Z) : Z := crc_bits 8 (Z.lxor c b).
(** crc32(data, start) *)
Definition crc32 (data : bytes) (start : Z) : Z :=
  Z.lxor (fold_left crc_byte data (Z.lxor start 4294967295)) 4294967295.

(** The check value of the CRC catalogue: "123456789" gives CBF43926. *)
Example crc32_check : crc32 [49; 50; 51; 52; 53; 54; 55; 56; 57] 0 = 3421780262.
Proof. vm_compute. reflexivity. Qed.
