(** d7a/support/Crc.py *)
From Verif Require Import MBase.

(** crcmod 'crc-ccitt-false': 16 bit register, polynomial 0x1021, initial value
    0xFFFF, bits most significant first, no final xor (crcmod.predefined).
    crcmod is table driven; the model is the bit-serial definition. *)
Definition crc_bit (crc : Z) (b : bool) : Z :=
  let top := xorb (Z.testbit crc 15) b in
  let sh := Z.land (Z.shiftl crc 1) 65535 in
  if top then Z.lxor sh 4129 else sh.

Definition crc_bits (crc : Z) (l : list bool) : Z := fold_left crc_bit l crc.

(** The value returned by the crcmod function (Crc.py:29-30). *)
Definition crc16 (bytes : list Z) : Z := crc_bits 65535 (bytes_bits bytes).

(** calculate_crc, Crc.py:28-31 *)
Definition calculate_crc (bytes : list Z) : Z * Z :=
  let crc := crc16 bytes in
  (Z.land (Z.shiftr crc 8) 255, Z.land crc 255).
