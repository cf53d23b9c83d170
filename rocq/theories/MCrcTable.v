(** The table driven algorithm crcmod runs for "crc-ccitt-false", the library
    call made by d7a/support/Crc.py:26-31 (crcmod is not part of /repo; this is
    its documented pure Python implementation: a table of 256 entries, one
    lookup per byte).  MCrc.v is the bit by bit definition. *)
From Verif Require Import MBase.

(** one shift of [_bytecrc] *)
Definition table_shift (crc : Z) : Z :=
  if Z.testbit crc 15 then Z.land (Z.lxor (Z.shiftl crc 1) 4129) 65535
  else Z.land (Z.shiftl crc 1) 65535.
Fixpoint shifts (n : nat) (crc : Z) : Z :=
  match n with O => crc | S k => shifts k (table_shift crc) end.
(** the table, [_mkTable] *)
Definition crc_table : list Z := map (fun i => shifts 8 (Z.shiftl (Z.of_nat i) 8)) (seq 0 256).
(** one byte of [_crc16]: [table[ord(x) ^ ((crc>>8) & 0xFF)] ^ ((crc << 8) & 0xFF00)] *)
Definition table_step (crc x : Z) : Z :=
  Z.lxor (nth (Z.to_nat (Z.lxor x (Z.land (Z.shiftr crc 8) 255))) crc_table 0)
         (Z.land (Z.shiftl crc 8) 65280).
Definition crc16_by_table (bytes : list Z) : Z := fold_left table_step bytes 65535.
