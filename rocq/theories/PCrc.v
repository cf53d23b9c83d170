(** The CRC: property C57. *)
From Verif Require Import LCrcPoly.

(** the two bytes are the remainder of the polynomial division, and the only one *)
Theorem C57_crc_is_the_remainder : forall bytes r, 0 <= r < 65536 ->
  (calculate_crc bytes = (r / 256, r mod 256) <-> remainder (dividend bytes) r).
Proof. exact crc_is_remainder. Qed.
Print Assumptions C57_crc_is_the_remainder.

Theorem C57_remainder_unique : forall m r r', remainder m r -> remainder m r' -> r = r'.
Proof. exact remainder_unique. Qed.
Print Assumptions C57_remainder_unique.

(** a block followed by two bytes divides without remainder exactly when the
    two bytes are its CRC *)
Theorem C57_residue : forall bytes a b, is_byte a -> is_byte b ->
  (calculate_crc (bytes ++ [a; b]) = (0, 0) <-> calculate_crc bytes = (a, b)).
Proof. exact residue. Qed.
Print Assumptions C57_residue.

(** the table driven algorithm of the library computes the same function *)
Theorem C57_table_driven : forall bytes, Forall is_byte bytes -> crc16_by_table bytes = crc16 bytes.
Proof. exact table_driven. Qed.
Print Assumptions C57_table_driven.

(** the check value of CRC-16/CCITT-FALSE: "123456789" gives 0x29B1 *)
Example C57_case : calculate_crc [49; 50; 51; 52; 53; 54; 55; 56; 57] = (41, 177)
  /\ crc16_by_table [49; 50; 51; 52; 53; 54; 55; 56; 57] = 10673
  /\ calculate_crc [49; 50; 51; 52; 53; 54; 55; 56; 57; 41; 177] = (0, 0).
Proof. vm_compute. auto. Qed.
