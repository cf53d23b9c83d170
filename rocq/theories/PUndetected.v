(** C92: payloads the CRC cannot tell apart *)
From Verif Require Import SForge SUndetected SCrc LUndetected LUndetected2 LUndetected3.
Open Scope list_scope.
Open Scope Z_scope.

(** Whatever is in front of two neighbouring bytes and behind them, exactly one
    choice of the two gives any wanted CRC. *)
Theorem C92_two_bytes : forall a e h l, Forall is_byte a -> Forall is_byte e -> is_byte h -> is_byte l ->
  exists x y, is_byte x /\ is_byte y /\ calculate_crc (a ++ [x; y] ++ e) = (h, l)
  /\ forall x' y', is_byte x' -> is_byte y' -> calculate_crc (a ++ [x'; y'] ++ e) = (h, l) -> x' = x /\ y' = y.
Proof. exact two_free_bytes. Qed.
Print Assumptions C92_two_bytes.
(** [contents n] lists every content of [n] bytes once *)
Theorem C92_contents : forall n, NoDup (contents n) /\ forall w, In w (contents n) <-> length w = n /\ Forall is_byte w.
Proof. exact contents_listed. Qed.
Print Assumptions C92_contents.
(** Of all contents of a length of at least two bytes, one in 65536 has a given CRC. *)
Theorem C92_one_in_65536 : forall h l n, is_byte h -> is_byte l ->
  how_many (has_crc h l) (2 + n) = 256 ^ Z.of_nat n /\ how_many (fun _ => true) (2 + n) = 65536 * how_many (has_crc h l) (2 + n).
Proof. exact share_crc. Qed.
Print Assumptions C92_one_in_65536.
(** So many wrong payloads are accepted in place of a payload, of so many. *)
Theorem C92_wrong_payloads : forall p n, is_payload p -> length p = (2 + n)%nat ->
  let (h, l) := calculate_crc p in
  how_many (fun w => has_crc h l w && negb (same_bytes w p)) (2 + n) = 256 ^ Z.of_nat n - 1
  /\ how_many (fun w => negb (same_bytes w p)) (2 + n) = 256 ^ Z.of_nat (2 + n) - 1.
Proof. exact wrong_accepted. Qed.
Print Assumptions C92_wrong_payloads.
(** [has_crc], for the CRC of [p], is what decides whether the header of the
    frame of [p] is the header of the frame of [w] *)
Theorem C92_same_header : forall c t p w, length w = length p ->
  (calculate_crc w = calculate_crc p <-> header (frame c t w) = header (frame c t p)).
Proof. exact accepted_header. Qed.
Print Assumptions C92_same_header.
(** Such a payload is delivered in place of the one that was sent. *)
Theorem C92_delivered : forall lib q c t p w, sp_skip q = true -> sp_buf q = [] -> is_byte c -> is_byte t -> t <> 5 ->
  is_payload p -> Forall is_byte w -> length w = length p -> calculate_crc w = calculate_crc p ->
  exists q' r, sparse lib q (header (frame c t p) ++ w) = (q', Ok r) /\ pr_msgs r = [(t, MRaw w)] /\ pr_errors r = [] /\ sp_buf q' = [].
Proof. exact raw_delivered. Qed.
Print Assumptions C92_delivered.
(** File content: all but two bytes may be replaced by anything, if these two
    are the right ones; the receiver gets the other content and no error. *)
Theorem C92_content_authentic_refuted : forall lib q c id content w,
  sp_skip q = false -> sp_buf q = [] -> is_byte c -> is_byte id ->
  Forall is_byte content -> Forall is_byte w -> length content = (2 + length w)%nat -> zlen content <= 250 ->
  let head := header (frame c 1 (content_head id content ++ content)) ++ content_head id content in
  exists x y, is_byte x /\ is_byte y
  /\ (exists q' r, sparse lib q (head ++ w ++ [x; y]) = (q', Ok r)
       /\ pr_msgs r = [(1, MCmd (command_received (file_content id (w ++ [x; y]))))] /\ pr_errors r = [] /\ sp_buf q' = [])
  /\ (forall x' y', is_byte x' -> is_byte y' -> head ++ w ++ [x'; y'] = frame c 1 (content_head id content ++ w ++ [x'; y']) -> x' = x /\ y' = y).
Proof. exact content_altered. Qed.
Print Assumptions C92_content_authentic_refuted.
(** Two contents of the same length have the same CRC exactly if their difference,
    as a polynomial, is a multiple of the generator. *)
Theorem C92_same_crc_iff : forall p w, length w = length p ->
  (calculate_crc w = calculate_crc p <-> exists q, bits_val (diff (bytes_bits p) (bytes_bits w)) = pprod q generator).
Proof. exact same_crc_iff. Qed.
Print Assumptions C92_same_crc_iff.
(** Fewer than four flipped bits, or flipped bits in 16 neighbouring ones, are
    always detected (C06). Four within 17 are not: every payload can be changed
    in four bits, beginning at any bit, without a change of the CRC. *)
Theorem C92_four_bits : forall p k, Forall is_byte p -> (k + 17 <= 8 * length p)%nat ->
  exists w, Forall is_byte w /\ length w = length p /\ w <> p /\ calculate_crc w = calculate_crc p
  /\ diff (bytes_bits p) (bytes_bits w) = flips k (8 * length p).
Proof. exact four_flipped. Qed.
Print Assumptions C92_four_bits.
Theorem C92_flips : forall k n, (k + 17 <= n)%nat -> length (flips k n) = n /\ weight (flips k n) = 4%nat
  /\ forall i, nth i (flips k n) false = true <-> i = k \/ i = (k + 4)%nat \/ i = (k + 11)%nat \/ i = (k + 16)%nat.
Proof. exact flips_four. Qed.
Print Assumptions C92_flips.
Example C92_case : calculate_crc [9; 9; 59; 198] = calculate_crc [1; 2; 3; 4] /\
  (exists q r, sparse true (new_parser true) (header (frame 7 1 [1; 2; 3; 4]) ++ [9; 9; 59; 198]) = (q, Ok r) /\ pr_msgs r = [(1, MRaw [9; 9; 59; 198])])
  /\ exists q r, sparse true (new_parser true) (header (frame 7 1 [1; 2; 3; 4]) ++ [9; 9; 59; 199]) = (q, Ok r) /\ pr_msgs r = [].
Proof. exact altered_case. Qed.
