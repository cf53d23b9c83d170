(** What the CRC of a frame cannot tell: contents with the same length and CRC. *)
From Verif Require Export SSerial.
Open Scope list_scope.
Open Scope Z_scope.

Definition byte_values : list Z := map Z.of_nat (seq 0 256).
(** all contents of [n] bytes *)
Fixpoint contents (n : nat) : list (list Z) :=
  match n with
  | O => [[]]
  | S m => flat_map (fun b => map (cons b) (contents m)) byte_values
  end.
(** how many satisfy a condition *)
Definition how_many (f : list Z -> bool) (n : nat) : Z := zlen (filter f (contents n)).
(** the CRC bytes of [w] are [h] and [l] *)
Definition has_crc (h l : Z) (w : list Z) : bool := let (h', l') := calculate_crc w in (h' =? h) && (l' =? l).
Definition same_bytes (w w' : list Z) : bool := if list_eq_dec Z.eq_dec w w' then true else false.
(** the seven bytes in front of the payload *)
Definition header (f : list Z) : list Z := firstn 7 f.
(** four flipped bits among [n], 17 bits apart at most: those of the generator
    polynomial x^16 + x^12 + x^5 + 1, beginning at bit [k] *)
Definition flips (k n : nat) : list bool :=
  repeat false k ++ [true; false; false; false; true; false; false; false; false; false; false; true; false; false; false; false; true]
  ++ repeat false (n - k - 17).
