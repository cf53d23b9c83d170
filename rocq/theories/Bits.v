(** Bit strings and bytes.  Shared vocabulary of model and specification:
    no code of /repo is modelled here. *)
From Coq Require Export List ZArith Bool Lia.
Export ListNotations.
Open Scope Z_scope.

(** [Zbits w v]: the [w] low bits of [v], most significant bit first
    (two's complement when [v] is negative). *)
Fixpoint Zbits (w : nat) (v : Z) : list bool :=
  match w with
  | O => []
  | S w' => Z.testbit v (Z.of_nat w') :: Zbits w' v
  end.

(** Unsigned value of a bit string, most significant bit first. *)
Fixpoint bits_val_acc (acc : Z) (l : list bool) : Z :=
  match l with
  | [] => acc
  | b :: r => bits_val_acc (2 * acc + (if b then 1 else 0)) r
  end.
Definition bits_val (l : list bool) : Z := bits_val_acc 0 l.

Definition is_byte (b : Z) : Prop := 0 <= b <= 255.

(** The bits of a byte string, in transmission order. *)
Definition bytes_bits (l : list Z) : list bool := flat_map (Zbits 8) l.

(** Group a bit string into bytes (an incomplete last group is dropped). *)
Fixpoint bits_bytes (l : list bool) : list Z :=
  match l with
  | b7 :: b6 :: b5 :: b4 :: b3 :: b2 :: b1 :: b0 :: r =>
      bits_val [b7; b6; b5; b4; b3; b2; b1; b0] :: bits_bytes r
  | _ => []
  end.

(** Big endian bytes of [v], [n] of them. *)
Fixpoint be_bytes (n : nat) (v : Z) : list Z :=
  match n with
  | O => []
  | S n' => (v / 2 ^ (8 * Z.of_nat n')) mod 256 :: be_bytes n' v
  end.

(** Length of a list as a [Z] without building a large [nat] first. *)
Definition zlen {A} (l : list A) : Z := Z.of_nat (length l).
