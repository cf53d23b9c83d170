(** What a CRC-16/CCITT-FALSE is: polynomial division over GF(2).  Independent
    of the register machine in MCrc.v.  The bits of an integer are the
    coefficients of a polynomial. *)
From Verif Require Export Bits.

(** x^16 + x^12 + x^5 + 1 *)
Definition generator : Z := 2 ^ 16 + 2 ^ 12 + 2 ^ 5 + 1.

(** product of the polynomial with coefficients [q] (leading one first) and [g] *)
Fixpoint pprod (q : list bool) (g : Z) : Z :=
  match q with
  | [] => 0
  | b :: r => Z.lxor (if b then g * 2 ^ zlen r else 0) (pprod r g)
  end.

(** [r] is the remainder of [m] modulo the generator *)
Definition remainder (m r : Z) : Prop :=
  0 <= r < 2 ^ 16 /\ exists q, m = Z.lxor (pprod q generator) r.

(** the dividend: message times x^16, the register preset to ones, which
    complements the first sixteen coefficients *)
Definition dividend (bytes : list Z) : Z :=
  Z.lxor (bits_val (bytes_bits bytes) * 2 ^ 16) (65535 * 2 ^ (8 * zlen bytes)).
