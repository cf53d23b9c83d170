(** d7a/types/ct.py: compressed time *)
From Verif Require Import MBase.

Record CT : Type := mkCT { ct_exp : Z; ct_mant : Z }.

(** CT.__init__ + SCHEMA, ct.py:45-53 *)
Definition mk_ct (e m : Z) : res CT :=
  validated (in_range 0 7 e && in_range 0 31 m) (mkCT e m).

(** CT.__int__, ct.py:55-56 (float powers are exact here) *)
Definition ct_int (c : CT) : Z := 4 ^ ct_exp c * ct_mant c.

(** CT.compressed_value, ct.py:61-65 *)
Definition ct_compressed (c : CT) : Z :=
  Z.lor 0 (Z.shiftl (ct_exp c) 5) + ct_mant c.

(** CT.__iter__, ct.py:58-59 *)
Definition ct_ser (c : CT) : res (list Z) := yield1 (ct_compressed c).

(** CT.parse, ct.py:67-71 *)
Definition ct_parse : P CT :=
  do e <- read_uint 3;
  do m <- read_uint 5;
  lift (mk_ct e m).

(** CT.compress, ct.py:73-82, for an integer [value].  The loop over
    [xrange(8)]; falling off the end returns [None].  [int(value / 4^i)]
    truncates towards zero, [%] has the sign of the divisor; both float
    operations are exact whenever the guard [value <= 31 * 4^i] holds and
    [value] is not below -2^53 (negative values take [i = 0] and are rejected
    by the constructor either way). *)
Fixpoint ct_compress_from (fuel : nat) (i : Z) (value : Z) (ceil : bool) : res (option CT) :=
  match fuel with
  | O => Ok None
  | S f =>
      if value <=? 4 ^ i * 31 then
        let mantissa := Z.quot value (4 ^ i) in
        let remainder := value mod 4 ^ i in
        let mantissa := if ceil && negb (remainder =? 0) then mantissa + 1 else mantissa in
        let! c := mk_ct i mantissa in Ok (Some c)
      else ct_compress_from f (i + 1) value ceil
  end.
Definition ct_compress (value : Z) (ceil : bool) : res (option CT) :=
  ct_compress_from 8 0 value ceil.

(** CT.decompress, ct.py:84-85 *)
Definition ct_decompress (c : CT) : Z :=
  4 ^ (Z.shiftr (ct_compressed c) 5) * Z.land (ct_compressed c) 31.
