(** Python run-time pieces used by every part of the model: exceptions,
    [ConstBitStream] reads, [struct.pack], [bytearray].  Definitions only. *)
From Verif Require Export Bits.

(** Exceptions the code can raise, as far as the code distinguishes them.
    [AssertNoMsg] is an [AssertionError] with empty [args] (a bare
    [assert(...)]), [AssertMsg] one with a message.
    [ReadError] is bitstring's "not enough bits".
    [BoolEof] is what [read("bool")] raises at the end of the stream:
    bitstring 3.1.7 is not available to us and, depending on the release, this
    is a [ReadError] or a plain [IndexError]; see [is_read_error].
    [OutOfFuel] is not a Python exception: it marks exhausted recursion fuel
    in the model and is proved unreachable. *)
Inductive exn : Type :=
| ReadError | BoolEof | ParseError | ValueError | AssertNoMsg | AssertMsg
| AttributeError | TypeError | KeyError | NotImplementedError | StructError
| ByteAlignError | UnicodeError | IndexError | DllParseError | OutOfFuel.

Inductive res (A : Type) : Type :=
| Ok (a : A)
| Err (e : exn).
Arguments Ok {A} a.
Arguments Err {A} e.

Definition rbind {A B} (r : res A) (f : A -> res B) : res B :=
  match r with Ok a => f a | Err e => Err e end.

Notation "'let!' x ':=' r 'in' k" := (rbind r (fun x => k))
  (at level 200, x pattern, r at level 100, k at level 200, right associativity).

(** ** bitstring.ConstBitStream: a position (in bits) and the bits after it *)
Record stream : Type := St { pos : nat; bits : list bool }.

(** [ConstBitStream(bytes=...)]: bitstring, used at
    d7a/serial_modem_interface/parser.py:103, d7a/dll/parser.py:60,
    d7a/alp/operations/responses.py:57, modem/modem.py:126 *)
Definition stream_of (l : list Z) : stream := St 0 (bytes_bits l).

(** A parser: consumes from the stream or raises. *)
Definition P (A : Type) : Type := stream -> res (A * stream).

Definition ret {A} (a : A) : P A := fun s => Ok (a, s).
Definition raise {A} (e : exn) : P A := fun _ => Err e.
Definition bindp {A B} (p : P A) (f : A -> P B) : P B :=
  fun s => match p s with Ok (a, s') => f a s' | Err e => Err e end.
(** a pure computation that may raise (constructor calls) *)
Definition lift {A} (r : res A) : P A :=
  fun s => match r with Ok a => Ok (a, s) | Err e => Err e end.

Notation "'do' x '<-' p ';' k" := (bindp p (fun x => k))
  (at level 200, x pattern, p at level 100, k at level 200, right associativity).

(** [s.read("uint:n")], [n > 0] *)
Definition read_uint (n : nat) : P Z := fun s =>
  if Nat.ltb (length (bits s)) n then Err ReadError
  else Ok (bits_val (firstn n (bits s)), St (pos s + n) (skipn n (bits s))).

(** [s.read("int:n")]: two's complement *)
Definition read_int (n : nat) : P Z :=
  do u <- read_uint n;
  ret (if u <? 2 ^ (Z.of_nat n - 1) then u else u - 2 ^ Z.of_nat n).

(** [s.read("pad:n")], [s.read("bits:n")] with the value discarded *)
Definition read_pad (n : nat) : P unit :=
  do _ <- read_uint n; ret tt.

(** [s.read("bool")] *)
Definition read_bool : P bool := fun s =>
  match bits s with
  | [] => Err BoolEof
  | b :: r => Ok (b, St (pos s + 1) r)
  end.

(** [s.read("bytes:n")] followed by [map(ord, ...)] (or [bytearray(...)]):
    the [n] next bytes.  The comparison is made in [Z] because [n] can be as
    large as 0x3FFFFFFF. *)
Definition read_bytes (n : Z) : P (list Z) := fun s =>
  if zlen (bits s) <? 8 * n then Err ReadError
  else let k := Z.to_nat (8 * n) in
       Ok (bits_bytes (firstn k (bits s)), St (pos s + k) (skipn k (bits s))).

(** [s.bytepos]: raises when the position is not a multiple of 8 *)
Definition bytepos : P Z := fun s =>
  if Z.of_nat (pos s) mod 8 =? 0 then Ok (Z.of_nat (pos s) / 8, s)
  else Err ByteAlignError.

(** ** Serialization: what [bytearray(obj)] computes from [obj.__iter__] *)

(** [bytearray] accepting one yielded integer (or [chr] of it): CPython raises
    [ValueError] outside 0..255. *)
Definition yield1 (z : Z) : res (list Z) :=
  if (0 <=? z) && (z <=? 255) then Ok [z] else Err ValueError.

(** consecutive [yield]s / nested [for byte in x: yield byte] *)
Definition rapp (a b : res (list Z)) : res (list Z) :=
  let! x := a in let! y := b in Ok (x ++ y).
Infix "+++" := rapp (at level 60, right associativity).

Fixpoint rconcat (l : list (res (list Z))) : res (list Z) :=
  match l with
  | [] => Ok []
  | x :: r => x +++ rconcat r
  end.

Definition yields (l : list Z) : res (list Z) := rconcat (map yield1 l).

(** [struct.pack(">B"/">H"/">I"/">Q", v)] with [n] bytes: [struct.error] when
    out of range (Python 2.7). *)
Definition pack_be (n : nat) (v : Z) : res (list Z) :=
  if (0 <=? v) && (v <? 2 ^ (8 * Z.of_nat n)) then Ok (be_bytes n v)
  else Err StructError.

(** [struct.pack("b", v)] *)
Definition pack_b (v : Z) : res (list Z) :=
  if (-128 <=? v) && (v <=? 127) then Ok [v mod 256] else Err StructError.

(** Constructor check: [Validatable.validate] raises [ValueError]
    (d7a/support/schema.py:73-86). *)
Definition validated {A} (ok : bool) (x : A) : res A :=
  if ok then Ok x else Err ValueError.

(** [min <= v <= max] rules of a schema (d7a/support/schema.py:96-97,121-128,141-143) *)
Definition in_range (lo hi v : Z) : bool := (lo <=? v) && (v <=? hi).
Definition is_BYTE (v : Z) : bool := in_range 0 255 v.

Definition b2z (b : bool) : Z := if b then 1 else 0.
