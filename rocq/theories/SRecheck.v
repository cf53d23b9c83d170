(** C51: where a message may be cut. *)
From Verif Require Import SSerial.

(** The ALP decoder stops for want of one single bit when only [rest] has
    arrived behind the frame.  Whether the library reports this as the
    [ReadError] the receiver waits for is the parameter [lib] of the model. *)
Definition bit_missing (skip : bool) (t : Z) (payload rest : list Z) : Prop :=
  skip = false /\ t <> 4 /\ t <> 5 /\ alp_parse (zlen payload) (St 56 (bytes_bits (payload ++ rest))) = Err BoolEof.
