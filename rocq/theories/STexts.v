(** Which texts are channels. *)
From Coq Require Import Ascii String.
From Verif Require Export SChannel.
Open Scope list_scope.
Open Scope Z_scope.

(** space, tab, line feed, vertical tab, form feed, carriage return *)
Definition blank (c : ascii) : Prop := In (nat_of_ascii c) [9; 10; 11; 12; 13; 32]%nat.
Definition decimal (c : ascii) : Prop := In c ["0"; "1"; "2"; "3"; "4"; "5"; "6"; "7"; "8"; "9"]%char.
Definition decimal_value (c : ascii) : Z := Z.of_nat (nat_of_ascii c) - Z.of_nat (nat_of_ascii "0").
(** the number with these digits, the first one counting most *)
Definition number_of (ds : list ascii) : Z := fold_left (fun v c => 10 * v + decimal_value c) ds 0.
Definition is_sign (sign : list ascii) (factor : Z) : Prop :=
  (sign = [] /\ factor = 1) \/ (sign = ["+"%char] /\ factor = 1) \/ (sign = ["-"%char] /\ factor = -1).
(** the text of an integer as Python reads it: blanks, a sign, digits, blanks *)
Definition reads_integer (text : string) (v : Z) : Prop :=
  exists before sign factor digits after,
    list_ascii_of_string text = before ++ sign ++ digits ++ after
    /\ Forall blank before /\ is_sign sign factor /\ Forall decimal digits /\ digits <> [] /\ Forall blank after
    /\ v = factor * number_of digits.
(** band, class and coding; the next three characters are an integer, not
    negative; what follows does not matter *)
Definition is_channel_text (s : string) (c : ChannelID) : Prop :=
  ch_band (cid_header c) <> BAND_NOT_IMPL /\ ch_coding (cid_header c) <> CodingRFU
  /\ exists rest, s = (band_text (ch_band (cid_header c)) ++ class_letter (ch_class (cid_header c))
                       ++ coding_letter (ch_coding (cid_header c)) ++ rest)%string
     /\ reads_integer (substring 0 3 rest) (cid_index c) /\ 0 <= cid_index c.
