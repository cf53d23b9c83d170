(** Channel strings such as "868NP015": band, class letter, coding letter,
    index. *)
From Coq Require Import Ascii String.
From Verif Require Export SCodec MPhy.
Close Scope string_scope.
Open Scope list_scope.
Open Scope Z_scope.

(** the documented text form *)
Definition band_text (b : ChannelBand) : string :=
  match b with BAND_433 => "433" | BAND_868 => "868" | BAND_915 => "915" | BAND_NOT_IMPL => "" end%string.
Definition class_letter (c : ChannelClass) : string :=
  match c with LO_RATE => "L" | LORA => "R" | NORMAL_RATE => "N" | HI_RATE => "H" end%string.
Definition coding_letter (c : ChannelCoding) : string :=
  match c with PN9 => "P" | FEC_PN9 => "F" | CW => "C" | CodingRFU => "" end%string.
Definition digit_text (d : Z) : string := String (ascii_of_N (Z.to_N (48 + d))) EmptyString.
Definition index_text (i : Z) : string :=
  (digit_text (i / 100) ++ digit_text (i / 10 mod 10) ++ digit_text (i mod 10))%string.
Definition channel_text (c : ChannelID) : string :=
  (band_text (ch_band (cid_header c)) ++ class_letter (ch_class (cid_header c))
   ++ coding_letter (ch_coding (cid_header c)) ++ index_text (cid_index c))%string.
(** the channels that have one *)
Definition has_text (c : ChannelID) : Prop :=
  ch_band (cid_header c) <> BAND_NOT_IMPL /\ ch_coding (cid_header c) <> CodingRFU /\ 0 <= cid_index c <= 999.

(** what becomes of class and index on the way through the library's own text *)
Definition class_after (c : ChannelClass) : ChannelClass := match c with LORA => LO_RATE | _ => c end.
Definition index_after (i : Z) : Z := if i <=? 999 then i else if i <=? 9999 then i / 10 else i / 100.
Definition channel_after (c : ChannelID) : ChannelID :=
  mkChannelID (mkCH (ch_coding (cid_header c)) (class_after (ch_class (cid_header c))) (ch_band (cid_header c)))
              (index_after (cid_index c)).
