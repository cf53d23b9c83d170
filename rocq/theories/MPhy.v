(** d7a/phy: channel header, channel id, channel status identifier, sub band *)
From Coq Require Import Ascii String.
From Verif Require Import MBase.
Close Scope string_scope.
Open Scope list_scope.
Open Scope Z_scope.

(** ** Enumerations *)

(** ChannelCoding, channel_header.py:29-33 *)
Inductive ChannelCoding := PN9 | CodingRFU | FEC_PN9 | CW.
Definition coding_value (c : ChannelCoding) : Z :=
  match c with PN9 => 0 | CodingRFU => 1 | FEC_PN9 => 2 | CW => 3 end.
Definition coding_of (v : Z) : res ChannelCoding :=
  if v =? 0 then Ok PN9 else if v =? 1 then Ok CodingRFU
  else if v =? 2 then Ok FEC_PN9 else if v =? 3 then Ok CW else Err ValueError.
Definition coding_name (c : ChannelCoding) : string :=
  match c with PN9 => "PN9" | CodingRFU => "RFU" | FEC_PN9 => "FEC_PN9" | CW => "CW" end%string.

(** ChannelClass, channel_header.py:46-50 *)
Inductive ChannelClass := LO_RATE | LORA | NORMAL_RATE | HI_RATE.
Definition class_value (c : ChannelClass) : Z :=
  match c with LO_RATE => 0 | LORA => 1 | NORMAL_RATE => 2 | HI_RATE => 3 end.
Definition class_of (v : Z) : res ChannelClass :=
  if v =? 0 then Ok LO_RATE else if v =? 1 then Ok LORA
  else if v =? 2 then Ok NORMAL_RATE else if v =? 3 then Ok HI_RATE else Err ValueError.
Definition class_name (c : ChannelClass) : string :=
  match c with LO_RATE => "LO_RATE" | LORA => "LORA" | NORMAL_RATE => "NORMAL_RATE"
             | HI_RATE => "HI_RATE" end%string.

(** ChannelBand, channel_header.py:68-72 *)
Inductive ChannelBand := BAND_NOT_IMPL | BAND_433 | BAND_868 | BAND_915.
Definition band_value (c : ChannelBand) : Z :=
  match c with BAND_NOT_IMPL => 0 | BAND_433 => 2 | BAND_868 => 3 | BAND_915 => 4 end.
Definition band_of (v : Z) : res ChannelBand :=
  if v =? 0 then Ok BAND_NOT_IMPL else if v =? 2 then Ok BAND_433
  else if v =? 3 then Ok BAND_868 else if v =? 4 then Ok BAND_915 else Err ValueError.
Definition band_name (c : ChannelBand) : string :=
  match c with BAND_NOT_IMPL => "NOT_IMPL" | BAND_433 => "BAND_433"
             | BAND_868 => "BAND_868" | BAND_915 => "BAND_915" end%string.

(** ** ChannelHeader, channel_header.py:82-94 (the enum types make the schema
    check vacuous) *)
Record ChannelHeader := mkCH
  { ch_coding : ChannelCoding; ch_class : ChannelClass; ch_band : ChannelBand }.

(** ChannelHeader.__iter__, channel_header.py:96-100 *)
Definition ch_ser (h : ChannelHeader) : res (list Z) :=
  yield1 (Z.shiftl (band_value (ch_band h)) 4
          + Z.shiftl (class_value (ch_class h)) 2
          + coding_value (ch_coding h)).

(** ChannelHeader.parse, channel_header.py:102-108 *)
Definition ch_parse : P ChannelHeader :=
  do _ <- read_uint 1;
  do v <- read_uint 3; do band <- lift (band_of v);
  do v <- read_uint 2; do cl <- lift (class_of v);
  do v <- read_uint 2; do cod <- lift (coding_of v);
  ret (mkCH cod cl band).

(** ** String forms *)

Fixpoint lstrip (set : list ascii) (s : string) : string :=
  match s with
  | EmptyString => EmptyString
  | String c r => if existsb (Ascii.eqb c) set then lstrip set r else s
  end.

(** first character of an enum name, [self.name[:1]] *)
Definition first_char (s : string) : string := substring 0 1 s.

(** ChannelCoding.to_char, channel_header.py:35-36 *)
Definition coding_to_char (c : ChannelCoding) : string := first_char (coding_name c).

(** ChannelCoding.from_char, channel_header.py:38-44 *)
Definition coding_from_char (c : ascii) : res ChannelCoding :=
  if Ascii.eqb c "P" then Ok PN9 else if Ascii.eqb c "F" then Ok FEC_PN9
  else if Ascii.eqb c "C" then Ok CW else Err NotImplementedError.

(** ChannelClass.to_char, channel_header.py:52-57.  The test
    [self.value == ChannelClass.LORA] compares an [int] with a member of a
    (non-[IntEnum]) [Enum] and is always [False], so "R" is never produced. *)
Definition class_to_char (c : ChannelClass) : string :=
  let ch := first_char (class_name c) in
  let int_equals_enum_member := false in
  if int_equals_enum_member then "R"%string else ch.

(** ChannelClass.from_char, channel_header.py:59-66 *)
Definition class_from_char (c : ascii) : res ChannelClass :=
  if Ascii.eqb c "L" then Ok LO_RATE else if Ascii.eqb c "N" then Ok NORMAL_RATE
  else if Ascii.eqb c "H" then Ok HI_RATE else if Ascii.eqb c "R" then Ok LORA
  else Err NotImplementedError.

(** ChannelBand.from_string, channel_header.py:74-80 *)
Definition band_from_string (s : string) : res ChannelBand :=
  if String.eqb s "433" then Ok BAND_433 else if String.eqb s "868" then Ok BAND_868
  else if String.eqb s "915" then Ok BAND_915 else Err NotImplementedError.

(** ChannelHeader.__str__, channel_header.py:110-115; [lstrip("BAND_")] strips
    any leading characters of the set B, A, N, D, _ *)
Definition ch_str (h : ChannelHeader) : string :=
  (lstrip ["B"; "A"; "N"; "D"; "_"]%char (band_name (ch_band h))
   ++ class_to_char (ch_class h) ++ coding_to_char (ch_coding h))%string.

(** [s[i]] *)
Definition char_at (s : string) (i : nat) : res ascii :=
  match String.get i s with Some c => Ok c | None => Err IndexError end.

(** ChannelHeader.from_string, channel_header.py:117-122 *)
Definition ch_from_string (s : string) : res ChannelHeader :=
  let! band := band_from_string (substring 0 3 s) in
  let! c3 := char_at s 3 in let! cl := class_from_char c3 in
  let! c4 := char_at s 4 in let! cod := coding_from_char c4 in
  Ok (mkCH cod cl band).

(** ** ChannelID, channel_id.py:30-40 *)
Record ChannelID := mkChannelID { cid_header : ChannelHeader; cid_index : Z }.

Definition mk_channel_id (h : ChannelHeader) (i : Z) : res ChannelID :=
  validated (in_range 0 65535 i) (mkChannelID h i).

(** ChannelID.__iter__, channel_id.py:42-44 *)
Definition cid_ser (c : ChannelID) : res (list Z) :=
  ch_ser (cid_header c) +++ pack_be 2 (cid_index c).

(** ChannelID.parse, channel_id.py:47-51 *)
Definition cid_parse : P ChannelID :=
  do h <- ch_parse;
  do i <- read_uint 16;
  lift (mk_channel_id h i).

(** Decimal digits, Python's [str] of a non-negative integer *)
Definition digit (d : Z) : ascii := ascii_of_N (Z.to_N (48 + d)).
Fixpoint dec_digits (fuel : nat) (z : Z) (acc : string) : string :=
  match fuel with
  | O => acc
  | S f => let acc := String (digit (z mod 10)) acc in
           if z <? 10 then acc else dec_digits f (z / 10) acc
  end.
(** twenty digits are enough for every value the schema lets through *)
Definition dec_str (z : Z) : string := dec_digits 20 z "".

(** [{:0>3}]: pad with zeros on the left to at least three characters *)
Definition pad3 (s : string) : string :=
  match String.length s with
  | O => ("000" ++ s)%string | 1%nat => ("00" ++ s)%string
  | 2%nat => ("0" ++ s)%string | _ => s
  end.

(** ChannelID.__str__, channel_id.py:53-54 *)
Definition cid_str (c : ChannelID) : string :=
  (ch_str (cid_header c) ++ pad3 (dec_str (cid_index c)))%string.

(** Python 2 [int(str)]: blanks around, optional sign, decimal digits *)
Definition is_space (c : ascii) : bool :=
  let n := nat_of_ascii c in (Nat.eqb n 32) || (Nat.leb 9 n && Nat.leb n 13).
Fixpoint strip_l (s : string) : string :=
  match s with String c r => if is_space c then strip_l r else s | _ => s end.
Fixpoint all_space (s : string) : bool :=
  match s with EmptyString => true | String c r => is_space c && all_space r end.
Definition digit_val (c : ascii) : option Z :=
  let n := Z.of_N (N_of_ascii c) in
  if (48 <=? n) && (n <=? 57) then Some (n - 48) else None.
(** digits up to trailing blanks; [seen] says one digit has been read *)
Fixpoint int_digits (s : string) (acc : Z) (seen : bool) : res Z :=
  match s with
  | EmptyString => if seen then Ok acc else Err ValueError
  | String c r =>
      match digit_val c with
      | Some d => int_digits r (10 * acc + d) true
      | None => if seen && all_space s then Ok acc else Err ValueError
      end
  end.
Definition py_int (s : string) : res Z :=
  match strip_l s with
  | String c r =>
      if Ascii.eqb c "-" then let! v := int_digits r 0 false in Ok (- v)
      else if Ascii.eqb c "+" then int_digits r 0 false
      else int_digits (String c r) 0 false
  | EmptyString => Err ValueError
  end.

(** ChannelID.from_string, channel_id.py:56-60 *)
Definition cid_from_string (s : string) : res ChannelID :=
  let! h := ch_from_string (substring 0 5 s) in
  let! i := py_int (substring 5 3 s) in
  mk_channel_id h i.

(** ** ChannelStatusIdentifier, channel_status_identifier.py:29-49 *)
Inductive Bandwidth := kHz25 | kHz200.
Definition bandwidth_value (b : Bandwidth) : Z := match b with kHz25 => 1 | kHz200 => 0 end.
Definition bandwidth_of (v : Z) : res Bandwidth :=
  if v =? 1 then Ok kHz25 else if v =? 0 then Ok kHz200 else Err ValueError.

Record ChannelStatusIdentifier := mkCSI
  { csi_band : ChannelBand; csi_bandwidth : Bandwidth; csi_index : Z }.

Definition mk_csi (b : ChannelBand) (w : Bandwidth) (i : Z) : res ChannelStatusIdentifier :=
  validated (in_range 0 1039 i) (mkCSI b w i).

(** default arguments of the constructor, channel_status_identifier.py:45 *)
Definition csi_default : ChannelStatusIdentifier := mkCSI BAND_NOT_IMPL kHz25 0.

(** ChannelStatusIdentifier.__iter__, channel_status_identifier.py:51-57 *)
Definition csi_ser (c : ChannelStatusIdentifier) : res (list Z) :=
  yield1 (Z.shiftl (band_value (csi_band c)) 5
          + Z.shiftl (bandwidth_value (csi_bandwidth c)) 4
          + Z.shiftl 0 3
          + Z.land (Z.shiftr (csi_index c) 8) 7)
  +++ yield1 (Z.land (csi_index c) 255).

(** ChannelStatusIdentifier.parse, channel_status_identifier.py:59-65 *)
Definition csi_parse : P ChannelStatusIdentifier :=
  do v <- read_uint 3; do b <- lift (band_of v);
  do v <- read_uint 1; do w <- lift (bandwidth_of v);
  do _ <- read_uint 1;
  do i <- read_uint 11;
  lift (mk_csi b w i).

(** ** SubBand, subband.py:30-47 *)
Record SubBand := mkSubBand
  { sb_start : Z; sb_end : Z; sb_eirp : Z; sb_cca : Z; sb_duty : Z }.

Definition mk_subband (st en ei cca duty : Z) : res SubBand :=
  validated (in_range 0 65535 st && in_range 0 65535 en && in_range (-128) 127 ei
             && in_range 0 255 cca && in_range 0 255 duty)
            (mkSubBand st en ei cca duty).

(** SubBand.__iter__, subband.py:49-54 *)
Definition sb_ser (b : SubBand) : res (list Z) :=
  pack_be 2 (sb_start b) +++ pack_be 2 (sb_end b) +++ pack_b (sb_eirp b)
  +++ yield1 (sb_cca b) +++ yield1 (sb_duty b).

(** [struct.unpack(">H", s.read("bytes:2"))[0]] *)
Definition read_be16 : P Z :=
  do l <- read_bytes 2;
  match l with [a; b] => ret (256 * a + b) | _ => raise StructError end.

(** SubBand.parse, subband.py:56-68 *)
Definition sb_parse : P SubBand :=
  do st <- read_be16;
  do en <- read_be16;
  do ei <- read_int 8;
  do cca <- read_uint 8;
  do duty <- read_uint 8;
  lift (mk_subband st en ei cca duty).
