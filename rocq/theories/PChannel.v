(** Channel strings: property C31. *)
From Coq Require Import Ascii String.
From Verif Require Import SChannel LChannel STexts LTexts.
Open Scope Z_scope.

Theorem C31_survives_iff : forall c, 0 <= cid_index c <= 65535 ->
  (cid_from_string (cid_str c) = Ok c <->
   ch_class (cid_header c) <> LORA /\ ch_coding (cid_header c) <> CodingRFU
   /\ ch_band (cid_header c) <> BAND_NOT_IMPL /\ cid_index c <= 999).
Proof. exact channel_back_iff. Qed.
Print Assumptions C31_survives_iff.
(** what comes back in every case *)
Theorem C31_what_comes_back : forall c, 0 <= cid_index c <= 65535 ->
  cid_from_string (cid_str c) =
  match ch_band (cid_header c), ch_coding (cid_header c) with
  | BAND_NOT_IMPL, _ => Err NotImplementedError
  | _, CodingRFU => Err NotImplementedError
  | _, _ => Ok (channel_after c)
  end.
Proof. exact channel_back. Qed.
Print Assumptions C31_what_comes_back.
(** reading the documented text form is right for all classes *)
Theorem C31_documented_text_is_read : forall c, has_text c -> cid_from_string (channel_text c) = Ok c.
Proof. exact text_parsed. Qed.
Print Assumptions C31_documented_text_is_read.
Theorem C31_strings_give_valid_channels : forall s c, cid_from_string s = Ok c -> 0 <= cid_index c <= 65535
  /\ ch_coding (cid_header c) <> CodingRFU /\ ch_band (cid_header c) <> BAND_NOT_IMPL.
Proof. exact from_string_wf. Qed.
Print Assumptions C31_strings_give_valid_channels.
(** exactly these texts are read, and how the others are refused *)
Theorem C31_accepted_iff : forall s c, cid_from_string s = Ok c <-> is_channel_text s c.
Proof. exact channel_text_iff. Qed.
Print Assumptions C31_accepted_iff.
Theorem C31_refused : forall s e, cid_from_string s = Err e ->
  (forall c, ~ is_channel_text s c)
  /\ ((e = ValueError /\ exists b k g rest, b <> BAND_NOT_IMPL /\ g <> CodingRFU /\ s = (band_text b ++ class_letter k ++ coding_letter g ++ rest)%string)
      \/ (e = IndexError /\ exists b, b <> BAND_NOT_IMPL /\ (s = band_text b \/ exists k, s = (band_text b ++ class_letter k)%string))
      \/ (e = NotImplementedError /\ ~ exists b k g rest, b <> BAND_NOT_IMPL /\ g <> CodingRFU /\ s = (band_text b ++ class_letter k ++ coding_letter g ++ rest)%string)).
Proof. exact channel_text_refused. Qed.
Print Assumptions C31_refused.
Example C31_case_blanks : cid_from_string ("868NP" ++ String "009" (String "+" "7xyz"))%string = Ok (mkChannelID (mkCH PN9 NORMAL_RATE BAND_868) 7)
  /\ cid_from_string "868NP-01" = Err ValueError /\ cid_from_string "868" = Err IndexError /\ cid_from_string "869NP000" = Err NotImplementedError.
Proof. repeat split; reflexivity. Qed.
Example C31_case_ok : cid_str (mkChannelID (mkCH PN9 NORMAL_RATE BAND_868) 16) = "868NP016"%string
  /\ cid_from_string "868NP016" = Ok (mkChannelID (mkCH PN9 NORMAL_RATE BAND_868) 16).
Proof. split; reflexivity. Qed.
Example C31_case_lora : cid_str (mkChannelID (mkCH PN9 LORA BAND_868) 1234) = "868LP1234"%string
  /\ cid_from_string "868LP1234" = Ok (mkChannelID (mkCH PN9 LO_RATE BAND_868) 123)
  /\ channel_text (mkChannelID (mkCH PN9 LORA BAND_868) 123) = "868RP123"%string
  /\ has_text (mkChannelID (mkCH PN9 LORA BAND_868) 123).
Proof. refine (conj eq_refl (conj eq_refl (conj eq_refl _))). unfold has_text. cbn. repeat split; try discriminate; lia. Qed.
