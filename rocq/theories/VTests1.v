(** The repository's own unit tests, run against the model: fields, headers,
    profiles, file system and system files.

    These are checks of the model, not of the code, and no claim rests on them:
    they are the only statements about the behaviour of the program that come
    with the program, so the model has to agree with each of them.  Each
    Example names the test method it transcribes.  Tests that only construct an
    object with a value of the wrong type are in VTests3.v. *)
From Coq Require Import String.
From Verif Require Import MBase MCt MPhy MSp MFs MProfile MOperands MSysFiles MDll.
Open Scope Z_scope.

(** [Class.parse(ConstBitStream(bytes=l))] *)
Definition parsed {A} (p : P A) (l : list Z) : res A :=
  match p (stream_of l) with Ok (a, _) => Ok a | Err e => Err e end.
(** [bytearray(Class(...))] *)
Definition built {A} (r : res A) (ser : A -> res (list Z)) : res (list Z) := let! a := r in ser a.

(** ** d7a/types/test/ct.py *)
Example ct_default : ct_int (mkCT 0 0) = 0. Proof. reflexivity. Qed.
Example ct_construction :
  (mk_ct 1 1, mk_ct 1 31, mk_ct 7 1, mk_ct 7 31)
  = (Ok (mkCT 1 1), Ok (mkCT 1 31), Ok (mkCT 7 1), Ok (mkCT 7 31)).
Proof. reflexivity. Qed.
Example ct_invalid_constructions :
  (mk_ct (-1) 0, mk_ct 0 (-1), mk_ct 8 0, mk_ct 0 32)
  = (Err ValueError, Err ValueError, Err ValueError, Err ValueError).
Proof. reflexivity. Qed.
Example ct_conversion_to_int :
  (ct_int (mkCT 1 1), ct_int (mkCT 2 2), ct_int (mkCT 3 3)) = (4, 32, 192).
Proof. reflexivity. Qed.
Example ct_byte_generation :
  (built (mk_ct 1 1) ct_ser, built (mk_ct 7 31) ct_ser) = (Ok [33], Ok [255]).
Proof. reflexivity. Qed.
Example ct_compress_1024 :
  (let! c := ct_compress 1024 false in Ok (option_map ct_decompress c)) = Ok (Some 1024).
Proof. reflexivity. Qed.

(** ** d7a/phy/test/channel_header.py, channel_id.py *)
Example channel_header_byte_generation : ch_ser (mkCH PN9 NORMAL_RATE BAND_433) = Ok [40].
Proof. reflexivity. Qed.
Example channel_header_parse : parsed ch_parse [40] = Ok (mkCH PN9 NORMAL_RATE BAND_433).
Proof. reflexivity. Qed.
Example channel_id_byte_generation :
  built (mk_channel_id (mkCH PN9 NORMAL_RATE BAND_433) 16) cid_ser = Ok [40; 0; 16].
Proof. reflexivity. Qed.
Example channel_id_parse :
  parsed cid_parse [40; 0; 16] = Ok (mkChannelID (mkCH PN9 NORMAL_RATE BAND_433) 16).
Proof. reflexivity. Qed.
Example generate_channel_id_string :
  cid_str (mkChannelID (mkCH PN9 NORMAL_RATE BAND_433) 16) = "433NP016"%string.
Proof. reflexivity. Qed.
Example parse_channel_id_string :
  cid_from_string "868LF048" = Ok (mkChannelID (mkCH FEC_PN9 LO_RATE BAND_868) 48).
Proof. reflexivity. Qed.

(** ** d7a/phy/test/subband.py *)
Definition default_subband : SubBand := mkSubBand 0 0 0 86 255.
Example subband_validation_ok : mk_subband 0 0 10 86 10 = Ok (mkSubBand 0 0 10 86 10).
Proof. reflexivity. Qed.
Example subband_validation :
  (mk_subband (-10) 0 0 86 255, mk_subband 0 (-10) 0 86 255, mk_subband 0 0 200 86 255,
   mk_subband 0 0 0 (-10) 255, mk_subband 0 0 0 86 500)
  = (Err ValueError, Err ValueError, Err ValueError, Err ValueError, Err ValueError).
Proof. reflexivity. Qed.
Example subband_byte_generation :
  built (mk_subband 0 16 10 86 255) sb_ser = Ok [0; 0; 0; 16; 10; 86; 255].
Proof. reflexivity. Qed.
Example subband_byte_generation_neg_eirp :
  built (mk_subband 0 16 (-10) 86 255) sb_ser = Ok [0; 0; 0; 16; 246; 86; 255].
Proof. reflexivity. Qed.
Example subband_parse_neg_eirp :
  parsed sb_parse [0; 0; 0; 16; 246; 86; 255] = Ok (mkSubBand 0 16 (-10) 86 255).
Proof. reflexivity. Qed.

(** ** d7a/dll/test/sub_profile.py *)
Definition default_sub_profile : SubProfile := mkSubProfile 0 (mkCT 0 0).
Example sub_profile_byte_generation :
  built (mk_sub_profile 129 (mkCT 0 0)) sp_ser = Ok [129; 0].
Proof. reflexivity. Qed.
Example sub_profile_parse : parsed sp_parse [129; 0] = Ok (mkSubProfile 129 (mkCT 0 0)).
Proof. reflexivity. Qed.

(** ** d7a/dll/test/access_profile.py *)
Definition valid_channel_header := mkCH PN9 NORMAL_RATE BAND_433.
Definition valid_sub_profiles := repeat default_sub_profile 4.
Definition valid_sub_bands := repeat default_subband 8.
Example access_profile_validation_ok :
  mk_access_profile valid_channel_header valid_sub_profiles valid_sub_bands
  = Ok (mkAP valid_channel_header valid_sub_profiles valid_sub_bands).
Proof. reflexivity. Qed.
Example access_profile_validation_sub_profiles :
  mk_access_profile valid_channel_header [] valid_sub_bands = Err ValueError.
Proof. reflexivity. Qed.
Example access_profile_validation_sub_profiles_count :
  mk_access_profile valid_channel_header (repeat default_sub_profile 10) valid_sub_bands
  = Err ValueError.
Proof. reflexivity. Qed.
Example access_profile_validation_sub_bands_count :
  mk_access_profile valid_channel_header valid_sub_profiles (repeat default_subband 10)
  = Err ValueError.
Proof. reflexivity. Qed.
Example access_profile_byte_generation :
  built (mk_access_profile valid_channel_header valid_sub_profiles [default_subband]) ap_ser
  = (Ok [40] +++ sp_ser default_sub_profile +++ sp_ser default_sub_profile
     +++ sp_ser default_sub_profile +++ sp_ser default_sub_profile +++ sb_ser default_subband).
Proof. reflexivity. Qed.
Example access_profile_parse :
  (let! l := ch_ser valid_channel_header +++ rconcat (repeat (sp_ser default_sub_profile) 4)
             +++ rconcat (repeat (sb_ser default_subband) 8) in parsed ap_parse l)
  = Ok (mkAP valid_channel_header valid_sub_profiles valid_sub_bands).
Proof. vm_compute. reflexivity. Qed.

(** ** d7a/d7atp/test/control.py *)
Example tp_control_parsing :
  parsed tpc_parse [147] = Ok (mkTpControl true false true false false true true).
Proof. reflexivity. Qed.
Example tp_control_byte_generation :
  tpc_ser (mkTpControl true true false true true false false) = Ok [172].
Proof. reflexivity. Qed.

(** ** d7a/d7anp/test/addressee.py *)
Example addressee_construction :
  (mk_addr 0 VID (IdInt 65535) NLS_NONE, mk_addr 0 UID (IdInt 72057594037927935) NLS_NONE)
  = (Ok (mkAddr 0 VID (IdInt 65535) NLS_NONE), Ok (mkAddr 0 UID (IdInt 72057594037927935) NLS_NONE)).
Proof. reflexivity. Qed.
Example addressee_id_length :
  map addr_id_length [NBID; NOID; VID; UID] = [1; 0; 2; 8]%nat.
Proof. reflexivity. Qed.
Example addressee_properties :
  ad_id_type addr_default = NOID
  /\ (let! a := mk_addr 15 NOID IdNone NLS_NONE in Ok (ad_access_class a)) = Ok 15
  /\ (let! a := mk_addr 0 VID (IdInt 4660) NLS_NONE in Ok (ad_id a)) = Ok (IdInt 4660).
Proof. repeat split. Qed.
Example addressee_refused :
  map (fun a => mk_addr (fst (fst a)) (snd (fst a)) (snd a) NLS_NONE)
    [ (0, UID, IdInt (-1)); (0, VID, IdInt (-1));          (* id_is_positive_value *)
      (0, NOID, IdInt 0);                                  (* noid_id_consists_of_0_bytes *)
      (0, NOID, IdCT (mkCT 0 0));                          (* nbid_id_should_be_ct *)
      (0, NOID, IdInt 65535);                              (* nbid_id_consists_of_1_bytes *)
      (0, VID, IdInt 131071);                              (* id_consists_of_max_2_bytes *)
      (0, UID, IdInt 36893488147419103231);                (* id_consists_of_max_8_bytes *)
      (65535, NOID, IdNone) ]                              (* access_class_consists_of_max_8_bits *)
  = repeat (Err ValueError) 8.
Proof. reflexivity. Qed.
Definition first_byte (r : res (list Z)) : res (option Z) :=
  let! l := r in Ok (hd_error l).
Example addressee_control_bytes :
  map first_byte
    [ addr_ser addr_default;
      built (mk_addr 0 NBID (IdCT (mkCT 0 0)) NLS_NONE) addr_ser;
      built (mk_addr 0 VID (IdInt 0) NLS_NONE) addr_ser;
      built (mk_addr 0 UID (IdInt 0) NLS_NONE) addr_ser;
      built (mk_addr 0 NBID (IdCT (mkCT 0 0)) AES_CTR) addr_ser ]
  = map (fun b => Ok (Some b)) [16; 0; 48; 32; 1].
Proof. vm_compute. reflexivity. Qed.
Example addressee_byte_generation :
  built (mk_addr 5 VID (IdInt 4660) NLS_NONE) addr_ser = Ok [48; 5; 18; 52]
  /\ built (mk_addr 5 UID (IdInt 1311768467284833366) NLS_NONE) addr_ser
     = Ok [32; 5; 18; 52; 86; 120; 144; 18; 52; 86]
  /\ built (mk_addr 5 NOID IdNone AES_CBC_MAC_128) addr_ser = Ok [18; 5]
  /\ (let! c := ct_compress 100 false in
      match c with
      | Some c => built (mk_addr 0 NBID (IdCT c) NLS_NONE) addr_ser
      | None => Err ValueError
      end) = Ok [0; 0; 57].
Proof. vm_compute. repeat split. Qed.

(** ** d7a/sp/test/qos.py, configuration.py, status.py *)
Example qos_byte_generation :
  qos_ser qos_default = Ok [0] /\ qos_ser (mkQoS RESP_ANY RETRY_NO true true) = Ok [194].
Proof. split; reflexivity. Qed.
Example qos_parse_test : parsed qos_parse [194] = Ok (mkQoS RESP_ANY RETRY_NO true true).
Proof. reflexivity. Qed.
Example configuration_byte_generation : conf_ser conf_default = Ok [0; 0; 16; 0].
Proof. reflexivity. Qed.
Example configuration_parse : parsed conf_parse [0; 0; 16; 0] = Ok conf_default.
Proof. reflexivity. Qed.
Example status_byte_generation :
  built (mk_status (mkChannelID valid_channel_header 16) 70 80 80 false false false false 100 0
                   (mkCT 0 20) addr_default) status_ser
  = Ok [40; 0; 16; 70; 80; 80; 0; 100; 0; 20; 16; 0]
  /\ built (mk_status (mkChannelID valid_channel_header 16) 70 80 80 true true true false 100 0
                   (mkCT 0 20) addr_default) status_ser
  = Ok [40; 0; 16; 70; 80; 80; 224; 100; 0; 20; 16; 0].
Proof. split; reflexivity. Qed.

(** ** d7a/fs/test/*.py *)
Definition test_permissions := mkPerm true true true true true true false false.
Example permissions_parsing : parsed perm_parse [252] = Ok test_permissions.
Proof. reflexivity. Qed.
Example permissions_byte_generation : perm_ser test_permissions = Ok [252].
Proof. reflexivity. Qed.
Example properties_parsing : parsed prop_parse [179] = Ok (mkProp true AC_WRITE_FLUSH PERMANENT).
Proof. reflexivity. Qed.
Example properties_byte_generation : prop_ser (mkProp true AC_WRITE VOLATILE) = Ok [161].
Proof. reflexivity. Qed.
Example file_header_parsing :
  parsed fh_parse [252; 179; 65; 66; 0; 0; 1; 0; 0; 0; 2; 0]
  = Ok (mkFH test_permissions (mkProp true AC_WRITE_FLUSH PERMANENT) 65 66 256 512).
Proof. vm_compute. reflexivity. Qed.
Example file_header_byte_generation :
  built (mk_fh test_permissions (mkProp true AC_WRITE_FLUSH PERMANENT) 65 66 20 40) fh_ser
  = Ok [252; 179; 65; 66; 0; 0; 0; 20; 0; 0; 0; 40].
Proof. vm_compute. reflexivity. Qed.

(** ** d7a/system_files/test/*.py *)
Example access_profile_file :
  mk_apf 0 None = Ok (mkAPF 0 None) /\ mk_apf 21 None = Err ValueError.
Proof. split; reflexivity. Qed.
Example dll_config :
  mk_dll_config 65281 0 0 0 0 = Err ValueError
  /\ parsed dll_config_parse [5; 0; 0; 1; 2; 3; 4] = Ok (mkDllConfig 5 1 2 3 4)
  /\ built (mk_dll_config 0 0 0 0 0) dll_config_ser = Ok [0; 0; 0; 0; 0; 0; 0]
  /\ built (mk_dll_config 5 1 2 3 4) dll_config_ser = Ok [5; 0; 0; 1; 2; 3; 4].
Proof. vm_compute. repeat split. Qed.
Example engineering_mode_parsing :
  parsed eng_parse [1; 1; 2; 74; 0; 9; 4]
  = Ok (mkEng EM_CONT_TX 1 2 (mkChannelID (mkCH FEC_PN9 NORMAL_RATE BAND_915) 9) 4).
Proof. vm_compute. reflexivity. Qed.
Example engineering_mode_byte_generation :
  built (mk_eng EM_OFF 0 0 (mkChannelID (mkCH PN9 LO_RATE BAND_868) 0) 0) eng_ser
  = Ok [0; 0; 0; 48; 0; 0; 0; 0; 0]
  /\ built (mk_eng EM_PER_RX 9 8 (mkChannelID (mkCH CW HI_RATE BAND_868) 7) 6) eng_ser
  = Ok [3; 9; 8; 63; 0; 7; 6; 0; 0]
  /\ built (mk_eng EM_PER_RX 9 8 (mkChannelID (mkCH CW HI_RATE BAND_868) 7) (-6)) eng_ser
  = Ok [3; 9; 8; 63; 0; 7; 250; 0; 0].
Proof. vm_compute. repeat split. Qed.
(** "throug" and "9aabfaa" *)
Definition throug := [116; 104; 114; 111; 117; 103].
Definition sha1 := [57; 97; 97; 98; 102; 97; 97].
Example firmware_version :
  mk_fw 0 0 0 0 [116; 111; 111; 108; 111; 110; 103; 110; 97; 109; 101] [] = Err ValueError
  /\ parsed fw_parse ([1; 1; 0; 0] ++ throug ++ sha1) = Ok (mkFw 1 1 0 0 throug sha1)
  /\ built (mk_fw 1 1 2 0 throug sha1) fw_ser = Ok ([1; 1; 2; 0] ++ throug ++ sha1).
Proof. vm_compute. repeat split. Qed.
Example uid_file :
  mk_uid 3735928559 = Ok (mkUid 3735928559) /\ mk_uid (-1) = Err ValueError
  /\ parsed uid_parse [0; 0; 0; 0; 0; 0; 0; 9] = Ok (mkUid 9)
  /\ built (mk_uid 12345) uid_ser = Ok [0; 0; 0; 0; 0; 0; 48; 57].
Proof. vm_compute. repeat split. Qed.
Example vid_file :
  parsed vid_parse [5; 3; 101] = Ok (mkVid 1283 101)
  /\ built (mk_vid 65535 0) vid_ser = Ok [255; 255; 0]
  /\ built (mk_vid 17718 18) vid_ser = Ok [69; 54; 18].
Proof. vm_compute. repeat split. Qed.

(** ** d7a/alp/operands/test/*.py *)
Example length_byte_generation :
  (built (mk_length 0) length_ser, built (mk_length 4) length_ser, built (mk_length 65120) length_ser)
  = (Ok [0], Ok [4], Ok [128; 254; 96]).
Proof. vm_compute. reflexivity. Qed.
Example length_parsing :
  (parsed length_parse [1], parsed length_parse [64; 65], parsed length_parse [192; 65; 16; 0])
  = (Ok (mkLength 1), Ok (mkLength 65), Ok (mkLength 4263936)).
Proof. vm_compute. reflexivity. Qed.
Example offset_byte_generation :
  (built (mk_offset 0 (mkLength 0)) offset_ser, built (mk_offset 255 (mkLength 0)) offset_ser,
   built (mk_offset 0 (mkLength 65120)) offset_ser)
  = (Ok [0; 0], Ok [255; 0], Ok [0; 128; 254; 96]).
Proof. vm_compute. reflexivity. Qed.
Example offset_parsing :
  (parsed offset_parse [32; 1], parsed offset_parse [32; 64; 65], parsed offset_parse [1; 128; 254; 96])
  = (Ok (mkOffset 32 (mkLength 1)), Ok (mkOffset 32 (mkLength 65)), Ok (mkOffset 1 (mkLength 65120))).
Proof. vm_compute. reflexivity. Qed.
Example data_length :
  (let! d := mk_data [215; 4; 0] (mkOffset 0 (mkLength 0)) in Ok (len_value (d_length d), data_len d))
  = Ok (3, 3).
Proof. reflexivity. Qed.
Example data_byte_generation :
  (built (mk_data [] (mkOffset 0 (mkLength 0))) data_ser,
   built (mk_data [1; 2; 3; 4] (mkOffset 0 (mkLength 0))) data_ser)
  = (Ok [0; 0; 0], Ok [0; 0; 4; 1; 2; 3; 4]).
Proof. vm_compute. reflexivity. Qed.
Example lorawan_byte_generation :
  abp_ser (mkABP true true 2 0 1 2) = Ok [6; 2; 0; 0; 0; 0; 1; 0; 0; 0; 2]
  /\ otaa_ser (mkOTAA true true 2 0) = Ok [6; 2; 0].
Proof. vm_compute. split; reflexivity. Qed.
Example lorawan_parsing :
  parsed abp_parse [6; 2; 0; 0; 0; 0; 1; 0; 0; 0; 2] = Ok (mkABP true true 2 0 1 2)
  /\ parsed otaa_parse [6; 2; 0] = Ok (mkOTAA true true 2 0).
Proof. vm_compute. split; reflexivity. Qed.
Definition test_query : Query :=
  mkQuery Q_COMP_VALUE false (mkArith false C_GT) (mkLength 1) [25] (mkOffset 32 (mkLength 1)).
Example query_byte_generation :
  built (mk_query Q_COMP_VALUE false (mkArith false C_GT) (mkLength 1) [25] (mkOffset 32 (mkLength 1)))
        query_ser = Ok [68; 1; 25; 32; 1].
Proof. vm_compute. reflexivity. Qed.
Example query_parsing : parsed query_parse [68; 1; 25; 32; 1] = Ok test_query.
Proof. vm_compute. reflexivity. Qed.
