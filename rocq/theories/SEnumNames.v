(** Specification for C76: which enumerations there are and which member each
    name means, written down from the documentation of DASH7 and the names of
    the classes, independently of the tables in MEnum.v. *)
From Coq Require Import String.
From Verif Require Import MBase MPhy MSp MFs MOperands MSysFiles MEnum SEnum.
Open Scope string_scope.
Open Scope Z_scope.

(** module and class of every enumeration *)
Definition enumerations : list (string * string) :=
  [ ("d7a.alp.interface", "InterfaceType");
    ("d7a.alp.operands.query", "QueryType"); ("d7a.alp.operands.query", "ArithComparisonType");
    ("d7a.d7anp.addressee", "IdType"); ("d7a.d7anp.addressee", "NlsMethod");
    ("d7a.dll.access_profile", "CsmaCaMode"); ("d7a.dll.parser", "FrameType");
    ("d7a.fs.file_properties", "ActionCondition"); ("d7a.fs.file_properties", "StorageClass");
    ("d7a.phy.channel_header", "ChannelCoding"); ("d7a.phy.channel_header", "ChannelClass");
    ("d7a.phy.channel_header", "ChannelBand"); ("d7a.phy.channel_status_identifier", "Bandwidth");
    ("d7a.sp.qos", "ResponseMode"); ("d7a.sp.qos", "RetryMode");
    ("d7a.system_files.engineering_mode", "EngineeringModeMode");
    ("d7a.system_files.system_file_ids", "SystemFileIds") ].

(** the names of the members of the typed model *)
Definition idtype_text (t : IdType) : string := match t with NBID => "NBID" | NOID => "NOID" | UID => "UID" | VID => "VID" end.
Definition nls_text (m : NlsMethod) : string :=
  match m with
  | NLS_NONE => "NONE" | AES_CTR => "AES_CTR" | AES_CBC_MAC_128 => "AES_CBC_MAC_128" | AES_CBC_MAC_64 => "AES_CBC_MAC_64"
  | AES_CBC_MAC_32 => "AES_CBC_MAC_32" | AES_CCM_128 => "AES_CCM_128" | AES_CCM_64 => "AES_CCM_64" | AES_CCM_32 => "AES_CCM_32"
  end.
Definition resp_text (m : ResponseMode) : string :=
  match m with
  | RESP_NO => "RESP_MODE_NO" | RESP_ALL => "RESP_MODE_ALL" | RESP_ANY => "RESP_MODE_ANY" | RESP_NO_RPT => "RESP_MODE_NO_RPT"
  | RESP_ON_ERROR => "RESP_MODE_ON_ERROR" | RESP_PREFERRED => "RESP_MODE_PREFERRED"
  end.
Definition retry_text (m : RetryMode) : string := match m with RETRY_NO => "RETRY_MODE_NO" end.
Definition actcond_text (a : ActionCondition) : string :=
  match a with AC_LIST => "LIST" | AC_READ => "READ" | AC_WRITE => "WRITE" | AC_WRITE_FLUSH => "WRITE_FLUSH" end.
Definition storage_text (a : StorageClass) : string :=
  match a with TRANSIENT => "TRANSIENT" | VOLATILE => "VOLATILE" | RESTORABLE => "RESTORABLE" | PERMANENT => "PERMANENT" end.
Definition qtype_text (t : QueryType) : string :=
  match t with
  | Q_NON_VOID => "NON_VOID_CHECK" | Q_COMP_ZERO => "ARITH_COMP_WITH_ZERO" | Q_COMP_VALUE => "ARITH_COMP_WITH_VALUE"
  | Q_COMP_FILES => "ARITH_COMP_BETWEEN_FILES" | Q_RANGE => "RANGE_COMP" | Q_STRING => "STRING_TOKEN"
  end.
Definition comp_text (t : CompType) : string :=
  match t with
  | C_NE => "INEQUALITY" | C_EQ => "EQUALITY" | C_LT => "LESS_THAN" | C_LE => "LESS_THAN_OR_EQUAL_TO"
  | C_GT => "GREATER_THAN" | C_GE => "GREATER_THAN_OR_EQUAL_TO"
  end.
Definition iftype_text (t : InterfaceType) : string :=
  match t with IF_HOST => "HOST" | IF_SERIAL => "SERIAL" | IF_ABP => "LORAWAN_ABP" | IF_OTAA => "LORAWAN_OTAA" | IF_D7ASP => "D7ASP" end.
Definition engmode_text (m : EngMode) : string :=
  "ENGINEERING_MODE_MODE_" ++ match m with EM_OFF => "OFF" | EM_CONT_TX => "CONT_TX" | EM_TRANSIENT_TX => "TRANSIENT_TX" | EM_PER_RX => "PER_RX" | EM_PER_TX => "PER_TX" end.
Definition coding_text (c : ChannelCoding) : string := match c with PN9 => "PN9" | CodingRFU => "RFU" | FEC_PN9 => "FEC_PN9" | CW => "CW" end.
Definition class_text (c : ChannelClass) : string :=
  match c with LO_RATE => "LO_RATE" | LORA => "LORA" | NORMAL_RATE => "NORMAL_RATE" | HI_RATE => "HI_RATE" end.
Definition band_text (c : ChannelBand) : string :=
  match c with BAND_NOT_IMPL => "NOT_IMPL" | BAND_433 => "BAND_433" | BAND_868 => "BAND_868" | BAND_915 => "BAND_915" end.
Definition bandwidth_text (b : Bandwidth) : string := match b with kHz25 => "kHz25" | kHz200 => "kHz200" end.
(** every member has its name in the class, and the value it has on the wire *)
Definition named {T} (e : EnumDef) (text : T -> string) (value : T -> Z) : Prop :=
  forall t, declares e (text t) (value t).

(** the name of the id of a system file of a class of its own *)
Definition profile_digits : list string := ["0"; "1"; "2"; "3"; "4"; "5"; "6"; "7"; "8"; "9"; "10"; "11"; "12"; "13"; "14"].
Definition file_text (f : SysFile) : option string :=
  match f with
  | F_Uid _ => Some "UID" | F_Factory _ => Some "FACTORY_SETTINGS" | F_Fw _ => Some "FIRMWARE_VERSION"
  | F_Eng _ => Some "ENGINEERING_MODE" | F_Vid _ => Some "VID" | F_PhyStatus _ => Some "PHY_STATUS"
  | F_DllConfig _ => Some "DLL_CONFIG" | F_DllStatus _ => Some "DLL_STATUS" | F_SecKey _ => Some "NWL_SECURITY_KEY"
  | F_RootKey _ => Some "ALP_ROOT_AUTHENTICATION_KEY" | F_UserKey _ => Some "ALP_USER_AUTHENTICATION_KEY"
  | F_AccessProfile f => option_map (append "ACCESS_PROFILE_") (nth_error profile_digits (Z.to_nat (apf_spec f)))
  | F_NotImpl _ _ | F_IfConfig _ => None
  end.
(** the other ids, in order *)
Definition without_class : list (string * Z) :=
  [ ("DEVICE_CAPACITY", 3); ("DEVICE_STATUS", 4); ("RFU_07", 7); ("PHY_CONFIG", 8); ("NWL_ROUTING", 12); ("NWL_SECURITY", 13);
    ("NWL_SSR", 15); ("NWL_STATUS", 16); ("TRL_STATUS", 17); ("SEL_CONFIG", 18); ("FOF_STATUS", 19); ("RFU_14", 20); ("RFU_15", 21);
    ("RFU_16", 22); ("LOCATION_DATA", 23); ("D7AALP_RFU_1A", 26); ("D7AALP_RFU_1B", 27); ("D7AALP_RFU_1C", 28); ("D7AALP_RFU_1D", 29);
    ("D7AALP_RFU_1E", 30); ("D7AALP_RFU_1F", 31); ("RFU_2F", 47) ].

(** the members of the two enumerations that no field on the wire holds *)
Definition frame_types : list (string * Z) := [ ("BACKGROUND", 1); ("FOREGROUND", 0) ].
Definition csma_ca_modes : list (string * Z) := [ ("RIGD", 3); ("RAIND", 2); ("AIND", 1); ("UNC", 0) ].
