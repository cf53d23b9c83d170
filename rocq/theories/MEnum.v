(** The enumerations of the library: d7a/**/*.py, and their way through JSON,
    d7a/support/serialization/enum_handler.py. *)
From Coq Require Import String Ascii.
From Verif Require Import MBase MSchema.
Open Scope string_scope.
Open Scope Z_scope.

(** An [Enum] class: the module it is defined in, its name, and the names and
    values of its body in order.  A member is the value [VMember class value]
    (MSchema.v); a name whose value occurred before is another name of the same
    member (Python's [enum]). *)
Record EnumDef := mkEnum { e_module : string; e_class : string; e_members : list (string * Z) }.

(** d7a/alp/interface.py:28-32 *)
Definition E_InterfaceType : EnumDef := mkEnum "d7a.alp.interface" "InterfaceType"
  [ ("HOST", 0); ("SERIAL", 1); ("LORAWAN_ABP", 2); ("LORAWAN_OTAA", 3); ("D7ASP", 215) ].
(** d7a/alp/operands/query.py:31-36 *)
Definition E_QueryType : EnumDef := mkEnum "d7a.alp.operands.query" "QueryType"
  [ ("NON_VOID_CHECK", 0); ("ARITH_COMP_WITH_ZERO", 1); ("ARITH_COMP_WITH_VALUE", 2);
    ("ARITH_COMP_BETWEEN_FILES", 3); ("RANGE_COMP", 4); ("STRING_TOKEN", 7) ].
(** d7a/alp/operands/query.py:39-44 *)
Definition E_ArithComparisonType : EnumDef := mkEnum "d7a.alp.operands.query" "ArithComparisonType"
  [ ("INEQUALITY", 0); ("EQUALITY", 1); ("LESS_THAN", 2); ("LESS_THAN_OR_EQUAL_TO", 3);
    ("GREATER_THAN", 4); ("GREATER_THAN_OR_EQUAL_TO", 5) ].
(** d7a/d7anp/addressee.py:37-40 *)
Definition E_IdType : EnumDef := mkEnum "d7a.d7anp.addressee" "IdType"
  [ ("NBID", 0); ("NOID", 1); ("UID", 2); ("VID", 3) ].
(** d7a/d7anp/addressee.py:43-50 *)
Definition E_NlsMethod : EnumDef := mkEnum "d7a.d7anp.addressee" "NlsMethod"
  [ ("NONE", 0); ("AES_CTR", 1); ("AES_CBC_MAC_128", 2); ("AES_CBC_MAC_64", 3);
    ("AES_CBC_MAC_32", 4); ("AES_CCM_128", 5); ("AES_CCM_64", 6); ("AES_CCM_32", 7) ].
(** d7a/dll/access_profile.py:34-37 *)
Definition E_CsmaCaMode : EnumDef := mkEnum "d7a.dll.access_profile" "CsmaCaMode"
  [ ("UNC", 0); ("AIND", 1); ("RAIND", 2); ("RIGD", 3) ].
(** d7a/dll/parser.py:34-35 *)
Definition E_FrameType : EnumDef := mkEnum "d7a.dll.parser" "FrameType"
  [ ("FOREGROUND", 0); ("BACKGROUND", 1) ].
(** d7a/fs/file_properties.py:30-33 *)
Definition E_ActionCondition : EnumDef := mkEnum "d7a.fs.file_properties" "ActionCondition"
  [ ("LIST", 0); ("READ", 1); ("WRITE", 2); ("WRITE_FLUSH", 3) ].
(** d7a/fs/file_properties.py:37-40 *)
Definition E_StorageClass : EnumDef := mkEnum "d7a.fs.file_properties" "StorageClass"
  [ ("TRANSIENT", 0); ("VOLATILE", 1); ("RESTORABLE", 2); ("PERMANENT", 3) ].
(** d7a/phy/channel_header.py:30-33 *)
Definition E_ChannelCoding : EnumDef := mkEnum "d7a.phy.channel_header" "ChannelCoding"
  [ ("PN9", 0); ("RFU", 1); ("FEC_PN9", 2); ("CW", 3) ].
(** d7a/phy/channel_header.py:47-50 *)
Definition E_ChannelClass : EnumDef := mkEnum "d7a.phy.channel_header" "ChannelClass"
  [ ("LO_RATE", 0); ("LORA", 1); ("NORMAL_RATE", 2); ("HI_RATE", 3) ].
(** d7a/phy/channel_header.py:69-72 *)
Definition E_ChannelBand : EnumDef := mkEnum "d7a.phy.channel_header" "ChannelBand"
  [ ("NOT_IMPL", 0); ("BAND_433", 2); ("BAND_868", 3); ("BAND_915", 4) ].
(** d7a/phy/channel_status_identifier.py:30-31 *)
Definition E_Bandwidth : EnumDef := mkEnum "d7a.phy.channel_status_identifier" "Bandwidth"
  [ ("kHz25", 1); ("kHz200", 0) ].
(** d7a/sp/qos.py:32-37 *)
Definition E_ResponseMode : EnumDef := mkEnum "d7a.sp.qos" "ResponseMode"
  [ ("RESP_MODE_NO", 0); ("RESP_MODE_ALL", 1); ("RESP_MODE_ANY", 2); ("RESP_MODE_NO_RPT", 4);
    ("RESP_MODE_ON_ERROR", 5); ("RESP_MODE_PREFERRED", 6) ].
(** d7a/sp/qos.py:40-40 *)
Definition E_RetryMode : EnumDef := mkEnum "d7a.sp.qos" "RetryMode"
  [ ("RETRY_MODE_NO", 0) ].
(** d7a/system_files/engineering_mode.py:35-39 *)
Definition E_EngineeringModeMode : EnumDef := mkEnum "d7a.system_files.engineering_mode" "EngineeringModeMode"
  [ ("ENGINEERING_MODE_MODE_OFF", 0); ("ENGINEERING_MODE_MODE_CONT_TX", 1);
    ("ENGINEERING_MODE_MODE_TRANSIENT_TX", 2); ("ENGINEERING_MODE_MODE_PER_RX", 3);
    ("ENGINEERING_MODE_MODE_PER_TX", 4) ].
(** d7a/system_files/system_file_ids.py:28-75 *)
Definition E_SystemFileIds : EnumDef := mkEnum "d7a.system_files.system_file_ids" "SystemFileIds"
  [ ("UID", 0); ("FACTORY_SETTINGS", 1); ("FIRMWARE_VERSION", 2); ("DEVICE_CAPACITY", 3);
    ("DEVICE_STATUS", 4); ("ENGINEERING_MODE", 5); ("VID", 6); ("RFU_07", 7); ("PHY_CONFIG", 8);
    ("PHY_STATUS", 9); ("DLL_CONFIG", 10); ("DLL_STATUS", 11); ("NWL_ROUTING", 12);
    ("NWL_SECURITY", 13); ("NWL_SECURITY_KEY", 14); ("NWL_SSR", 15); ("NWL_STATUS", 16);
    ("TRL_STATUS", 17); ("SEL_CONFIG", 18); ("FOF_STATUS", 19); ("RFU_14", 20); ("RFU_15", 21);
    ("RFU_16", 22); ("LOCATION_DATA", 23); ("ALP_ROOT_AUTHENTICATION_KEY", 24);
    ("ALP_USER_AUTHENTICATION_KEY", 25); ("D7AALP_RFU_1A", 26); ("D7AALP_RFU_1B", 27);
    ("D7AALP_RFU_1C", 28); ("D7AALP_RFU_1D", 29); ("D7AALP_RFU_1E", 30); ("D7AALP_RFU_1F", 31);
    ("ACCESS_PROFILE_0", 32); ("ACCESS_PROFILE_1", 33); ("ACCESS_PROFILE_2", 34);
    ("ACCESS_PROFILE_3", 35); ("ACCESS_PROFILE_4", 36); ("ACCESS_PROFILE_5", 37);
    ("ACCESS_PROFILE_6", 38); ("ACCESS_PROFILE_7", 39); ("ACCESS_PROFILE_8", 40);
    ("ACCESS_PROFILE_9", 41); ("ACCESS_PROFILE_10", 42); ("ACCESS_PROFILE_11", 43);
    ("ACCESS_PROFILE_12", 44); ("ACCESS_PROFILE_13", 45); ("ACCESS_PROFILE_14", 46);
    ("RFU_2F", 47) ].
Definition library_enums : list EnumDef :=
  [E_InterfaceType; E_QueryType; E_ArithComparisonType; E_IdType; E_NlsMethod;
   E_CsmaCaMode; E_FrameType; E_ActionCondition; E_StorageClass;
   E_ChannelCoding; E_ChannelClass; E_ChannelBand; E_Bandwidth;
   E_ResponseMode; E_RetryMode; E_EngineeringModeMode; E_SystemFileIds].

(** [Class(value)], [Class[name]] and [member.name] of Python's [enum] *)
Definition enum_call (e : EnumDef) (v : Z) : res PyVal :=
  if existsb (fun m => snd m =? v) (e_members e) then Ok (VMember (e_class e) v) else Err ValueError.
Definition enum_getitem (e : EnumDef) (name : string) : res PyVal :=
  match find (fun m => String.eqb (fst m) name) (e_members e) with
  | Some (_, v) => Ok (VMember (e_class e) v)
  | None => Err KeyError
  end.
Definition enum_name (e : EnumDef) (v : Z) : string :=
  match find (fun m => snd m =? v) (e_members e) with Some (n, _) => n | None => "" end.

(** [s.rsplit(".", 1)]: before and after the last dot; [None] without a dot
    (the list then has one element and cannot be unpacked) *)
Definition dot : ascii := "."%char.
Fixpoint rsplit_dot (s : string) : option (string * string) :=
  match s with
  | EmptyString => None
  | String c rest =>
      match rsplit_dot rest with
      | Some (a, b) => Some (String c a, b)
      | None => if Ascii.eqb c dot then Some ("", rest) else None
      end
  end.

(** What jsonpickle 1.3 writes for a member: ["py/object"] is the module and the
    name of the class (jsonpickle's own), ["value"] is set by
    EnumHandler.flatten, enum_handler.py:30-32. *)
Record Pickled := mkPickled { py_object : string; py_value : string }.
Definition flatten (e : EnumDef) (v : Z) : Pickled :=
  mkPickled (e_module e ++ String dot (e_class e)) (enum_name e v).
(** EnumHandler.restore, lines 34-37.  [None]: the path is not that of an
    enumeration of the library; what importing it does is not modelled. *)
Definition restore (p : Pickled) : option (res PyVal) :=
  match rsplit_dot (py_object p) with
  | None => Some (Err ValueError)
  | Some (m, c) =>
      match find (fun e => String.eqb (e_module e) m && String.eqb (e_class e) c) library_enums with
      | Some e => Some (enum_getitem e (py_value p))
      | None => None
      end
  end.

(** SystemFiles.get_all_system_files, system_files.py:91-93: [sorted] with the
    values of the ids as keys, over the keys of a dict in whatever order the
    dict has them *)
Fixpoint insert_id (x : Z) (l : list Z) : list Z :=
  match l with [] => [x] | y :: r => if x <=? y then x :: l else y :: insert_id x r end.
Definition all_system_files (keys : list Z) : list Z := fold_right insert_id [] keys.
