(** What the export of an object of each class lists: the name of its class and
    then its attributes, without those that hold a class. *)
From Coq Require Import String.
From Verif Require Import MBase MOperands MSysFiles MAlp MDll MAsDict SAsDict SAlp SContent.
Open Scope string_scope.
Open Scope Z_scope.

Definition lists (v : Value) (cls : string) (attrs : list (string * Value)) : Prop :=
  as_dict v = PDict (("__CLASS__", PName cls) :: attrs).
(** an attribute that may be [None] *)
Definition maybe {A} (f : A -> Value) (o : option A) : Value :=
  match o with Some x => as_dict (f x) | None => PNone end.
(** a list of numbers, a list of objects *)
Definition numbers (l : list Z) : Value := PList (map PInt l).
Definition dicts {A} (f : A -> Value) (l : list A) : Value := PList (map (fun x => as_dict (f x)) l).

Definition operation_class (o : Operation) : string :=
  match o with
  | NoOperation => "NoOperation" | ReadFileData _ => "ReadFileData" | ReadFileHeader _ => "ReadFileHeader"
  | WriteFileData _ => "WriteFileData" | WriteFileHeader _ => "WriteFileHeader" | BreakQuery _ => "BreakQuery"
  | CreateNewFile _ => "CreateNewFile" | ReturnFileData _ _ => "ReturnFileData"
  | ReturnFileHeader _ => "ReturnFileHeader" | InterfaceStatus _ => "InterfaceStatus"
  | TagResponse _ => "TagResponse" | Forward _ => "Forward" | IndirectForward _ => "IndirectForward"
  | TagRequest _ => "TagRequest"
  end.
Definition operand_of (o : Operation) : Value :=
  match o with
  | NoOperation => PNone | ReadFileData x => as_dict (o_dr x) | ReadFileHeader x => as_dict (o_fid x)
  | WriteFileData x => as_dict (o_data x) | WriteFileHeader x => as_dict (o_fho x) | BreakQuery x => as_dict (o_query x)
  | CreateNewFile x => as_dict (o_fho x) | ReturnFileData x _ => as_dict (o_data x)
  | ReturnFileHeader x => as_dict (o_fho x) | InterfaceStatus x => as_dict (o_iso x)
  | TagResponse x => as_dict (o_tag x) | Forward x => as_dict (o_ic x) | IndirectForward x => as_dict (o_indirect x)
  | TagRequest x => as_dict (o_tag x)
  end.
(** the own attributes of an action, before its operation *)
Definition action_class (k : ActKind) : string * list (string * bool) :=
  match k with
  | Regular g r => ("RegularAction", [("group", g); ("resp", r)])
  | FwdAct r => ("ForwardAction", [("resp", r)])
  | IndFwdAct o r => ("IndirectForwardAction", [("overload", o); ("resp", r)])
  | StatusAct _ => ("StatusAction", [])
  | TagReqAct r => ("TagRequestAction", [("respond_when_completed", r)])
  | TagRespAct e f => ("TagResponseAction", [("eop", e); ("error", f)])
  end.
Definition file_class (f : SysFile) : string :=
  match f with
  | F_Uid _ => "UidFile" | F_Factory _ => "FactorySettingsFile" | F_Fw _ => "FirmwareVersionFile"
  | F_Eng _ => "EngineeringModeFile" | F_Vid _ => "VidFile" | F_PhyStatus _ => "PhyStatusFile"
  | F_DllConfig _ => "DllConfigFile" | F_DllStatus _ => "DllStatusFile" | F_SecKey _ => "SecurityKeyFile"
  | F_RootKey _ => "RootAuthenticationKeyFile" | F_UserKey _ => "UserAuthenticationKeyFile"
  | F_AccessProfile _ => "AccessProfileFile" | F_NotImpl _ _ => "NotImplementedFile"
  | F_IfConfig _ => "InterfaceConfigurationFile"
  end.
(** the content of a file, before its id and its length *)
Definition file_content (f : SysFile) : list (string * Value) :=
  match f with
  | F_Uid f => [("uid", PInt (uid_uid f))]
  | F_Factory f =>
      combine ["gain"; "rx_bw_low_rate"; "rx_bw_normal_rate"; "rx_bw_high_rate"; "bitrate_lo_rate"; "fdev_lo_rate";
               "bitrate_normal_rate"; "fdev_normal_rate"; "bitrate_hi_rate"; "fdev_hi_rate";
               "preamble_size_lo_rate"; "preamble_size_normal_rate"; "preamble_size_hi_rate";
               "preamble_detector_size_lo_rate"; "preamble_detector_size_normal_rate"; "preamble_detector_size_hi_rate";
               "preamble_tol_lo_rate"; "preamble_tol_normal_rate"; "preamble_tol_hi_rate";
               "rssi_smoothing"; "rssi_offset"; "lora_bw"; "lora_SF"; "gaussian"; "paramp"]
              (map PInt ([fs_gain f] ++ fs_rates f ++ fs_pre f ++ fs_tol f
                         ++ [fs_smoothing f; fs_offset f; fs_lora_bw f; fs_lora_sf f; fs_gaussian f; fs_paramp f]))
  | F_Fw f => [("d7a_protocol_version_major", PInt (fw_major f)); ("d7a_protocol_version_minor", PInt (fw_minor f));
               ("filesystem_version_major", PInt (fw_fs_major f)); ("filesystem_version_minor", PInt (fw_fs_minor f));
               ("application_name", PText (fw_app f)); ("git_sha1", PText (fw_git f))]
  | F_Eng f => [("mode", PMember "EngineeringModeMode" (engmode_value (em_mode f))); ("flags", PInt (em_flags f));
                ("timeout", PInt (em_timeout f)); ("channel_id", as_dict (o_cid (em_channel f)));
                ("eirp", PInt (em_eirp f))]
  | F_Vid f => [("vid", PInt (vid_vid f)); ("control", PInt (vid_control f))]
  | F_PhyStatus f => [("up_time", PInt (ps_up f)); ("rx_time", PInt (ps_rx f)); ("tx_time", PInt (ps_tx f));
                      ("tx_duty_cycle", PInt (ps_duty f)); ("channel_status_list_length", PInt (ps_len f));
                      ("channel_status_identifier", dicts o_csi (ps_ids f));
                      ("channel_noise_floor", numbers (ps_noise f))]
  | F_DllConfig f => [("active_access_class", PInt (dc_access_class f)); ("lq_filter", PInt (dc_lq_filter f));
                      ("nf_ctrl", PInt (dc_nf_ctrl f)); ("rx_nf_method_parameter", PInt (dc_rx_nf f));
                      ("tx_nf_method_parameter", PInt (dc_tx_nf f))]
  | F_DllStatus f => [("last_rx_packet_level", PInt (ds_level f)); ("last_rx_packet_link_budget", PInt (ds_budget f));
                      ("noise_floor", PInt (ds_noise f)); ("channel_header", as_dict (o_ch (ds_header f)));
                      ("channel_index", PInt (ds_index f)); ("scan_timeout_ratio", PInt (ds_ratio f));
                      ("scan_count", PInt (ds_scan f)); ("scan_timeout_count", PInt (ds_timeout f))]
  | F_SecKey f => [("key", PInt (key_key f))]
  | F_RootKey f | F_UserKey f => [("key", PInt (key_key f)); ("rfu", PInt 0)]
  | F_AccessProfile f => [("access_specifier", PInt (apf_spec f)); ("access_profile", maybe o_ap (apf_profile f))]
  | F_NotImpl _ _ => []
  | F_IfConfig f => [("interface_configuration", as_dict (o_ic (icf_conf f)))]
  end.

(** ** Classes of the library derived from another class of the library *)
Definition derived (c p : string) : Prop :=
  p = "Action" /\ In c ["RegularAction"; "ForwardAction"; "IndirectForwardAction"; "StatusAction";
                        "TagRequestAction"; "TagResponseAction"]
  \/ p = "Operation" /\ (exists o, c = operation_class o)
  \/ p = "Validatable" /\ c <> "Validatable" /\ c <> "NotImplementedFile".
