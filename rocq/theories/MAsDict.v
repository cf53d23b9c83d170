(** [Validatable.as_dict], d7a/support/schema.py:52-69, and the attributes
    ([__dict__]) of every object it is used on.

    A dict is written as the list of its items.  Python leaves the order open;
    here it is the order in which the constructor of the class assigns the
    attributes, so the exports of two objects of one class list the same keys in
    the same order. *)
From Coq Require Import String.
From Verif Require Import MBase MCt MPhy MSp MFs MProfile MOperands MSysFiles MAlp MDll.
Open Scope string_scope.
Open Scope Z_scope.

(** Python values.  [PObj] is an instance of a class derived from
    [Validatable], with the items of its [__dict__]; [POther] an instance of
    another class; [PClass] a class. *)
Inductive Value :=
| PNone
| PBool (b : bool)
| PInt (z : Z)
| PText (chars : list Z)
| PName (s : string)                       (* a string literal of the program *)
| PMember (enum : string) (value : Z)
| PClass (name : string)
| PList (l : list Value)
| PDict (items : list (string * Value))
| PObj (cls : string) (attrs : list (string * Value))
| POther (cls : string).

(** schema.py:52-69 *)
Fixpoint as_dict (v : Value) : Value :=
  match v with
  | PObj cls attrs =>
      PDict (("__CLASS__", PName cls)
             :: (fix items (l : list (string * Value)) : list (string * Value) :=
                   match l with
                   | [] => []
                   | (k, a) :: r =>
                       match a with
                       | PClass _ => items r
                       | PList es =>
                           (k, PList (map (fun e => match e with PObj _ _ => as_dict e | _ => e end) es)) :: items r
                       | PObj _ _ => (k, as_dict a) :: items r
                       | _ => (k, a) :: items r
                       end
                   end) attrs)
  | _ => v                                  (* only objects have the method *)
  end.

(** ** The attributes, class by class *)
Definition p_ints (l : list Z) : Value := PList (map PInt l).
Definition p_opt {A} (f : A -> Value) (o : option A) : Value :=
  match o with Some x => f x | None => PNone end.
Definition p_idtype (t : IdType) : Value := PMember "IdType" (idtype_value t).
Definition p_nls (m : NlsMethod) : Value := PMember "NlsMethod" (nls_value m).

(** types/ct.py:50-52 *)
Definition o_ct (c : CT) : Value := PObj "CT" [("exp", PInt (ct_exp c)); ("mant", PInt (ct_mant c))].
(** phy/channel_header.py:90-93 *)
Definition o_ch (h : ChannelHeader) : Value :=
  PObj "ChannelHeader" [("channel_coding", PMember "ChannelCoding" (coding_value (ch_coding h)));
                        ("channel_class", PMember "ChannelClass" (class_value (ch_class h)));
                        ("channel_band", PMember "ChannelBand" (band_value (ch_band h)))].
(** phy/channel_id.py:37-39 *)
Definition o_cid (c : ChannelID) : Value :=
  PObj "ChannelID" [("channel_header", o_ch (cid_header c)); ("channel_index", PInt (cid_index c))].
(** phy/channel_status_identifier.py:45-48 *)
Definition o_csi (c : ChannelStatusIdentifier) : Value :=
  PObj "ChannelStatusIdentifier" [("channel_band", PMember "ChannelBand" (band_value (csi_band c)));
                                  ("channel_bandwidth", PMember "Bandwidth" (bandwidth_value (csi_bandwidth c)));
                                  ("channel_index", PInt (csi_index c))].
(** phy/subband.py:41-46 *)
Definition o_subband (b : SubBand) : Value :=
  PObj "SubBand" [("channel_index_start", PInt (sb_start b)); ("channel_index_end", PInt (sb_end b));
                  ("eirp", PInt (sb_eirp b)); ("cca", PInt (sb_cca b)); ("duty", PInt (sb_duty b))].
(** dll/sub_profile.py:37-39 *)
Definition o_subprofile (s : SubProfile) : Value :=
  PObj "SubProfile" [("subband_bitmap", PInt (sp_bitmap s)); ("scan_automation_period", o_ct (sp_period s))].
(** dll/access_profile.py:51-54 *)
Definition o_ap (p : AccessProfile) : Value :=
  PObj "AccessProfile" [("channel_header", o_ch (ap_header p));
                        ("sub_profiles", PList (map o_subprofile (ap_profiles p)));
                        ("sub_bands", PList (map o_subband (ap_bands p)))].
(** d7anp/addressee.py:101-105 *)
Definition p_addr_id (i : AddrId) : Value :=
  match i with IdNone => PNone | IdInt z => PInt z | IdCT c => o_ct c end.
Definition o_addr (a : Addressee) : Value :=
  PObj "Addressee" [("id_type", p_idtype (ad_id_type a)); ("access_class", PInt (ad_access_class a));
                    ("id", p_addr_id (ad_id a)); ("nls_method", p_nls (ad_nls a))].
(** sp/qos.py:50-54 *)
Definition o_qos (q : QoS) : Value :=
  PObj "QoS" [("resp_mod", PMember "ResponseMode" (resp_value (q_resp q)));
              ("retry_mod", PMember "RetryMode" (retry_value (q_retry q)));
              ("stop_on_err", PBool (q_stop q)); ("record", PBool (q_record q))].
(** sp/configuration.py:45-48 *)
Definition o_conf (c : Configuration) : Value :=
  PObj "Configuration" [("qos", o_qos (cf_qos c)); ("dorm_to", o_ct (cf_dorm_to c));
                        ("addressee", o_addr (cf_addressee c))].
(** sp/status.py:72-84 *)
Definition o_status (s : Status) : Value :=
  PObj "Status" [("channel_id", o_cid (st_channel_id s)); ("rx_level", PInt (st_rx_level s));
                 ("link_budget", PInt (st_link_budget s)); ("target_rx_level", PInt (st_target_rx_level s));
                 ("nls", PBool (st_nls s)); ("missed", PBool (st_missed s)); ("retry", PBool (st_retry s));
                 ("unicast", PBool (st_unicast s)); ("fifo_token", PInt (st_fifo_token s));
                 ("seq_nr", PInt (st_seq_nr s)); ("response_to", o_ct (st_response_to s));
                 ("addressee", o_addr (st_addressee s))].
(** fs/file_permissions.py:40-48 *)
Definition o_perm (p : FilePermissions) : Value :=
  PObj "FilePermissions" [("encrypted", PBool (fp_encrypted p)); ("executable", PBool (fp_executable p));
                          ("user_readable", PBool (fp_user_r p)); ("user_writeable", PBool (fp_user_w p));
                          ("user_executeable", PBool (fp_user_x p)); ("guest_readable", PBool (fp_guest_r p));
                          ("guest_writeable", PBool (fp_guest_w p)); ("guest_executeable", PBool (fp_guest_x p))].
(** fs/file_properties.py:50-53 *)
Definition o_prop (p : FileProperties) : Value :=
  PObj "FileProperties" [("act_enabled", PBool (pr_enabled p));
                         ("act_condition", PMember "ActionCondition" (actcond_value (pr_cond p)));
                         ("storage_class", PMember "StorageClass" (storage_value (pr_storage p)))].
(** fs/file_header.py:41-47 *)
Definition o_fh (h : FileHeader) : Value :=
  PObj "FileHeader" [("permissions", o_perm (fh_perm h)); ("properties", o_prop (fh_prop h));
                     ("alp_command_file_id", PInt (fh_alp_file h)); ("interface_file_id", PInt (fh_if_file h));
                     ("file_size", PInt (fh_size h)); ("allocated_size", PInt (fh_alloc h))].

(** *** operands, alp/operands *)
(** length.py:38; offset.py:40-41; file.py:41-43, 72-73, 91 *)
Definition o_length (l : Length) : Value := PObj "Length" [("value", PInt (len_value l))].
Definition o_offset (o : Offset) : Value :=
  PObj "Offset" [("id", PInt (off_id o)); ("offset", o_length (off_offset o))].
Definition o_data (d : Data) : Value :=
  PObj "Data" [("offset", o_offset (d_offset d)); ("data", p_ints (d_data d)); ("length", o_length (d_length d))].
Definition o_dr (d : DataRequest) : Value :=
  PObj "DataRequest" [("offset", o_offset (dr_offset d)); ("length", o_length (dr_length d))].
Definition o_fid (f : FileId) : Value := PObj "FileIdOperand" [("file_id", PInt (fid_id f))].
(** file_header.py:36-37 *)
Definition o_fho (f : FileHeaderOp) : Value :=
  PObj "FileHeaderOperand" [("file_id", PInt (fho_id f)); ("file_header", o_fh (fho_header f))].
(** query.py:53-54, 80-85 *)
Definition o_arith (a : ArithParams) : Value :=
  PObj "ArithQueryParams" [("signed_data_type", PBool (ar_signed a));
                           ("comp_type", PMember "ArithComparisonType" (comp_value (ar_comp a)))].
Definition o_query (q : Query) : Value :=
  PObj "QueryOperand" [("type", PMember "QueryType" (qtype_value (q_type q))); ("mask_present", PBool (q_mask q));
                       ("params", o_arith (q_params q)); ("compare_length", o_length (q_compare_length q));
                       ("compare_value", p_ints (q_compare_value q)); ("file_a_offset", o_offset (q_file_a q))].
(** lorawan_interface_configuration_abp.py:44-49, …_otaa.py:43-46 *)
Definition o_abp (c : LoraABP) : Value :=
  PObj "LoRaWANInterfaceConfigurationABP"
       [("adr_enabled", PBool (abp_adr c)); ("request_ack", PBool (abp_ack c)); ("app_port", PInt (abp_port c));
        ("data_rate", PInt (abp_rate c)); ("dev_addr", PInt (abp_dev_addr c)); ("netw_id", PInt (abp_netw_id c))].
Definition o_otaa (c : LoraOTAA) : Value :=
  PObj "LoRaWANInterfaceConfigurationOTAA"
       [("adr_enabled", PBool (otaa_adr c)); ("request_ack", PBool (otaa_ack c)); ("app_port", PInt (otaa_port c));
        ("data_rate", PInt (otaa_rate c))].
(** interface_configuration.py:35-36, interface_status.py:36-37,
    indirect_interface_operand.py:38-39, tag_id.py:34 *)
Definition o_ifconfig (c : IfConfig) : Value :=
  match c with CfgD7 c => o_conf c | CfgABP c => o_abp c | CfgOTAA c => o_otaa c end.
Definition o_ic (i : InterfaceConfiguration) : Value :=
  PObj "InterfaceConfiguration" [("interface_id", PMember "InterfaceType" (iftype_value (ic_id i)));
                                 ("interface_configuration", p_opt o_ifconfig (ic_conf i))].
Definition o_iso (o : IfStatusOp) : Value :=
  PObj "InterfaceStatusOperand" [("interface_id", PInt (iso_id o)); ("interface_status", p_opt o_status (iso_status o))].
Definition o_indirect (o : IndirectOp) : Value :=
  PObj "IndirectInterfaceOperand" [("interface_file_id", PInt (ii_file o));
                                   ("interface_configuration_overload", p_opt o_addr (ii_overload o))].
Definition o_tag (t : TagId) : Value := PObj "TagId" [("tag_id", PInt (tag_value t))].

(** *** system files; [File.__init__] sets [id] and [length], file.py:27-28 *)
Definition p_file (id length : Z) : list (string * Value) := [("id", PInt id); ("length", PInt length)].
Definition rate (n : nat) (l : list Z) : Value := PInt (nth n l 0).
Definition o_file (f : SysFile) : Value :=
  match f with
  | F_Uid f => PObj "UidFile" (("uid", PInt (uid_uid f)) :: p_file 0 8)                 (* uid.py:38-39 *)
  | F_Factory f =>                                                                       (* factory_settings.py:69-94 *)
      PObj "FactorySettingsFile"
        ([("gain", PInt (fs_gain f));
          ("rx_bw_low_rate", rate 0 (fs_rates f)); ("rx_bw_normal_rate", rate 1 (fs_rates f));
          ("rx_bw_high_rate", rate 2 (fs_rates f)); ("bitrate_lo_rate", rate 3 (fs_rates f));
          ("fdev_lo_rate", rate 4 (fs_rates f)); ("bitrate_normal_rate", rate 5 (fs_rates f));
          ("fdev_normal_rate", rate 6 (fs_rates f)); ("bitrate_hi_rate", rate 7 (fs_rates f));
          ("fdev_hi_rate", rate 8 (fs_rates f));
          ("preamble_size_lo_rate", rate 0 (fs_pre f)); ("preamble_size_normal_rate", rate 1 (fs_pre f));
          ("preamble_size_hi_rate", rate 2 (fs_pre f)); ("preamble_detector_size_lo_rate", rate 3 (fs_pre f));
          ("preamble_detector_size_normal_rate", rate 4 (fs_pre f));
          ("preamble_detector_size_hi_rate", rate 5 (fs_pre f));
          ("preamble_tol_lo_rate", rate 0 (fs_tol f)); ("preamble_tol_normal_rate", rate 1 (fs_tol f));
          ("preamble_tol_hi_rate", rate 2 (fs_tol f));
          ("rssi_smoothing", PInt (fs_smoothing f)); ("rssi_offset", PInt (fs_offset f));
          ("lora_bw", PInt (fs_lora_bw f)); ("lora_SF", PInt (fs_lora_sf f));
          ("gaussian", PInt (fs_gaussian f)); ("paramp", PInt (fs_paramp f))] ++ p_file 1 56)
  | F_Fw f =>                                                                            (* firmware_version.py:44-51 *)
      PObj "FirmwareVersionFile"
        ([("d7a_protocol_version_major", PInt (fw_major f)); ("d7a_protocol_version_minor", PInt (fw_minor f));
          ("filesystem_version_major", PInt (fw_fs_major f)); ("filesystem_version_minor", PInt (fw_fs_minor f));
          ("application_name", PText (fw_app f)); ("git_sha1", PText (fw_git f))] ++ p_file 2 17)
  | F_Eng f =>                                                                           (* engineering_mode.py:72-77 *)
      PObj "EngineeringModeFile"
        ([("mode", PMember "EngineeringModeMode" (engmode_value (em_mode f))); ("flags", PInt (em_flags f));
          ("timeout", PInt (em_timeout f)); ("channel_id", o_cid (em_channel f)); ("eirp", PInt (em_eirp f))]
         ++ p_file 5 9)
  | F_Vid f => PObj "VidFile" ([("vid", PInt (vid_vid f)); ("control", PInt (vid_control f))] ++ p_file 6 3)
  | F_PhyStatus f =>                                                                     (* phy_status.py:43-57 *)
      PObj "PhyStatusFile"
        ([("up_time", PInt (ps_up f)); ("rx_time", PInt (ps_rx f)); ("tx_time", PInt (ps_tx f));
          ("tx_duty_cycle", PInt (ps_duty f)); ("channel_status_list_length", PInt (ps_len f));
          ("channel_status_identifier", PList (map o_csi (ps_ids f))); ("channel_noise_floor", p_ints (ps_noise f))]
         ++ p_file 9 45)
  | F_DllConfig f =>                                                                     (* dll_config.py:42-47 *)
      PObj "DllConfigFile"
        ([("active_access_class", PInt (dc_access_class f)); ("lq_filter", PInt (dc_lq_filter f));
          ("nf_ctrl", PInt (dc_nf_ctrl f)); ("rx_nf_method_parameter", PInt (dc_rx_nf f));
          ("tx_nf_method_parameter", PInt (dc_tx_nf f))] ++ p_file 10 7)
  | F_DllStatus f =>                                                                     (* dll_status.py:47-55 *)
      PObj "DllStatusFile"
        ([("last_rx_packet_level", PInt (ds_level f)); ("last_rx_packet_link_budget", PInt (ds_budget f));
          ("noise_floor", PInt (ds_noise f)); ("channel_header", o_ch (ds_header f));
          ("channel_index", PInt (ds_index f)); ("scan_timeout_ratio", PInt (ds_ratio f));
          ("scan_count", PInt (ds_scan f)); ("scan_timeout_count", PInt (ds_timeout f))] ++ p_file 11 16)
  | F_SecKey f => PObj "SecurityKeyFile" (("key", PInt (key_key f)) :: p_file 14 16)     (* security_key.py:38-40 *)
  | F_RootKey f =>                                                                       (* root_authentication_key.py:39-42 *)
      PObj "RootAuthenticationKeyFile" ([("key", PInt (key_key f)); ("rfu", PInt 0)] ++ p_file 24 40)
  | F_UserKey f =>                                                                       (* user_authentication_key.py:39-42 *)
      PObj "UserAuthenticationKeyFile" ([("key", PInt (key_key f)); ("rfu", PInt 0)] ++ p_file 25 40)
  | F_AccessProfile f =>                                                                 (* access_profile.py:37-40 *)
      PObj "AccessProfileFile"
        ([("access_specifier", PInt (apf_spec f)); ("access_profile", p_opt o_ap (apf_profile f))]
         ++ p_file (32 + apf_spec f) 65)
  | F_NotImpl _ _ => POther "NotImplementedFile"                                         (* not_implemented.py:30 *)
  | F_IfConfig f =>                                                                      (* interface_configuration.py:40-46 *)
      PObj "InterfaceConfigurationFile"
        (("interface_configuration", o_ic (icf_conf f))
         :: match icf_length f with Ok n => p_file (icf_id f) n | Err _ => [] end)
  end.

(** *** operations, alp/operations: [op], [operand_class] (a class, or [None] for
    [NoOperation]) and [operand] (operation.py:46) *)
Definition p_operation (op : Z) (operand_class : Value) (operand : Value) : list (string * Value) :=
  [("op", PInt op); ("operand_class", operand_class); ("operand", operand)].
(** [systemfile_type], responses.py:50,55: the entry of the table, here in the
    state it has after import (its lists may have grown since: C42) *)
Definition p_entry (d : Data) (parsed : option SysFile) : Value :=
  match parsed, system_file (off_id (d_offset d)) with
  | Some _, Some e => o_file e
  | _, _ => PNone
  end.
Definition o_operation (o : Operation) : Value :=
  match o with
  | NoOperation => PObj "NoOperation" (p_operation 0 PNone PNone)
  | ReadFileData x => PObj "ReadFileData" (p_operation 1 (PClass "DataRequest") (o_dr x))
  | ReadFileHeader x => PObj "ReadFileHeader" (p_operation 2 (PClass "FileIdOperand") (o_fid x))
  | WriteFileData x => PObj "WriteFileData" (p_operation 4 (PClass "Data") (o_data x))
  | WriteFileHeader x => PObj "WriteFileHeader" (p_operation 6 (PClass "FileHeaderOperand") (o_fho x))
  | BreakQuery x => PObj "BreakQuery" (p_operation 9 (PClass "QueryOperand") (o_query x))
  | CreateNewFile x => PObj "CreateNewFile" (p_operation 17 (PClass "FileHeaderOperand") (o_fho x))
  | ReturnFileData x parsed =>                                                           (* responses.py:38-60 *)
      PObj "ReturnFileData"
        ([("systemfile_type", p_entry x parsed); ("file_data_parsed", p_opt o_file parsed)]
         ++ p_operation 32 (PClass "Data") (o_data x))
  | ReturnFileHeader x => PObj "ReturnFileHeader" (p_operation 33 (PClass "FileHeaderOperand") (o_fho x))
  | InterfaceStatus x => PObj "InterfaceStatus" (p_operation 34 (PClass "InterfaceStatusOperand") (o_iso x))
  | TagResponse x => PObj "TagResponse" (p_operation 35 (PClass "TagId") (o_tag x))
  | Forward x => PObj "Forward" (p_operation 50 (PClass "InterfaceConfiguration") (o_ic x))
  | IndirectForward x => PObj "IndirectForward" (p_operation 51 (PClass "IndirectInterfaceOperand") (o_indirect x))
  | TagRequest x => PObj "TagRequest" (p_operation 52 (PClass "TagId") (o_tag x))
  end.

(** *** actions: regular_action.py:42-43, forward_action.py:40,
    indirect_forward_action.py:41-42, status_action.py:49-50,
    tag_request_action.py:38, tag_response_action.py:39-40, action.py:46 *)
Definition o_action (a : Action) : Value :=
  let op := ("operation", o_operation (a_op a)) in
  match a_kind a with
  | Regular g r => PObj "RegularAction" [("group", PBool g); ("resp", PBool r); op]
  | FwdAct r => PObj "ForwardAction" [("resp", PBool r); op]
  | IndFwdAct o r => PObj "IndirectForwardAction" [("overload", PBool o); ("resp", PBool r); op]
  | StatusAct e => PObj "StatusAction" [("status_operand_extension", PInt e); op]
  | TagReqAct r => PObj "TagRequestAction" [("respond_when_completed", PBool r); op]
  | TagRespAct e f => PObj "TagResponseAction" [("eop", PBool e); ("error", PBool f); op]
  end.

(** *** commands, command.py:66-91: [completed_with_error] exists only after a
    tag response *)
Definition o_command (c : Command) : Value :=
  PObj "Command"
    ([("actions", PList (map o_action (c_actions c))); ("interface_status", p_opt o_action (c_status c));
      ("generate_tag_request_action", PBool (c_generate c)); ("tag_id", p_opt PInt (c_tag c));
      ("send_tag_response_when_completed", PBool (c_respond c)); ("execution_completed", PBool (c_completed c))]
     ++ match c_error c with Some e => [("completed_with_error", PBool e)] | None => [] end).

(** *** DLL frames: d7atp/control.py:40-46, d7atp/frame.py:47-55,
    d7anp/control.py:35-38, d7anp/frame.py:37-40, foreground_frame_control.py:35-36,
    foreground_frame.py:44-49, background_frame_control.py:35-36,
    background_frame.py:42-45 *)
Definition o_tpc (c : TpControl) : Value :=
  PObj "Control" [("is_dialog_start", PBool (tc_start c)); ("has_tl", PBool (tc_tl c)); ("has_te", PBool (tc_te c));
                  ("is_ack_requested", PBool (tc_ack_req c)); ("is_ack_not_void", PBool (tc_ack_nv c));
                  ("is_ack_record_requested", PBool (tc_ack_rec c)); ("has_agc", PBool (tc_agc c))].
Definition o_tp (f : TpFrame) : Value :=
  PObj "Frame" [("control", o_tpc (tf_control f)); ("dialog_id", PInt (tf_dialog f));
                ("transaction_id", PInt (tf_trans f)); ("agc_rx_level_i", PInt (tf_agc f));
                ("tl", p_opt o_ct (tf_tl f)); ("te", p_opt o_ct (tf_te f)); ("tc", p_opt o_ct (tf_tc f));
                ("ack_template", p_opt (fun p => p_ints [fst p; snd p]) (tf_ack f));
                ("alp_command", o_command (tf_cmd f))].
Definition o_npc (c : NpControl) : Value :=
  PObj "Control" [("has_no_origin_access_id", PBool (nc_no_origin c)); ("nls_method", p_nls (nc_nls c));
                  ("has_hopping", PBool (nc_hopping c)); ("origin_id_type", p_idtype (nc_id_type c))].
Definition o_np (f : NpFrame) : Value :=
  PObj "Frame" [("control", o_npc (nf_control f)); ("origin_access_class", PInt (nf_class f));
                ("origin_access_id", p_ints (nf_origin f)); ("d7atp_frame", o_tp (nf_tp f))].
Definition o_fgc (c : FgControl) : Value :=
  PObj "ForegroundFrameControl" [("id_type", p_idtype (fc_id_type c)); ("eirp_index", PInt (fc_eirp c))].
Definition o_bgc (c : BgControl) : Value :=
  PObj "BackgroundFrameControl" [("id_type", p_idtype (bc_id_type c)); ("tag", PInt (bc_tag c))].
Definition o_frame (f : DFrame) : Value :=
  match f with
  | DFg f => PObj "ForegroundFrame" [("length", PInt (ff_length f)); ("subnet", PInt (ff_subnet f));
                                     ("control", o_fgc (ff_control f)); ("target_address", p_ints (ff_target f));
                                     ("d7anp_frame", o_np (ff_np f)); ("crc16", PInt (ff_crc f))]
  | DBg f => PObj "BackgroundFrame" [("subnet", PInt (bf_subnet f)); ("control", o_bgc (bf_control f));
                                     ("payload", PInt (bf_payload f)); ("crc16", PInt (bf_crc f))]
  end.
