(** C64: [as_dict] exports a command, a frame or a system file completely, as plain data *)
From Coq Require Import String.
From Verif Require Import MBase MCt MOperands MSysFiles MAlp MDll MAsDict SAsDict LParsed LAsDict LAsDict2.
From Verif Require Import SAlp SContent SExport LExport.
Open Scope string_scope.
Open Scope Z_scope.

(** Every command the constructor or the parser delivers exports to a tree
    without any object or class inside; likewise every parsed DLL frame … *)
Theorem C64_built_command_is_plain_data : forall rnd actions gen tag resp c,
  (forall a, In (Some a) actions -> constructed_op (a_op a)) ->
  mk_command rnd actions gen tag resp = Ok c -> plain_data (as_dict (o_command c)) = true.
Proof. exact built_plain. Qed.
Print Assumptions C64_built_command_is_plain_data.
Theorem C64_parsed_command_is_plain_data : forall n s c s',
  alp_parse n s = Ok (c, s') -> plain_data (as_dict (o_command c)) = true.
Proof. exact parsed_plain. Qed.
Print Assumptions C64_parsed_command_is_plain_data.
Theorem C64_parsed_frame_is_plain_data : forall foreground s f s',
  dframe_parse foreground s = Ok (f, s') -> plain_data (as_dict (o_frame f)) = true.
Proof. exact frame_plain. Qed.
Print Assumptions C64_parsed_frame_is_plain_data.
(** … and every system file of an implemented class. *)
Theorem C64_file_is_plain_data : forall f, (forall i n, f <> F_NotImpl i n) ->
  plain_data (as_dict (o_file f)) = true.
Proof. exact file_plain. Qed.
Print Assumptions C64_file_is_plain_data.

(** Nothing is left out: what an access path (attributes and list positions)
    finds in the command, the same path finds in its export, unless it is a
    class … *)
Theorem C64_every_attribute_is_there : forall c, constructed c ->
  forall path x, reach (o_command c) path = Some x -> ~ is_class x ->
    reach (as_dict (o_command c)) path = Some (shown x).
Proof. exact command_forth. Qed.
Print Assumptions C64_every_attribute_is_there.
(** … and nothing is added but the name of each object's class. *)
Theorem C64_nothing_is_added : forall c, constructed c ->
  forall path y, reach (as_dict (o_command c)) path = Some y ->
    (exists x, reach (o_command c) path = Some x /\ ~ is_class x /\ y = shown x)
    \/ (exists p cls attrs, path = (p ++ [Attr "__CLASS__"])%list
          /\ reach (o_command c) p = Some (PObj cls attrs) /\ y = PName cls).
Proof. exact command_back. Qed.
Print Assumptions C64_nothing_is_added.

(** The same holds for the parsed frames and for the system files. *)
Theorem C64_frame_paths : forall foreground s f s', dframe_parse foreground s = Ok (f, s') ->
  (forall path x, reach (o_frame f) path = Some x -> ~ is_class x ->
     reach (as_dict (o_frame f)) path = Some (shown x))
  /\ forall path y, reach (as_dict (o_frame f)) path = Some y ->
    (exists x, reach (o_frame f) path = Some x /\ ~ is_class x /\ y = shown x)
    \/ (exists p cls attrs, path = (p ++ [Attr "__CLASS__"])%list
          /\ reach (o_frame f) p = Some (PObj cls attrs) /\ y = PName cls).
Proof. exact (fun fg s f s' H => conj (frame_forth fg s f s' H) (frame_back fg s f s' H)). Qed.
Print Assumptions C64_frame_paths.
Theorem C64_file_paths : forall f, (forall i n, f <> F_NotImpl i n) ->
  (forall path x, reach (o_file f) path = Some x -> ~ is_class x ->
     reach (as_dict (o_file f)) path = Some (shown x))
  /\ forall path y, reach (as_dict (o_file f)) path = Some y ->
    (exists x, reach (o_file f) path = Some x /\ ~ is_class x /\ y = shown x)
    \/ (exists p cls attrs, path = (p ++ [Attr "__CLASS__"])%list
          /\ reach (o_file f) p = Some (PObj cls attrs) /\ y = PName cls).
Proof. exact (fun f H => conj (file_forth f H) (file_back f H)). Qed.
Print Assumptions C64_file_paths.

(** Two commands with the same export are the same command; likewise frames and
    system files. *)
Theorem C64_command_lossless : forall c d, constructed c -> constructed d ->
  as_dict (o_command c) = as_dict (o_command d) -> c = d.
Proof. exact command_lossless. Qed.
Print Assumptions C64_command_lossless.
Theorem C64_parsed_frame_lossless : forall fg fg' s s' f f' r r',
  dframe_parse fg s = Ok (f, r) -> dframe_parse fg' s' = Ok (f', r') ->
  as_dict (o_frame f) = as_dict (o_frame f') -> f = f'.
Proof. exact frame_lossless. Qed.
Print Assumptions C64_parsed_frame_lossless.
Theorem C64_file_lossless : forall f g, exportable f -> exportable g ->
  as_dict (o_file f) = as_dict (o_file g) -> f = g.
Proof. exact file_lossless. Qed.
Print Assumptions C64_file_lossless.

(** Class by class: what an export lists. *)
Theorem C64_small_types :
  (forall c, lists (o_ct c) "CT" [("exp", PInt (ct_exp c)); ("mant", PInt (ct_mant c))])
  /\ (forall h, lists (o_ch h) "ChannelHeader"
       [("channel_coding", PMember "ChannelCoding" (coding_value (ch_coding h)));
        ("channel_class", PMember "ChannelClass" (class_value (ch_class h)));
        ("channel_band", PMember "ChannelBand" (band_value (ch_band h)))])
  /\ (forall c, lists (o_cid c) "ChannelID"
       [("channel_header", as_dict (o_ch (cid_header c))); ("channel_index", PInt (cid_index c))])
  /\ (forall c, lists (o_csi c) "ChannelStatusIdentifier"
       [("channel_band", PMember "ChannelBand" (band_value (csi_band c)));
        ("channel_bandwidth", PMember "Bandwidth" (bandwidth_value (csi_bandwidth c)));
        ("channel_index", PInt (csi_index c))])
  /\ (forall b, lists (o_subband b) "SubBand"
       [("channel_index_start", PInt (sb_start b)); ("channel_index_end", PInt (sb_end b));
        ("eirp", PInt (sb_eirp b)); ("cca", PInt (sb_cca b)); ("duty", PInt (sb_duty b))])
  /\ (forall s, lists (o_subprofile s) "SubProfile"
       [("subband_bitmap", PInt (sp_bitmap s)); ("scan_automation_period", as_dict (o_ct (sp_period s)))])
  /\ (forall p, lists (o_ap p) "AccessProfile"
       [("channel_header", as_dict (o_ch (ap_header p))); ("sub_profiles", dicts o_subprofile (ap_profiles p));
        ("sub_bands", dicts o_subband (ap_bands p))]).
Proof. exact l_types. Qed.
Print Assumptions C64_small_types.
Theorem C64_session_types :
  (forall a, lists (o_addr a) "Addressee"
     [("id_type", PMember "IdType" (idtype_value (ad_id_type a))); ("access_class", PInt (ad_access_class a));
      ("id", match ad_id a with IdNone => PNone | IdInt z => PInt z | IdCT c => as_dict (o_ct c) end);
      ("nls_method", PMember "NlsMethod" (nls_value (ad_nls a)))])
  /\ (forall q, lists (o_qos q) "QoS"
     [("resp_mod", PMember "ResponseMode" (resp_value (q_resp q))); ("retry_mod", PMember "RetryMode" (retry_value (q_retry q)));
      ("stop_on_err", PBool (q_stop q)); ("record", PBool (q_record q))])
  /\ (forall c, lists (o_conf c) "Configuration"
     [("qos", as_dict (o_qos (cf_qos c))); ("dorm_to", as_dict (o_ct (cf_dorm_to c)));
      ("addressee", as_dict (o_addr (cf_addressee c)))])
  /\ (forall s, lists (o_status s) "Status"
     [("channel_id", as_dict (o_cid (st_channel_id s))); ("rx_level", PInt (st_rx_level s));
      ("link_budget", PInt (st_link_budget s)); ("target_rx_level", PInt (st_target_rx_level s));
      ("nls", PBool (st_nls s)); ("missed", PBool (st_missed s)); ("retry", PBool (st_retry s));
      ("unicast", PBool (st_unicast s)); ("fifo_token", PInt (st_fifo_token s)); ("seq_nr", PInt (st_seq_nr s));
      ("response_to", as_dict (o_ct (st_response_to s))); ("addressee", as_dict (o_addr (st_addressee s)))]).
Proof. exact l_session. Qed.
Print Assumptions C64_session_types.
Theorem C64_files :
  (forall p, lists (o_perm p) "FilePermissions"
     [("encrypted", PBool (fp_encrypted p)); ("executable", PBool (fp_executable p));
      ("user_readable", PBool (fp_user_r p)); ("user_writeable", PBool (fp_user_w p));
      ("user_executeable", PBool (fp_user_x p)); ("guest_readable", PBool (fp_guest_r p));
      ("guest_writeable", PBool (fp_guest_w p)); ("guest_executeable", PBool (fp_guest_x p))])
  /\ (forall p, lists (o_prop p) "FileProperties"
     [("act_enabled", PBool (pr_enabled p)); ("act_condition", PMember "ActionCondition" (actcond_value (pr_cond p)));
      ("storage_class", PMember "StorageClass" (storage_value (pr_storage p)))])
  /\ (forall h, lists (o_fh h) "FileHeader"
     [("permissions", as_dict (o_perm (fh_perm h))); ("properties", as_dict (o_prop (fh_prop h)));
      ("alp_command_file_id", PInt (fh_alp_file h)); ("interface_file_id", PInt (fh_if_file h));
      ("file_size", PInt (fh_size h)); ("allocated_size", PInt (fh_alloc h))])
  /\ (forall f id n, sys_id f = Some id -> sys_size f = Some n -> exportable f ->
     lists (o_file f) (file_class f) (file_content f ++ [("id", PInt id); ("length", PInt n)])).
Proof. exact l_files. Qed.
Print Assumptions C64_files.
Theorem C64_operands :
  (forall l, lists (o_length l) "Length" [("value", PInt (len_value l))])
  /\ (forall o, lists (o_offset o) "Offset" [("id", PInt (off_id o)); ("offset", as_dict (o_length (off_offset o)))])
  /\ (forall d, lists (o_data d) "Data"
       [("offset", as_dict (o_offset (d_offset d))); ("data", numbers (d_data d)); ("length", as_dict (o_length (d_length d)))])
  /\ (forall d, lists (o_dr d) "DataRequest"
       [("offset", as_dict (o_offset (dr_offset d))); ("length", as_dict (o_length (dr_length d)))])
  /\ (forall f, lists (o_fid f) "FileIdOperand" [("file_id", PInt (fid_id f))])
  /\ (forall f, lists (o_fho f) "FileHeaderOperand"
       [("file_id", PInt (fho_id f)); ("file_header", as_dict (o_fh (fho_header f)))])
  /\ (forall a, lists (o_arith a) "ArithQueryParams"
       [("signed_data_type", PBool (ar_signed a)); ("comp_type", PMember "ArithComparisonType" (comp_value (ar_comp a)))])
  /\ (forall q, lists (o_query q) "QueryOperand"
       [("type", PMember "QueryType" (qtype_value (q_type q))); ("mask_present", PBool (q_mask q));
        ("params", as_dict (o_arith (q_params q))); ("compare_length", as_dict (o_length (q_compare_length q)));
        ("compare_value", numbers (q_compare_value q)); ("file_a_offset", as_dict (o_offset (q_file_a q)))])
  /\ (forall t, lists (o_tag t) "TagId" [("tag_id", PInt (tag_value t))])
  /\ (forall o, lists (o_iso o) "InterfaceStatusOperand"
       [("interface_id", PInt (iso_id o)); ("interface_status", maybe o_status (iso_status o))])
  /\ (forall o, lists (o_indirect o) "IndirectInterfaceOperand"
       [("interface_file_id", PInt (ii_file o)); ("interface_configuration_overload", maybe o_addr (ii_overload o))])
  /\ (forall i, lists (o_ic i) "InterfaceConfiguration"
       [("interface_id", PMember "InterfaceType" (iftype_value (ic_id i)));
        ("interface_configuration", maybe o_ifconfig (ic_conf i))])
  /\ (forall c, o_ifconfig (CfgD7 c) = o_conf c)
  /\ (forall c, lists (o_ifconfig (CfgABP c)) "LoRaWANInterfaceConfigurationABP"
       [("adr_enabled", PBool (abp_adr c)); ("request_ack", PBool (abp_ack c)); ("app_port", PInt (abp_port c));
        ("data_rate", PInt (abp_rate c)); ("dev_addr", PInt (abp_dev_addr c)); ("netw_id", PInt (abp_netw_id c))])
  /\ (forall c, lists (o_ifconfig (CfgOTAA c)) "LoRaWANInterfaceConfigurationOTAA"
       [("adr_enabled", PBool (otaa_adr c)); ("request_ack", PBool (otaa_ack c)); ("app_port", PInt (otaa_port c));
        ("data_rate", PInt (otaa_rate c))]).
Proof. exact l_operands. Qed.
Print Assumptions C64_operands.
Theorem C64_operation : forall o,
  match o with
  | NoOperation => lists (o_operation o) "NoOperation" [("op", PInt 0); ("operand_class", PNone); ("operand", PNone)]
  | ReturnFileData d p =>
      lists (o_operation o) "ReturnFileData"
        [("systemfile_type", match p with Some _ => maybe o_file (system_file (off_id (d_offset d))) | None => PNone end);
         ("file_data_parsed", maybe o_file p); ("op", PInt 32); ("operand", as_dict (o_data d))]
  | _ => lists (o_operation o) (operation_class o) [("op", PInt (opcode o)); ("operand", operand_of o)]
  end.
Proof. exact l_operation. Qed.
Print Assumptions C64_operation.
Theorem C64_action : forall a,
  lists (o_action a) (fst (action_class (a_kind a)))
    (map (fun e => (fst e, PBool (snd e))) (snd (action_class (a_kind a)))
     ++ match a_kind a with StatusAct e => [("status_operand_extension", PInt e)] | _ => [] end
     ++ [("operation", as_dict (o_operation (a_op a)))]).
Proof. exact l_action. Qed.
Print Assumptions C64_action.
Theorem C64_command : forall c,
  lists (o_command c) "Command"
    ([("actions", dicts o_action (c_actions c)); ("interface_status", maybe o_action (c_status c));
      ("generate_tag_request_action", PBool (c_generate c));
      ("tag_id", match c_tag c with Some t => PInt t | None => PNone end);
      ("send_tag_response_when_completed", PBool (c_respond c)); ("execution_completed", PBool (c_completed c))]
     ++ match c_error c with Some e => [("completed_with_error", PBool e)] | None => [] end).
Proof. exact l_command. Qed.
Print Assumptions C64_command.
Theorem C64_frames :
  (forall c, lists (o_tpc c) "Control"
     [("is_dialog_start", PBool (tc_start c)); ("has_tl", PBool (tc_tl c)); ("has_te", PBool (tc_te c));
      ("is_ack_requested", PBool (tc_ack_req c)); ("is_ack_not_void", PBool (tc_ack_nv c));
      ("is_ack_record_requested", PBool (tc_ack_rec c)); ("has_agc", PBool (tc_agc c))])
  /\ (forall f, lists (o_tp f) "Frame"
     [("control", as_dict (o_tpc (tf_control f))); ("dialog_id", PInt (tf_dialog f));
      ("transaction_id", PInt (tf_trans f)); ("agc_rx_level_i", PInt (tf_agc f));
      ("tl", maybe o_ct (tf_tl f)); ("te", maybe o_ct (tf_te f)); ("tc", maybe o_ct (tf_tc f));
      ("ack_template", match tf_ack f with Some (a, b) => numbers [a; b] | None => PNone end);
      ("alp_command", as_dict (o_command (tf_cmd f)))])
  /\ (forall c, lists (o_npc c) "Control"
     [("has_no_origin_access_id", PBool (nc_no_origin c)); ("nls_method", PMember "NlsMethod" (nls_value (nc_nls c)));
      ("has_hopping", PBool (nc_hopping c)); ("origin_id_type", PMember "IdType" (idtype_value (nc_id_type c)))])
  /\ (forall f, lists (o_np f) "Frame"
     [("control", as_dict (o_npc (nf_control f))); ("origin_access_class", PInt (nf_class f));
      ("origin_access_id", numbers (nf_origin f)); ("d7atp_frame", as_dict (o_tp (nf_tp f)))])
  /\ (forall c, lists (o_fgc c) "ForegroundFrameControl"
     [("id_type", PMember "IdType" (idtype_value (fc_id_type c))); ("eirp_index", PInt (fc_eirp c))])
  /\ (forall c, lists (o_bgc c) "BackgroundFrameControl"
     [("id_type", PMember "IdType" (idtype_value (bc_id_type c))); ("tag", PInt (bc_tag c))])
  /\ (forall f, lists (o_frame (DFg f)) "ForegroundFrame"
     [("length", PInt (ff_length f)); ("subnet", PInt (ff_subnet f)); ("control", as_dict (o_fgc (ff_control f)));
      ("target_address", numbers (ff_target f)); ("d7anp_frame", as_dict (o_np (ff_np f))); ("crc16", PInt (ff_crc f))])
  /\ (forall f, lists (o_frame (DBg f)) "BackgroundFrame"
     [("subnet", PInt (bf_subnet f)); ("control", as_dict (o_bgc (bf_control f)));
      ("payload", PInt (bf_payload f)); ("crc16", PInt (bf_crc f))]).
Proof. exact l_frames. Qed.
Print Assumptions C64_frames.

(** Only the first level of a list is converted: an object inside a list inside
    a list, or inside a tuple-like value, stays an object. *)
Theorem C64_nested_list_refuted :
  ~ (forall cls attrs, (forall k x, In (k, x) attrs -> ~ is_class x) -> plain_data (as_dict (PObj cls attrs)) = true).
Proof. exact nested_refuted. Qed.
Print Assumptions C64_nested_list_refuted.

(** Non-vacuity: a command read from bytes, an attribute deep inside it, and two
    commands with different exports. *)
Example C64_case :
  exists c s', alp_parse 8 (stream_of [32; 64; 0; 4; 0; 0; 0; 1]) = Ok (c, s')
    /\ constructed c
    /\ reach (as_dict (o_command c)) [Attr "actions"; Index 0; Attr "operation"; Attr "operand"; Attr "offset"; Attr "id"] = Some (PInt 64)
    /\ reach (as_dict (o_command c)) [Attr "actions"; Index 0; Attr "__CLASS__"] = Some (PName "RegularAction")
    /\ reach (o_command c) [Attr "actions"; Index 0; Attr "operation"; Attr "operand_class"] = Some (PClass "Data")
    /\ reach (as_dict (o_command c)) [Attr "actions"; Index 0; Attr "operation"; Attr "operand_class"] = None.
Proof. exact as_dict_case. Qed.
