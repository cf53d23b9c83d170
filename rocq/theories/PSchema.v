(** C63: the constructors accept exactly the documented values *)
From Coq Require Import String.
From Verif Require Import MBase MCt MPhy MSp MFs MProfile MOperands MSysFiles MAlp MSerial MDll
  MSchema SSchema LSchema.
From Verif Require Import SExport LExport SDemand LDemand.
Open Scope string_scope.
Open Scope Z_scope.

(** For every class with one schema and every list of attribute values: the
    constructor returns if and only if each value is of the documented kind. *)
Theorem C63_accepted_iff_documented : forall c kinds, In (c, kinds) documented ->
  forall values, length values = length kinds ->
    (construct c values = true <-> Forall2 allowed kinds values).
Proof. exact construct_documented. Qed.
Print Assumptions C63_accepted_iff_documented.

(** With several schemas (a class of the application may have them too):
    exactly one of them accepts. *)
Theorem C63_exactly_one_schema : forall schemas attrs, validate schemas attrs = true <->
  exists before s after, schemas = (before ++ s :: after)%list /\ schema_accepts s attrs = true
  /\ Forall (fun x => schema_accepts x attrs = false) (before ++ after)%list.
Proof. exact validate_exactly_one. Qed.
Print Assumptions C63_exactly_one_schema.

(** An object is an instance of its class and of the classes that one is derived
    from, and of no other. *)
Theorem C63_derived_classes : forall c p, In p (parents c) <-> derived c p.
Proof. exact parents_derived. Qed.
Print Assumptions C63_derived_classes.
Theorem C63_instances : forall c p, isinstance (VObject c) p = true <-> p = c \/ derived c p.
Proof. exact instances. Qed.
Print Assumptions C63_instances.

(** Every class that a constructor demands is one of the documented ones, or
    one of five others; the documented ones have different names. *)
Theorem C63_demanded_exists : forall c kinds k n, In (c, kinds) documented -> In k kinds -> demanded k = Some n ->
  (exists d kinds', In (d, kinds') documented /\ cd_name d = n) \/ In n others.
Proof. exact demand_met. Qed.
Print Assumptions C63_demanded_exists.
Theorem C63_names_distinct : forall c kinds d kinds', In (c, kinds) documented -> In (d, kinds') documented -> cd_name c = cd_name d -> c = d.
Proof. exact names_distinct. Qed.
Print Assumptions C63_names_distinct.

(** An addressee is accepted iff its identifier fits its identifier type. *)
Theorem C63_addressee : forall id_type access_class id nls,
  construct C_Addressee [id_type; access_class; id; nls] = true
  <-> addressee_allowed id_type access_class id nls.
Proof. exact addressee_spec. Qed.
Print Assumptions C63_addressee.

(** A value of a foreign type is refused, except in the listed attributes … *)
Theorem C63_foreign_rejected : forall c kinds, In (c, kinds) documented ->
  forall values i attr, length values = length kinds -> nth_error values i = Some VOther ->
    nth_error (cd_attrs c) i = Some attr -> construct c values = true ->
    In (cd_name c, attr) unchecked.
Proof. exact foreign_rejected. Qed.
Print Assumptions C63_foreign_rejected.

(** … of which this is the complete list … *)
Theorem C63_unchecked_list : unchecked =
  [ ("Status", "unicast");
    ("LoRaWANInterfaceConfigurationABP", "adr_enabled"); ("LoRaWANInterfaceConfigurationABP", "request_ack");
    ("LoRaWANInterfaceConfigurationABP", "app_port"); ("LoRaWANInterfaceConfigurationABP", "data_rate");
    ("LoRaWANInterfaceConfigurationABP", "dev_addr"); ("LoRaWANInterfaceConfigurationABP", "netw_id");
    ("LoRaWANInterfaceConfigurationOTAA", "adr_enabled"); ("LoRaWANInterfaceConfigurationOTAA", "request_ack");
    ("LoRaWANInterfaceConfigurationOTAA", "app_port"); ("LoRaWANInterfaceConfigurationOTAA", "data_rate");
    ("Action", "operand"); ("RegularAction", "operand");
    ("StatusAction", "op"); ("StatusAction", "operand");
    ("TagRequestAction", "operand"); ("TagResponseAction", "operand");
    ("d7atp.Frame", "ack_template");
    ("FilePermissions", "user_writeable"); ("FilePermissions", "user_executeable");
    ("FilePermissions", "guest_writeable"); ("FilePermissions", "guest_executeable");
    ("FileProperties", "act_condition");
    ("DllConfigFile", "lq_filter"); ("DllConfigFile", "nf_ctrl");
    ("DllConfigFile", "rx_nf_method_parameter"); ("DllConfigFile", "tx_nf_method_parameter");
    ("FactorySettingsFile", "preamble_tol_lo_rate"); ("FactorySettingsFile", "preamble_tol_normal_rate");
    ("FactorySettingsFile", "preamble_tol_hi_rate") ].
Proof. exact unchecked_list. Qed.
Print Assumptions C63_unchecked_list.

(** … and in those attributes every value whatsoever is taken. *)
Theorem C63_unchecked_takes_anything : forall c kinds, In (c, kinds) documented ->
  forall values i v, length values = length kinds -> nth_error kinds i = Some Anything ->
    construct c (firstn i values ++ v :: skipn (S i) values) = construct c values.
Proof. exact anything_accepted. Qed.
Print Assumptions C63_unchecked_takes_anything.

(** Two things a reader of the schemas would not expect: a [bool] passes for a
    whole number, and a 128 bit key may have 129 bits. *)
Theorem C63_only_well_typed_refuted :
  ~ (forall values, construct C_CT values = true -> exists e m, values = [VInt e; VInt m])
  /\ ~ (forall k, construct C_SecurityKeyFile [VInt k] = true -> k < 2 ^ 128).
Proof.
  split; intros H.
  - destruct (H [VBool true; VBool false] eq_refl) as (e & m & E). discriminate.
  - specialize (H (2 ^ 128) eq_refl). discriminate.
Qed.
Print Assumptions C63_only_well_typed_refuted.

(** The checks made by the constructors of this development are the schemas of
    the classes. *)
Theorem C63_model_ct : forall e m, accepted (mk_ct e m) = construct C_CT [VInt e; VInt m].
Proof. exact link_ct. Qed.
Print Assumptions C63_model_ct.

Theorem C63_model_channels :
  (forall h i, accepted (mk_channel_id h i) = construct C_ChannelID [VObject "ChannelHeader"; VInt i])
  /\ (forall b w i, accepted (mk_csi b w i) = construct C_ChannelStatusIdentifier
        [VMember "ChannelBand" (band_value b); VMember "Bandwidth" (bandwidth_value w); VInt i])
  /\ (forall st en ei cca du, accepted (mk_subband st en ei cca du)
        = construct C_SubBand [VInt st; VInt en; VInt ei; VInt cca; VInt du])
  /\ (forall b c, accepted (mk_sub_profile b c) = construct C_SubProfile [VInt b; VObject "CT"])
  /\ (forall h ps bs, accepted (mk_access_profile h ps bs)
        = construct C_AccessProfile
            [VObject "ChannelHeader"; v_list "SubProfile" ps; v_list "SubBand" bs]).
Proof. exact (conj link_channel_id (conj link_csi (conj link_subband
  (conj link_sub_profile link_access_profile)))). Qed.
Print Assumptions C63_model_channels.

Theorem C63_model_session :
  (forall ac t i m, accepted (mk_addr ac t i m)
     = construct C_Addressee [v_idtype t; VInt ac; v_addr_id i; v_nls m])
  /\ (forall cid rx lb trx nls missed retry unicast fifo seq rto a,
        accepted (mk_status cid rx lb trx nls missed retry unicast fifo seq rto a)
        = construct C_Status [VObject "ChannelID"; VInt rx; VInt lb; VInt trx; VBool nls; VBool missed;
            VBool retry; VBool unicast; VInt fifo; VInt seq; VObject "CT"; VObject "Addressee"]).
Proof. exact (conj link_addr link_status). Qed.
Print Assumptions C63_model_session.

Theorem C63_model_operands :
  (forall v, accepted (mk_length v) = construct C_Length [VInt v])
  /\ (forall i o, accepted (mk_offset i o) = construct C_Offset [VInt i; VObject "Length"])
  /\ (forall d o, accepted (mk_data d o)
        = construct C_Length [VInt (zlen d)]
          && construct C_Data [VObject "Offset"; v_bytes d; VObject "Length"])
  /\ (forall n o, accepted (mk_data_request n o)
        = construct C_Length [VInt n] && construct C_DataRequest [VObject "Offset"; VObject "Length"])
  /\ (forall i, accepted (mk_file_id i) = construct C_FileIdOperand [VInt i])
  /\ (forall i h, accepted (mk_fho i h) = construct C_FileHeaderOperand [VInt i; VObject "FileHeader"])
  /\ (forall t m p l v o, accepted (mk_query t m p l v o)
        = construct C_QueryOperand [VMember "QueryType" (qtype_value t); VBool m;
            VObject "ArithQueryParams"; VObject "Length"; v_bytes v; VObject "Offset"])
  /\ (forall i s, accepted (mk_iso i s) = construct C_InterfaceStatusOperand [VInt i; v_opt "Status" s])
  /\ (forall i a, accepted (mk_indirect i a)
        = construct C_IndirectInterfaceOperand [VInt i; v_opt "Addressee" a])
  /\ (forall t, accepted (mk_tag t) = construct C_TagId [VInt t])
  /\ (forall p q a i s l, accepted (mk_fh p q a i s l)
        = construct C_FileHeader [VObject "FilePermissions"; VObject "FileProperties"; VInt a; VInt i;
            VInt s; VInt l]).
Proof. exact (conj link_length (conj link_offset (conj link_data (conj link_data_request
  (conj link_file_id (conj link_fho (conj link_query (conj link_iso (conj link_indirect
  (conj link_tag link_fh)))))))))). Qed.
Print Assumptions C63_model_operands.

Theorem C63_model_actions : forall k o, accepted (mk_action k o) = action_construct k o.
Proof. exact link_action. Qed.
Print Assumptions C63_model_actions.

Theorem C63_model_frames :
  (forall c d t cmd agc tl te tc ack, accepted (mk_tp_frame c d t cmd agc tl te tc ack)
     = construct C_d7atp_Frame [VObject "d7atp.Control"; VInt d; VInt t;
         VInt (match agc with None => 10 | Some x => x end); v_opt "CT" tl; v_opt "CT" te; v_opt "CT" tc;
         match ack with Some _ => VSeq [VOther; VOther] | None => VNone end; VObject "Command"])
  /\ (forall c cl o t, accepted (mk_np_frame c cl o t)
        = construct C_d7anp_Frame [VObject "d7anp.Control"; VInt cl; v_bytes o; VObject "d7atp.Frame"])
  /\ (forall t e, accepted (mk_fgc t e) = construct C_ForegroundFrameControl [v_idtype t; VInt e])
  /\ (forall t g, accepted (mk_bgc t g) = construct C_BackgroundFrameControl [v_idtype t; VInt g])
  /\ (forall l s c t n crc, accepted (mk_fg_frame l s c t n crc)
        = construct C_ForegroundFrame [VInt l; VInt s; VObject "ForegroundFrameControl"; v_bytes t;
            VObject "d7anp.Frame"; VInt crc])
  /\ (forall s c p crc, accepted (mk_bg_frame s c p crc)
        = construct C_BackgroundFrame [VInt s; VObject "BackgroundFrameControl"; VInt p; VInt crc]).
Proof. exact (conj link_tp_frame (conj link_np_frame (conj link_fgc (conj link_bgc
  (conj link_fg_frame link_bg_frame))))). Qed.
Print Assumptions C63_model_frames.

Theorem C63_model_files :
  (forall u, accepted (mk_uid u) = construct C_UidFile [VInt u])
  /\ (forall v c, accepted (mk_vid v c) = construct C_VidFile [VInt v; VInt c])
  /\ (forall ac lq nf rx tx, accepted (mk_dll_config ac lq nf rx tx)
        = construct C_DllConfigFile [VInt ac; VInt lq; VInt nf; VInt rx; VInt tx])
  /\ (forall lv bu no h ix ra sc ti, accepted (mk_dll_status lv bu no h ix ra sc ti)
        = construct C_DllStatusFile [VInt lv; VInt bu; VInt no; VObject "ChannelHeader"; VInt ix; VInt ra;
            VInt sc; VInt ti])
  /\ (forall m fl ti c ei, accepted (mk_eng m fl ti c ei)
        = construct C_EngineeringModeFile [VMember "EngineeringModeMode" (engmode_value m); VInt fl;
            VInt ti; VObject "ChannelID"; VInt ei])
  /\ (forall a b c d app git, accepted (mk_fw a b c d app git)
        = construct C_FirmwareVersionFile [VInt a; VInt b; VInt c; VInt d; VText app; VText git])
  /\ (forall k, accepted (mk_key k) = construct C_SecurityKeyFile [VInt k]
        /\ accepted (mk_key k) = construct C_RootAuthenticationKeyFile [VInt k; VInt 0]
        /\ accepted (mk_key k) = construct C_UserAuthenticationKeyFile [VInt k; VInt 0])
  /\ (forall sp p, accepted (mk_apf sp p)
        = construct C_AccessProfileFile [VInt sp; v_opt "AccessProfile" p])
  /\ (forall up rx tx duty n ids noise, accepted (mk_phy_status up rx tx duty n ids noise)
        = construct C_PhyStatusFile [VInt up; VInt rx; VInt tx; VInt duty; VInt n;
            v_list "ChannelStatusIdentifier" (py_extend csi_default n ids);
            VSeq (map VInt (py_extend 0 n noise))])
  /\ (forall gain rates pre tol smoothing offset bw sf gauss paramp,
        length rates = 9%nat -> length pre = 6%nat -> length tol = 3%nat ->
        accepted (mk_factory gain rates pre tol smoothing offset bw sf gauss paramp)
        = match smooth smoothing with
          | Ok sm => construct C_FactorySettingsFile
              ([VInt gain] ++ map VInt rates ++ map VInt pre ++ map VInt tol
               ++ [VInt sm; VInt offset; VInt bw; VInt sf; VInt gauss; VInt paramp])
          | Err _ => false
          end).
Proof. exact (conj link_uid (conj link_vid (conj link_dll_config (conj link_dll_status
  (conj link_eng (conj link_fw (conj link_key (conj link_apf (conj link_phy link_factory))))))))). Qed.
Print Assumptions C63_model_files.

(** The objects the model builds without a check are indeed always accepted. *)
Theorem C63_model_always_accepted :
  (forall h : ChannelHeader, construct C_ChannelHeader
     [VMember "ChannelCoding" (coding_value (ch_coding h)); VMember "ChannelClass" (class_value (ch_class h));
      VMember "ChannelBand" (band_value (ch_band h))] = true)
  /\ (forall q : QoS, construct C_QoS [VMember "ResponseMode" (resp_value (q_resp q));
        VMember "RetryMode" (retry_value (q_retry q)); VBool (q_stop q); VBool (q_record q)] = true)
  /\ construct C_Configuration [VObject "QoS"; VObject "CT"; VObject "Addressee"] = true
  /\ (forall p : FilePermissions, construct C_FilePermissions
        (map VBool [fp_encrypted p; fp_executable p; fp_user_r p; fp_user_w p; fp_user_x p;
                    fp_guest_r p; fp_guest_w p; fp_guest_x p]) = true)
  /\ (forall p : FileProperties, construct C_FileProperties
        [VBool (pr_enabled p); VMember "ActionCondition" (actcond_value (pr_cond p));
         VMember "StorageClass" (storage_value (pr_storage p))] = true)
  /\ (forall a : ArithParams, construct C_ArithQueryParams
        [VBool (ar_signed a); VMember "ArithComparisonType" (comp_value (ar_comp a))] = true)
  /\ (forall (t : InterfaceType) (c : option string),
        In c [None; Some "Configuration"; Some "LoRaWANInterfaceConfigurationABP";
              Some "LoRaWANInterfaceConfigurationOTAA"] ->
        construct C_InterfaceConfiguration
          [VMember "InterfaceType" (iftype_value t);
           match c with Some x => VObject x | None => VNone end] = true)
  /\ construct C_InterfaceConfigurationFile [VObject "InterfaceConfiguration"] = true
  /\ (forall c : TpControl, construct C_d7atp_Control
        (map VBool [tc_start c; tc_tl c; tc_te c; tc_ack_req c; tc_ack_nv c; tc_ack_rec c; tc_agc c]) = true)
  /\ (forall c : NpControl, construct C_d7anp_Control
        [VBool (nc_no_origin c); v_nls (nc_nls c); VBool (nc_hopping c); v_idtype (nc_id_type c)] = true).
Proof. exact link_unchecked. Qed.
Print Assumptions C63_model_always_accepted.

(** A class of the table with values accepted and refused. *)
Example C63_case :
  In (C_SubBand, [Whole 0 65535; Whole 0 65535; Whole (-128) 127; Whole 0 255; Whole 0 255]) documented
  /\ construct C_SubBand [VInt 0; VInt 65535; VInt (-128); VInt 86; VBool true] = true
  /\ construct C_SubBand [VInt 0; VInt 65536; VInt (-128); VInt 86; VInt 255] = false
  /\ construct C_SubBand [VInt 0; VInt 1; VFloat; VInt 86; VInt 255] = false
  /\ construct C_SubBand [VNone; VInt 1; VInt 0; VInt 86; VInt 255] = false
  /\ construct C_Addressee [VMember "IdType" 3; VInt 1; VInt 65536; VMember "NlsMethod" 0] = false
  /\ construct C_Addressee [VMember "IdType" 1; VInt 1; VNone; VMember "NlsMethod" 0] = true
  /\ construct C_FilePermissions [VBool true; VBool true; VBool true; VOther; VNone; VBool false; VFloat;
       VText [104]] = true.
Proof.
  split; [|vm_compute; repeat split; reflexivity].
  unfold documented. do 4 right. left. reflexivity.
Qed.
