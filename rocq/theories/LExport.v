From Coq Require Import String ZifyBool ZifyNat.
From Verif Require Import MBase MCt MPhy MSp MFs MProfile MOperands MSysFiles MAlp MDll MAsDict SAsDict SAlp SContent SExport LAsDict.
From Verif Require MSchema.
Open Scope string_scope.
Open Scope Z_scope.

Lemma list_ints l : as_dict (PList (map PInt l)) = PList (map PInt l). Proof. reflexivity. Qed.
Lemma shown_ints l : map (fun e => match e with PObj _ _ => as_dict e | _ => e end) (map PInt l) = map PInt l.
Proof. rewrite map_map. reflexivity. Qed.
Lemma shown_objs {A} (f : A -> Value) l : (forall x, exists c r, f x = PObj c r) ->
  map (fun e => match e with PObj _ _ => as_dict e | _ => e end) (map f l) = map (fun x => as_dict (f x)) l.
Proof. intros H. rewrite map_map. apply map_ext. intros x. destruct (H x) as (c & r & E). rewrite E. reflexivity. Qed.

Ltac unf := unfold lists, numbers, dicts, maybe, p_opt, p_ints, p_operation, p_file, p_idtype, p_nls.
Lemma l_types :
  (forall c, lists (o_ct c) "CT" [("exp", PInt (ct_exp c)); ("mant", PInt (ct_mant c))])
  /\ (forall h, lists (o_ch h) "ChannelHeader"
       [("channel_coding", PMember "ChannelCoding" (coding_value (ch_coding h)));
        ("channel_class", PMember "ChannelClass" (class_value (ch_class h)));
        ("channel_band", PMember "ChannelBand" (band_value (ch_band h)))])
  /\ (forall c, lists (o_cid c) "ChannelID"
       [("channel_header", as_dict (o_ch (cid_header c))); ("channel_index", PInt (cid_index c))])
  /\ (forall c, lists (o_csi c) "ChannelStatusIdentifier"
       [("channel_band", PMember "ChannelBand" (band_value (csi_band c)));
        ("channel_bandwidth", PMember "Bandwidth" (bandwidth_value (csi_bandwidth c)));
        ("channel_index", PInt (csi_index c))])
  /\ (forall b, lists (o_subband b) "SubBand"
       [("channel_index_start", PInt (sb_start b)); ("channel_index_end", PInt (sb_end b));
        ("eirp", PInt (sb_eirp b)); ("cca", PInt (sb_cca b)); ("duty", PInt (sb_duty b))])
  /\ (forall s, lists (o_subprofile s) "SubProfile"
       [("subband_bitmap", PInt (sp_bitmap s)); ("scan_automation_period", as_dict (o_ct (sp_period s)))])
  /\ (forall p, lists (o_ap p) "AccessProfile"
       [("channel_header", as_dict (o_ch (ap_header p))); ("sub_profiles", dicts o_subprofile (ap_profiles p));
        ("sub_bands", dicts o_subband (ap_bands p))]).
Proof.
  unf. repeat (refine (conj _ _); [intros; reflexivity|]). intros p. unfold o_ap. cbn [as_dict].
  rewrite !shown_objs by (intros; do 2 eexists; reflexivity). reflexivity.
Qed.
Lemma l_session :
  (forall a, lists (o_addr a) "Addressee"
     [("id_type", PMember "IdType" (idtype_value (ad_id_type a))); ("access_class", PInt (ad_access_class a));
      ("id", match ad_id a with IdNone => PNone | IdInt z => PInt z | IdCT c => as_dict (o_ct c) end);
      ("nls_method", PMember "NlsMethod" (nls_value (ad_nls a)))])
  /\ (forall q, lists (o_qos q) "QoS"
     [("resp_mod", PMember "ResponseMode" (resp_value (q_resp q))); ("retry_mod", PMember "RetryMode" (retry_value (q_retry q)));
      ("stop_on_err", PBool (q_stop q)); ("record", PBool (q_record q))])
  /\ (forall c, lists (o_conf c) "Configuration"
     [("qos", as_dict (o_qos (cf_qos c))); ("dorm_to", as_dict (o_ct (cf_dorm_to c)));
      ("addressee", as_dict (o_addr (cf_addressee c)))])
  /\ (forall s, lists (o_status s) "Status"
     [("channel_id", as_dict (o_cid (st_channel_id s))); ("rx_level", PInt (st_rx_level s));
      ("link_budget", PInt (st_link_budget s)); ("target_rx_level", PInt (st_target_rx_level s));
      ("nls", PBool (st_nls s)); ("missed", PBool (st_missed s)); ("retry", PBool (st_retry s));
      ("unicast", PBool (st_unicast s)); ("fifo_token", PInt (st_fifo_token s)); ("seq_nr", PInt (st_seq_nr s));
      ("response_to", as_dict (o_ct (st_response_to s))); ("addressee", as_dict (o_addr (st_addressee s)))]).
Proof.
  unf. refine (conj _ _); [|repeat (refine (conj _ _); [intros; reflexivity|]); intros; reflexivity].
  intros [t ac i n]. unfold o_addr. cbn [ad_id p_addr_id]. destruct i; reflexivity.
Qed.
Lemma l_files :
  (forall p, lists (o_perm p) "FilePermissions"
     [("encrypted", PBool (fp_encrypted p)); ("executable", PBool (fp_executable p));
      ("user_readable", PBool (fp_user_r p)); ("user_writeable", PBool (fp_user_w p));
      ("user_executeable", PBool (fp_user_x p)); ("guest_readable", PBool (fp_guest_r p));
      ("guest_writeable", PBool (fp_guest_w p)); ("guest_executeable", PBool (fp_guest_x p))])
  /\ (forall p, lists (o_prop p) "FileProperties"
     [("act_enabled", PBool (pr_enabled p)); ("act_condition", PMember "ActionCondition" (actcond_value (pr_cond p)));
      ("storage_class", PMember "StorageClass" (storage_value (pr_storage p)))])
  /\ (forall h, lists (o_fh h) "FileHeader"
     [("permissions", as_dict (o_perm (fh_perm h))); ("properties", as_dict (o_prop (fh_prop h)));
      ("alp_command_file_id", PInt (fh_alp_file h)); ("interface_file_id", PInt (fh_if_file h));
      ("file_size", PInt (fh_size h)); ("allocated_size", PInt (fh_alloc h))])
  /\ (forall f id n, sys_id f = Some id -> sys_size f = Some n -> exportable f ->
     lists (o_file f) (file_class f) (file_content f ++ [("id", PInt id); ("length", PInt n)])).
Proof.
  unf. repeat (refine (conj _ _); [intros; reflexivity|]).
  intros f id n I N X. unfold lists.
  destruct f as [f|f|f|f|f|f|f|f|f|f|f|f|i f|f]; cbn [sys_id sys_size exportable] in *; try contradiction;
    try (injection I as <-); try (injection N as <-); cbn [o_file file_class file_content]; try reflexivity.
  - destruct f as [g r p t ? ? ? ? ? ?]. cbn [fs_rates fs_pre fs_tol] in X. destruct X as (R & P & T).
    do 10 (destruct r as [|? r]; try discriminate R). do 7 (destruct p as [|? p]; try discriminate P).
    do 4 (destruct t as [|? t]; try discriminate T). reflexivity.
  - unf. cbn [as_dict app map p_file]. rewrite shown_objs by (intros; do 2 eexists; reflexivity). rewrite shown_ints. reflexivity.
  - unfold maybe, p_opt. destruct (apf_profile f); reflexivity.
  - unfold icf_length. destruct (ic_id (icf_conf f)); try discriminate; injection N as <-; reflexivity.
Qed.
Lemma l_operands :
  (forall l, lists (o_length l) "Length" [("value", PInt (len_value l))])
  /\ (forall o, lists (o_offset o) "Offset" [("id", PInt (off_id o)); ("offset", as_dict (o_length (off_offset o)))])
  /\ (forall d, lists (o_data d) "Data"
       [("offset", as_dict (o_offset (d_offset d))); ("data", numbers (d_data d)); ("length", as_dict (o_length (d_length d)))])
  /\ (forall d, lists (o_dr d) "DataRequest"
       [("offset", as_dict (o_offset (dr_offset d))); ("length", as_dict (o_length (dr_length d)))])
  /\ (forall f, lists (o_fid f) "FileIdOperand" [("file_id", PInt (fid_id f))])
  /\ (forall f, lists (o_fho f) "FileHeaderOperand"
       [("file_id", PInt (fho_id f)); ("file_header", as_dict (o_fh (fho_header f)))])
  /\ (forall a, lists (o_arith a) "ArithQueryParams"
       [("signed_data_type", PBool (ar_signed a)); ("comp_type", PMember "ArithComparisonType" (comp_value (ar_comp a)))])
  /\ (forall q, lists (o_query q) "QueryOperand"
       [("type", PMember "QueryType" (qtype_value (q_type q))); ("mask_present", PBool (q_mask q));
        ("params", as_dict (o_arith (q_params q))); ("compare_length", as_dict (o_length (q_compare_length q)));
        ("compare_value", numbers (q_compare_value q)); ("file_a_offset", as_dict (o_offset (q_file_a q)))])
  /\ (forall t, lists (o_tag t) "TagId" [("tag_id", PInt (tag_value t))])
  /\ (forall o, lists (o_iso o) "InterfaceStatusOperand"
       [("interface_id", PInt (iso_id o)); ("interface_status", maybe o_status (iso_status o))])
  /\ (forall o, lists (o_indirect o) "IndirectInterfaceOperand"
       [("interface_file_id", PInt (ii_file o)); ("interface_configuration_overload", maybe o_addr (ii_overload o))])
  /\ (forall i, lists (o_ic i) "InterfaceConfiguration"
       [("interface_id", PMember "InterfaceType" (iftype_value (ic_id i)));
        ("interface_configuration", maybe o_ifconfig (ic_conf i))])
  /\ (forall c, o_ifconfig (CfgD7 c) = o_conf c)
  /\ (forall c, lists (o_ifconfig (CfgABP c)) "LoRaWANInterfaceConfigurationABP"
       [("adr_enabled", PBool (abp_adr c)); ("request_ack", PBool (abp_ack c)); ("app_port", PInt (abp_port c));
        ("data_rate", PInt (abp_rate c)); ("dev_addr", PInt (abp_dev_addr c)); ("netw_id", PInt (abp_netw_id c))])
  /\ (forall c, lists (o_ifconfig (CfgOTAA c)) "LoRaWANInterfaceConfigurationOTAA"
       [("adr_enabled", PBool (otaa_adr c)); ("request_ack", PBool (otaa_ack c)); ("app_port", PInt (otaa_port c));
        ("data_rate", PInt (otaa_rate c))]).
Proof.
  unf. repeat (refine (conj _ _); [intros; try reflexivity|]); try (intros; reflexivity).
  - unfold o_data, p_ints. cbn [as_dict]. rewrite shown_ints. reflexivity.
  - unfold o_query, p_ints. cbn [as_dict]. rewrite shown_ints. reflexivity.
  - unfold o_iso, p_opt. destruct (iso_status o); reflexivity.
  - unfold o_indirect, p_opt. destruct (ii_overload o); reflexivity.
  - unfold o_ic, p_opt. destruct (ic_conf i) as [[c|c|c]|]; reflexivity.
Qed.
Lemma item_file k f : item (k, o_file f) = [(k, as_dict (o_file f))].
Proof. destruct f; reflexivity. Qed.
Lemma l_operation o :
  match o with
  | NoOperation => lists (o_operation o) "NoOperation" [("op", PInt 0); ("operand_class", PNone); ("operand", PNone)]
  | ReturnFileData d p =>
      lists (o_operation o) "ReturnFileData"
        [("systemfile_type", match p with Some _ => maybe o_file (system_file (off_id (d_offset d))) | None => PNone end);
         ("file_data_parsed", maybe o_file p); ("op", PInt 32); ("operand", as_dict (o_data d))]
  | _ => lists (o_operation o) (operation_class o) [("op", PInt (opcode o)); ("operand", operand_of o)]
  end.
Proof.
  destruct o as [|x|x|x|x|x|x|x parsed|x|x|x|x|x|x]; try reflexivity. unf. cbn [o_operation]. unfold p_operation, p_entry, p_opt.
  rewrite as_dict_obj. cbn [app flat_map]. destruct parsed as [f|]; [|reflexivity].
  rewrite (item_file _ f). destruct (system_file (off_id (d_offset x))) as [e|]; [rewrite (item_file _ e)|]; reflexivity.
Qed.
Lemma l_action a :
  lists (o_action a) (fst (action_class (a_kind a)))
    (map (fun e => (fst e, PBool (snd e))) (snd (action_class (a_kind a)))
     ++ match a_kind a with StatusAct e => [("status_operand_extension", PInt e)] | _ => [] end
     ++ [("operation", as_dict (o_operation (a_op a)))]).
Proof. unf. unfold o_action. destruct (a_kind a), (a_op a); reflexivity. Qed.
Lemma act_obj a : exists c r, o_action a = PObj c r.
Proof. unfold o_action. destruct (a_kind a); do 2 eexists; reflexivity. Qed.
Lemma l_command c :
  lists (o_command c) "Command"
    ([("actions", dicts o_action (c_actions c)); ("interface_status", maybe o_action (c_status c));
      ("generate_tag_request_action", PBool (c_generate c));
      ("tag_id", match c_tag c with Some t => PInt t | None => PNone end);
      ("send_tag_response_when_completed", PBool (c_respond c)); ("execution_completed", PBool (c_completed c))]
     ++ match c_error c with Some e => [("completed_with_error", PBool e)] | None => [] end).
Proof.
  unf. unfold o_command. destruct c as [acts st g t r e er]. cbn [c_actions c_status c_generate c_tag c_respond c_completed c_error].
  unfold p_opt. rewrite !as_dict_obj. cbn [app flat_map item fst snd shown].
  rewrite shown_objs by apply act_obj. f_equal. f_equal. f_equal.
  destruct st as [a|]; [destruct (act_obj a) as (cl & l & E); rewrite E|]; destruct t, er; reflexivity.
Qed.
Lemma l_frames :
  (forall c, lists (o_tpc c) "Control"
     [("is_dialog_start", PBool (tc_start c)); ("has_tl", PBool (tc_tl c)); ("has_te", PBool (tc_te c));
      ("is_ack_requested", PBool (tc_ack_req c)); ("is_ack_not_void", PBool (tc_ack_nv c));
      ("is_ack_record_requested", PBool (tc_ack_rec c)); ("has_agc", PBool (tc_agc c))])
  /\ (forall f, lists (o_tp f) "Frame"
     [("control", as_dict (o_tpc (tf_control f))); ("dialog_id", PInt (tf_dialog f));
      ("transaction_id", PInt (tf_trans f)); ("agc_rx_level_i", PInt (tf_agc f));
      ("tl", maybe o_ct (tf_tl f)); ("te", maybe o_ct (tf_te f)); ("tc", maybe o_ct (tf_tc f));
      ("ack_template", match tf_ack f with Some (a, b) => numbers [a; b] | None => PNone end);
      ("alp_command", as_dict (o_command (tf_cmd f)))])
  /\ (forall c, lists (o_npc c) "Control"
     [("has_no_origin_access_id", PBool (nc_no_origin c)); ("nls_method", PMember "NlsMethod" (nls_value (nc_nls c)));
      ("has_hopping", PBool (nc_hopping c)); ("origin_id_type", PMember "IdType" (idtype_value (nc_id_type c)))])
  /\ (forall f, lists (o_np f) "Frame"
     [("control", as_dict (o_npc (nf_control f))); ("origin_access_class", PInt (nf_class f));
      ("origin_access_id", numbers (nf_origin f)); ("d7atp_frame", as_dict (o_tp (nf_tp f)))])
  /\ (forall c, lists (o_fgc c) "ForegroundFrameControl"
     [("id_type", PMember "IdType" (idtype_value (fc_id_type c))); ("eirp_index", PInt (fc_eirp c))])
  /\ (forall c, lists (o_bgc c) "BackgroundFrameControl"
     [("id_type", PMember "IdType" (idtype_value (bc_id_type c))); ("tag", PInt (bc_tag c))])
  /\ (forall f, lists (o_frame (DFg f)) "ForegroundFrame"
     [("length", PInt (ff_length f)); ("subnet", PInt (ff_subnet f)); ("control", as_dict (o_fgc (ff_control f)));
      ("target_address", numbers (ff_target f)); ("d7anp_frame", as_dict (o_np (ff_np f))); ("crc16", PInt (ff_crc f))])
  /\ (forall f, lists (o_frame (DBg f)) "BackgroundFrame"
     [("subnet", PInt (bf_subnet f)); ("control", as_dict (o_bgc (bf_control f)));
      ("payload", PInt (bf_payload f)); ("crc16", PInt (bf_crc f))]).
Proof.
  unf. refine (conj _ (conj _ (conj _ (conj _ (conj _ (conj _ (conj _ _))))))); intros.
  - reflexivity.
  - unfold o_tp, p_opt, p_ints. rewrite as_dict_obj. destruct (tf_tl f), (tf_te f), (tf_tc f), (tf_ack f) as [[? ?]|]; reflexivity.
  - reflexivity.
  - unfold o_np, p_ints. rewrite as_dict_obj. cbn [flat_map item fst snd shown app]. rewrite shown_ints. reflexivity.
  - reflexivity.
  - reflexivity.
  - cbn [o_frame]. unfold p_ints. rewrite as_dict_obj. cbn [flat_map item fst snd shown app]. rewrite shown_ints. reflexivity.
  - reflexivity.
Qed.

(** ** derived classes *)
Lemma in_strings c l : existsb (String.eqb c) l = true <-> In c l.
Proof.
  rewrite existsb_exists. split; [intros (x & I & E); apply String.eqb_eq in E as ->; exact I|].
  intros I. exists c. split; [exact I | apply String.eqb_refl].
Qed.
Lemma op_classes c : In c ["NoOperation"; "ReadFileData"; "ReadFileHeader"; "WriteFileData"; "WriteFileHeader";
        "BreakQuery"; "CreateNewFile"; "ReturnFileData"; "ReturnFileHeader"; "InterfaceStatus";
        "TagResponse"; "Forward"; "IndirectForward"; "TagRequest"] <-> exists o, c = operation_class o.
Proof.
  split.
  - intros I. pose (t := mkTag 0). pose (l := mkLength 0). pose (o := mkOffset 0 l). pose (d := mkData o l []).
    pose (h := mkFH (mkPerm false false false false false false false false) (mkProp false AC_LIST TRANSIENT) 0 0 0 0).
    cbn [In] in I.
    assert (X : exists f : FileHeaderOp, True) by (exists (mkFHO 0 h); trivial).
    repeat (destruct I as [<-|I]).
    + exists NoOperation. reflexivity.
    + exists (ReadFileData (mkDataRequest o l)). reflexivity.
    + exists (ReadFileHeader (mkFileId 0)). reflexivity.
    + exists (WriteFileData d). reflexivity.
    + exists (WriteFileHeader (mkFHO 0 h)). reflexivity.
    + exists (BreakQuery (mkQuery Q_COMP_VALUE false (mkArith false C_EQ) l [] o)). reflexivity.
    + exists (CreateNewFile (mkFHO 0 h)). reflexivity.
    + exists (ReturnFileData d None). reflexivity.
    + exists (ReturnFileHeader (mkFHO 0 h)). reflexivity.
    + exists (InterfaceStatus (mkISO 0 None)). reflexivity.
    + exists (TagResponse t). reflexivity.
    + exists (Forward (mkIC IF_HOST None)). reflexivity.
    + exists (IndirectForward (mkIndirect 0 None)). reflexivity.
    + exists (TagRequest t). reflexivity.
    + contradiction.
  - intros [o ->]. destruct o; cbn [operation_class In]; tauto.
Qed.
Lemma parents_derived c p : In p (MSchema.parents c) <-> derived c p.
Proof.
  unfold MSchema.parents, derived. rewrite <- op_classes.
  set (A := ["RegularAction"; "ForwardAction"; "IndirectForwardAction"; "StatusAction"; "TagRequestAction"; "TagResponseAction"]).
  set (O := ["NoOperation"; "ReadFileData"; "ReadFileHeader"; "WriteFileData"; "WriteFileHeader";
        "BreakQuery"; "CreateNewFile"; "ReturnFileData"; "ReturnFileHeader"; "InterfaceStatus";
        "TagResponse"; "Forward"; "IndirectForward"; "TagRequest"]).
  destruct (existsb (String.eqb c) A) eqn:EA.
  { apply in_strings in EA. assert (NO : ~ In c O).
    { unfold A in EA. cbn [In] in EA. intros I. unfold O in I. cbn [In] in I.
      repeat (destruct EA as [<-|EA]; [repeat (destruct I as [I|I]; [discriminate I|]); exact I|]). exact EA. }
    assert (NV : c <> "Validatable" /\ c <> "NotImplementedFile").
    { unfold A in EA. cbn [In] in EA. split; intros ->; repeat (destruct EA as [EA|EA]; [discriminate EA|]); exact EA. }
    cbn [In]. intuition congruence. }
  assert (NA : ~ In c A) by (intros I; apply in_strings in I; congruence).
  destruct (existsb (String.eqb c) O) eqn:EO.
  { apply in_strings in EO.
    assert (NV : c <> "Validatable" /\ c <> "NotImplementedFile").
    { unfold O in EO. cbn [In] in EO. split; intros ->; repeat (destruct EO as [EO|EO]; [discriminate EO|]); exact EO. }
    cbn [In]. intuition congruence. }
  assert (NO : ~ In c O) by (intros I; apply in_strings in I; congruence).
  destruct (existsb (String.eqb c) ["NotImplementedFile"; "Validatable"]) eqn:EN.
  { apply in_strings in EN. cbn [In] in *. intuition congruence. }
  assert (NN : ~ In c ["NotImplementedFile"; "Validatable"]) by (intros I; apply in_strings in I; congruence).
  cbn [In] in NN |- *. intuition congruence.
Qed.
Lemma instances c p : MSchema.isinstance (MSchema.VObject c) p = true <-> p = c \/ derived c p.
Proof.
  cbn [MSchema.isinstance]. rewrite orb_true_iff, in_strings, parents_derived, String.eqb_eq. intuition congruence.
Qed.
