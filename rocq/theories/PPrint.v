(** C66: [str()] of a command, frame or system file never fails and shows what the object contains *)
From Coq Require Import String.
From Verif Require Import MBase MCt MPhy MSp MFs MOperands MSysFiles MAlp MDll MAsDict MPrint SAsDict SPrint LPrint LPrint2 LPrint3.
Open Scope string_scope.
Open Scope Z_scope.

(** Every command that the parser or the constructor delivers can be printed;
    so can every parsed system file and every DLL frame. *)
Theorem C66_parsed_command_prints : forall n s c s', alp_parse n s = Ok (c, s') -> prints (o_command c).
Proof. exact parsed_prints. Qed.
Print Assumptions C66_parsed_command_prints.
Theorem C66_built_command_prints : forall rnd actions gen tag resp c,
  (forall a, In (Some a) actions -> constructed_op (a_op a)) ->
  mk_command rnd actions gen tag resp = Ok c -> prints (o_command c).
Proof. exact built_prints. Qed.
Print Assumptions C66_built_command_prints.
Theorem C66_parsed_file_prints : forall e s f s', file_parse e s = Ok (f, s') -> prints (o_file f).
Proof. exact parsed_file_prints. Qed.
Print Assumptions C66_parsed_file_prints.
Theorem C66_frame_prints_its_dict : forall f, str (o_frame f) = Ok [Dict (as_dict (o_frame f))].
Proof. exact frame_prints. Qed.
Print Assumptions C66_frame_prints_its_dict.
Theorem C66_configuration_prints_its_dict :
  (forall q, str (o_qos q) = Ok [Dict (as_dict (o_qos q))])
  /\ (forall c, str (o_conf c) = Ok [Dict (as_dict (o_conf c))])
  /\ (forall c, str (o_abp c) = Ok [Dict (as_dict (o_abp c))])
  /\ (forall c, str (o_otaa c) = Ok [Dict (as_dict (o_otaa c))])
  /\ (forall s, str (o_subprofile s) = Ok [Dict (as_dict (o_subprofile s))]).
Proof. exact configuration_prints. Qed.
Print Assumptions C66_configuration_prints_its_dict.

(** The only system file that can fail to print is a PHY status whose lists are
    shorter than it says (its constructor fills them up); it then raises
    [IndexError]. *)
Theorem C66_file_prints : forall f, (forall g, f = F_PhyStatus g -> lists_long_enough g) -> prints (o_file f).
Proof. exact file_prints. Qed.
Print Assumptions C66_file_prints.
Theorem C66_made_phy_status_prints : forall up rx tx duty n ids noise f,
  mk_phy_status up rx tx duty n ids noise = Ok f -> prints (o_file (F_PhyStatus f)).
Proof. exact made_phy_prints. Qed.
Print Assumptions C66_made_phy_status_prints.
Theorem C66_short_phy_status_fails : forall f, ~ lists_long_enough f -> str (o_file (F_PhyStatus f)) = Err IndexError.
Proof. exact phy_index. Qed.
Print Assumptions C66_short_phy_status_fails.

(** In everything that prints "name=value" fields, each value is that of the
    attribute the name stands for … *)
Theorem C66_labels_tell_the_truth : forall p t hidden,
  left_out (class_name_of (part_value p)) = Some hidden -> str (part_value p) = Ok t ->
  forall name s, In (name, s) (fields t) ->
    exists v, entry (meaning (class_name_of (part_value p)) name) (attributes (part_value p)) = Some v
              /\ shows (meaning (class_name_of (part_value p)) name) v s.
Proof. exact part_labels. Qed.
Print Assumptions C66_labels_tell_the_truth.
(** … and every attribute has such a field, except the listed ones. *)
Theorem C66_every_attribute_has_a_field : forall p t hidden,
  left_out (class_name_of (part_value p)) = Some hidden -> str (part_value p) = Ok t ->
  forall k, In k (map fst (attributes (part_value p))) -> ~ In k hidden ->
    exists name s, In (name, s) (fields t) /\ meaning (class_name_of (part_value p)) name = k.
Proof. exact part_complete. Qed.
Print Assumptions C66_every_attribute_has_a_field.

(** A command prints its tag, how far it got, one line per action in order, and
    the interface status if there is one. *)
Theorem C66_command_text : forall c, constructed c -> outcome_known c ->
  exists ts, Forall2 (fun a t => str (o_action a) = Ok t) (c_actions c) ts
    /\ exists st, match c_status c with
                  | None => st = []
                  | Some a => exists t, str (o_action a) = Ok t /\ st = [Lit "	interface status: "; Sub t; Lit "
"]
                  end
    /\ str (o_command c)
       = Ok ([Lit "Command with tag "; Sub (match c_tag c with Some n => [Num n] | None => [NoneText] end); Lit " ";
              Lit "("; Lit (state_words c); Lit ")"] ++ lines ts ++ st)%list.
Proof. exact command_str. Qed.
Print Assumptions C66_command_text.
(** A completed command without an outcome could not be printed; no constructor
    or parser makes one. *)
Theorem C66_outcome_needed : forall c, constructed c -> c_completed c = true -> c_error c = None ->
  str (o_command c) = Err AttributeError.
Proof. exact no_outcome. Qed.
Print Assumptions C66_outcome_needed.

(** An action prints the name of its operation and its operand; an answer with a
    recognised system file prints the class and content of that file instead; a
    status prints its operand. *)
Theorem C66_action_text : forall a, (forall e, a_kind a <> StatusAct e) -> recognised a = None -> constructed_op (a_op a) ->
  str (o_action a) = str (o_operation (a_op a)).
Proof. exact plain_action_str. Qed.
Print Assumptions C66_action_text.
Theorem C66_operation_text : forall o,
  str (o_operation o) = match str (op_operand o) with Ok t => Ok [Lit (op_class o ++ ": "); Sub t] | Err e => Err e end.
Proof. exact operation_str. Qed.
Print Assumptions C66_operation_text.
Theorem C66_received_file_text : forall a f, recognised a = Some f -> constructed_op (a_op a) ->
  str (o_action a) = match str (o_file f) with
                     | Ok t => Ok [Lit "Received "; Lit (file_class f); Lit " content: "; Sub t]
                     | Err e => Err e end.
Proof. exact received_class. Qed.
Print Assumptions C66_received_file_text.
Theorem C66_status_text : forall a e, a_kind a = StatusAct e -> str (o_action a) = str (op_operand (a_op a)).
Proof. exact status_str. Qed.
Print Assumptions C66_status_text.

(** An access profile prints its header, then its sub profiles (as dicts) and
    its sub bands one after the other. *)
Theorem C66_access_profile_text : forall p, exists h bs, str (o_ch (MProfile.ap_header p)) = Ok h
  /\ Forall2 (fun b t => str (o_subband b) = Ok t) (MProfile.ap_bands p) bs
  /\ str (o_ap p) = Ok [Lit "channel_header="; Sub h;
                        Lit ", sub_profiles="; Sub (map (fun s => Sub [Dict (as_dict (o_subprofile s))]) (MProfile.ap_profiles p));
                        Lit ", sub_bands="; Sub (map Sub bs)].
Proof. exact profile_str. Qed.
Print Assumptions C66_access_profile_text.
(** A channel prints the text of C31 for its header, then the index; a PHY status
    lists every channel with its noise floor. *)
Theorem C66_channel_text : forall c, exists band cl cod,
  str (o_cid c) = Ok [Sub [Lit band; Lit cl; Lit cod]; Pad3 (cid_index c)]
  /\ band ++ cl ++ cod = ch_str (cid_header c).
Proof. exact channel_str. Qed.
Print Assumptions C66_channel_text.
Theorem C66_phy_status_text : forall f, 0 <= ps_len f -> zlen (ps_ids f) = ps_len f -> zlen (ps_noise f) = ps_len f ->
  exists t, str (o_file (F_PhyStatus f)) = Ok t
    /\ fields t = [("up_time", Sub [Num (ps_up f)]); ("rx_time", Sub [Num (ps_rx f)]); ("tx_time", Sub [Num (ps_tx f)]);
                   ("tx_duty_cycle", Sub [Num (ps_duty f)]); ("channel_status_list_length", Sub [Num (ps_len f)]);
                   ("list", Sub ([Lit "["] ++ channel_entries true (combine (ps_ids f) (ps_noise f)) ++ [Lit "]"])%list)].
Proof. exact phy_str. Qed.
Print Assumptions C66_phy_status_text.

(** Factory settings fill in their 25 attributes in the order of declaration,
    although the text announces the spreading factor before the bandwidth: each
    of the two stands under the name of the other. *)
Theorem C66_factory_values : forall f t, str (o_file (F_Factory f)) = Ok t ->
  filled t = map (fun e => text_or_nothing (snd e)) (firstn 25 (attributes (o_file (F_Factory f)))).
Proof. exact factory_values. Qed.
Print Assumptions C66_factory_values.
Theorem C66_factory_lora_swapped : forall f t, str (o_file (F_Factory f)) = Ok t ->
  after "
lora sf set to " t = Some (Sub [Num (fs_lora_bw f)]) /\ after ", bw to " t = Some (Sub [Num (fs_lora_sf f)]).
Proof. exact factory_swapped. Qed.
Print Assumptions C66_factory_lora_swapped.
Theorem C66_factory_label_refuted : ~ (forall f t, str (o_file (F_Factory f)) = Ok t ->
  after "
lora sf set to " t = Some (Sub [Num (fs_lora_sf f)])).
Proof. exact factory_refuted. Qed.
Print Assumptions C66_factory_label_refuted.

(** Not shown at all: the two noise floor parameters of a DLL configuration, the
    flags of an action, and the permissions of a file. *)
Theorem C66_noise_floor_parameters_hidden : forall ac lq nf rx tx rx' tx',
  str (o_file (F_DllConfig (mkDllConfig ac lq nf rx tx))) = str (o_file (F_DllConfig (mkDllConfig ac lq nf rx' tx'))).
Proof. exact dll_hidden. Qed.
Print Assumptions C66_noise_floor_parameters_hidden.
Theorem C66_action_flags_hidden : forall o g r g' r',
  str (o_action (mkAction (Regular g r) o)) = str (o_action (mkAction (Regular g' r') o)).
Proof. exact flags_hidden. Qed.
Print Assumptions C66_action_flags_hidden.
Theorem C66_permissions_hidden : forall p, str (o_perm p) = Ok [].
Proof. exact permissions_hidden. Qed.
Print Assumptions C66_permissions_hidden.

(** A query and the content of a file without a class of its own have no text:
    Python's default, the class and the address, is printed. *)
Theorem C66_no_own_text : (forall q, str (o_query q) = Ok [Default "QueryOperand"])
  /\ (forall i n, str (o_file (F_NotImpl i n)) = Ok [Default "NotImplementedFile"]).
Proof. exact no_own_text. Qed.
Print Assumptions C66_no_own_text.

(** Non-vacuity: an answer with tag 7 that carries a VID file, and a status
    whose fields are read. *)
Example C66_case :
  exists c s', alp_parse 9 (stream_of [163; 7; 32; 6; 0; 3; 18; 52; 1]) = Ok (c, s')
    /\ str (o_command c)
       = Ok [Lit "Command with tag "; Sub [Num 7]; Lit " "; Lit "("; Lit "completed, without error"; Lit ")"; Lit "
	actions:
"; Lit "		action: ";
             Sub [Lit "Received "; Lit "VidFile"; Lit " content: "; Sub [Lit "vid="; Hex 4660; Lit ", control="; Hex 1]]; Lit "
"].
Proof. do 2 eexists. split; vm_compute; reflexivity. Qed.
Example C66_case_fields :
  fields (text_or_nothing (o_file (F_Eng (mkEng EM_PER_RX 16 20 (mkChannelID (mkCH PN9 HI_RATE BAND_868) 5) 10))))
  = [("mode", Lit "PER_RX"); ("flags", Hex 16); ("timeout", Sub [Num 20]);
     ("channel_id", Sub [Sub [Lit "868"; Lit "H"; Lit "P"]; Pad3 5]); ("eirp", Sub [Num 10])].
Proof. vm_compute. reflexivity. Qed.
