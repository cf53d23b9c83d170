(** examples/switch_to_push_notification.py, query_nodes.py, read_phy_status.py
    and send_lorawan.py: property C72. *)
From Coq Require Import String.
From Verif Require Import SPush LPush.
Open Scope list_scope.
Open Scope Z_scope.

(** *** The push example as it is written never sends anything *)
Theorem C72_push_as_written_refuted : forall lib s rnd v es,
  push_program lib s rnd push_length v es = (s, [], Err (if (0 <=? v) && (v <=? 65535) then ValueError else StructError)).
Proof. exact push_as_written. Qed.
Print Assumptions C72_push_as_written_refuted.
(** the reason: the schema of [Length] *)
Theorem C72_length_object_refused : MSchema.construct MSchema.C_Length [MSchema.VObject "Length"%string] = false.
Proof. exact length_object_refused. Qed.
Print Assumptions C72_length_object_refused.

(** *** With the number 2 in place of the object *)
(** thresholds below zero or above 6553.5 degrees cannot be expressed *)
Theorem C72_push_refused : forall rnd len v, ~ (0 <= v <= 65535) -> push_command rnd len v = Err StructError.
Proof. exact push_err. Qed.
Print Assumptions C72_push_refused.
Theorem C72_push_bytes : forall rnd v, is_byte rnd -> 0 <= v <= 65535 ->
  exists c, push_command rnd (LengthInt 2) v = Ok c /\ command_ser c = Ok (push_bytes rnd v).
Proof. exact push_bytes_ok. Qed.
Print Assumptions C72_push_bytes.
(** one frame is sent, then the responses are reported *)
Theorem C72_push_sends : forall lib s rnd v es, usable_session s -> is_byte rnd -> 0 <= v <= 65535 ->
  exists s' ids e, push_program lib s rnd (LengthInt 2) v es = (s', ids, e)
  /\ se_sent s' = se_sent s ++ frame (sp_up (r_parser (se_reader s))) 1 (push_bytes rnd v)
  /\ push_report (execute_result s') = (ids, e).
Proof. exact push_sends. Qed.
Print Assumptions C72_push_sends.
(** the files of a node that carries out the command *)
Theorem C72_push_files : forall rnd v c file, push_command rnd (LengthInt 2) v = Ok c ->
  node_receives 65 file c = threshold_action v ++ skipn 11 file
  /\ node_receives 66 file c = push_interface_bytes ++ skipn 5 file
  /\ forall id, id <> 65 -> id <> 66 -> node_receives id file c = file.
Proof. exact push_files. Qed.
Print Assumptions C72_push_files.
(** the action stored there returns the sensor value exactly if it is above the
    threshold *)
Theorem C72_push_threshold : forall rnd v c file, push_command rnd (LengthInt 2) v = Ok c ->
  exists action rest, alp_parse 11 (stream_of (node_receives 65 file c)) = Ok (action, rest)
  /\ forall files, node_answers files (c_actions action)
     = if v <? be_number (firstn 2 (files 64)) then [(64, firstn 2 (files 64))] else [].
Proof. exact push_threshold. Qed.
Print Assumptions C72_push_threshold.
(** the interface it goes to *)
Theorem C72_push_interface : forall rnd v c file, push_command rnd (LengthInt 2) v = Ok c ->
  exists content, node_receives 66 file c = 215 :: content
  /\ parses conf_parse content (mkConf (mkQoS RESP_NO RETRY_NO false false) (mkCT 0 0) (mkAddr 1 NOID IdNone NLS_NONE)).
Proof. exact push_interface_file. Qed.
Print Assumptions C72_push_interface.
(** the header: action 0x41 with interface 0x42 whenever the file is written *)
Theorem C72_push_header : parses fh_parse sensor_header
  (mkFH (mkPerm false false true true true true true true) (mkProp true AC_WRITE TRANSIENT) 65 66 2 2).
Proof. exact header_parses. Qed.
Print Assumptions C72_push_header.
(** the library cannot read the command itself *)
Theorem C72_push_parsed_refuted : ~ (forall rnd v c bs, is_byte rnd -> push_command rnd (LengthInt 2) v = Ok c -> command_ser c = Ok bs ->
  exists r, parses (alp_parse (zlen bs)) bs r).
Proof. exact push_parser_refuted. Qed.
Print Assumptions C72_push_parsed_refuted.

(** the report: the nodes behind the responses, completion excepted *)
Theorem C72_push_report : forall rs ids, push_report rs = (ids, Ok tt) <-> reported rs ids.
Proof. exact report_ok. Qed.
Print Assumptions C72_push_report.
(** it stops at a response without D7 interface status *)
Theorem C72_push_report_stops : forall rs ids r rest, reported rs ids -> c_completed r = false -> (forall s, ~ status_of r s) ->
  push_report (rs ++ MCmd r :: rest) = (ids, Err AttributeError).
Proof. exact report_stops. Qed.
Print Assumptions C72_push_report_stops.

(** *** query_nodes.py *)
(** the frame, and what is logged of the messages that follow *)
Theorem C72_nodes : forall s rnd msgs, usable_session s -> m_has_cb (r_modem (se_reader s)) = true ->
  m_connected (r_modem (se_reader s)) = true -> is_byte rnd ->
  exists s', nodes_program s rnd msgs = (s', Ok (nodes_logged (called msgs)))
  /\ se_sent s' = se_sent s ++ frame (sp_up (r_parser (se_reader s))) 1 (nodes_bytes rnd).
Proof. exact nodes_run. Qed.
Print Assumptions C72_nodes.
(** everything up to the first completed command; a message that is no command
    ends the reader thread *)
Theorem C72_nodes_logged : forall calls,
  (Forall not_completed calls -> nodes_logged calls = (calls, NodesListening))
  /\ (forall before c rest, Forall not_completed before -> calls = before ++ MCmd c :: rest -> c_completed c = true ->
        nodes_logged calls = (before ++ [MCmd c], NodesExited))
  /\ (forall before m rest, Forall not_completed before -> calls = before ++ m :: rest -> (forall c, m <> MCmd c) ->
        nodes_logged calls = (before ++ [m], NodesDeaf)).
Proof. exact nodes_logged_spec. Qed.
Print Assumptions C72_nodes_logged.

(** *** read_phy_status.py *)
Theorem C72_phy_status : forall rnd, is_byte rnd ->
  exists c, phy_status_command rnd = Ok c /\ command_ser c = Ok [180; rnd; 1; 9; 0; 45].
Proof. exact phy_status_sends. Qed.
Print Assumptions C72_phy_status.

(** *** send_lorawan.py never sends anything either *)
Theorem C72_lorawan_as_written_refuted : forall rnd,
  lorawan_command rnd true otaa_given = Err TypeError /\ lorawan_command rnd false abp_given = Err TypeError.
Proof. exact lorawan_as_written. Qed.
Print Assumptions C72_lorawan_as_written_refuted.
(** a call with keywords succeeds exactly for the names of the parameters *)
Theorem C72_keywords : forall params given, keyword_call params given = Ok tt <-> forall k, In k given <-> In k params.
Proof. exact keyword_call_iff. Qed.
Print Assumptions C72_keywords.
(** without the keys and identifiers, which the device has to know by itself *)
Theorem C72_lorawan : forall rnd, is_byte rnd ->
  (exists c, lorawan_command rnd true ["adr_enabled"; "request_ack"; "app_port"; "data_rate"]%string = Ok c /\ command_ser c = Ok [180; rnd; 50; 3; 0; 1; 0; 1; 64; 0; 8])
  /\ (exists c, lorawan_command rnd false ["adr_enabled"; "request_ack"; "app_port"; "data_rate"; "dev_addr"; "netw_id"]%string = Ok c
      /\ command_ser c = Ok [180; rnd; 50; 2; 0; 1; 0; 0; 17; 34; 51; 0; 0; 0; 23; 1; 64; 0; 8]).
Proof. exact lorawan_corrected. Qed.
Print Assumptions C72_lorawan.

(** *** The hypotheses can be met *)
Example C72_case_push : exists c action rest, push_command 7 (LengthInt 2) 250 = Ok c
  /\ alp_parse 11 (stream_of (node_receives 65 [] c)) = Ok (action, rest)
  /\ node_answers (fun _ => [0; 251]) (c_actions action) = [(64, [0; 251])]
  /\ node_answers (fun _ => [0; 250]) (c_actions action) = [].
Proof. eexists _, _, _. split; [vm_compute; reflexivity|]. split; [vm_compute; reflexivity|]. split; vm_compute; reflexivity. Qed.
Definition C72_node (id : Z) : Command :=
  mkCommand [] (Some (mkAction (StatusAct 1) (InterfaceStatus (mkISO 215 (Some
     (mkStatus (mkChannelID (mkCH PN9 NORMAL_RATE BAND_868) 0) 40 80 20 false false false false 0 1 (mkCT 0 0) (mkAddr 1 UID (IdInt id) NLS_NONE)))))))
    false (Some 7) true false None.
Definition C72_done : Command := mkCommand [] None false (Some 7) true true (Some false).
Example C72_case_report : push_report [MCmd (C72_node 1); MCmd (C72_node 2); MCmd C72_done] = ([IdInt 1; IdInt 2], Ok tt)
  /\ (forall s, ~ status_of C72_done s).
Proof. split; [vm_compute; reflexivity|]. intros s (a & o & S & _). discriminate S. Qed.
Example C72_case_nodes : exists s, usable_session s /\ m_has_cb (r_modem (se_reader s)) = true /\ m_connected (r_modem (se_reader s)) = true
  /\ nodes_logged (called [(1, MCmd (C72_node 1)); (4, MRaw [65]); (1, MCmd C72_done); (1, MCmd (C72_node 2))])
     = ([MCmd (C72_node 1); MCmd C72_done], NodesExited).
Proof.
  exists (mkSession (mkReader (new_parser false) (set_connected (new_modem false true false)) true) None None []).
  refine (conj _ (conj eq_refl (conj eq_refl _))); [split; [unfold is_byte; cbn; lia | reflexivity]|]. vm_compute. reflexivity.
Qed.
