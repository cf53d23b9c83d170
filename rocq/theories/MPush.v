(** examples/switch_to_push_notification.py, query_nodes.py, read_phy_status.py
    and send_lorawan.py: the commands they build, what is done with the answers *)
From Coq Require Import String.
From Verif Require Import MBase MCt MPhy MFs MSp MSysFiles MOperands MAlp MSerial MModem MConnect.

(** *** switch_to_push_notification.py *)

(** the argument [length] of [DataRequest], file.py:71-73: an integer, or an
    object of class [Length] *)
Inductive LengthArg := LengthInt (z : Z) | LengthObject (l : Length).
(** [DataRequest(length, offset)]: [Length(length)] accepts integers only,
    length.py:29-37 *)
Definition data_request_of (l : LengthArg) (o : Offset) : res DataRequest :=
  match l with LengthInt z => mk_data_request z o | LengthObject _ => Err ValueError end.

(** lines 74-93: [v] is [int(config.temperature * 10)] (the multiplication is
    not modelled), [len] the length in line 92 *)
Definition push_query (len : LengthArg) (v : Z) : res Command :=
  let! c := mk_command 0 [] false None true in
  let! l := mk_length 2 in
  let! value := pack_be 2 v in
  let! z := mk_length 0 in
  let! o := mk_offset 64 z in
  let! q := mk_query Q_COMP_VALUE false (mkArith false C_GT) l value o in
  let! a := mk_action (Regular false false) (BreakQuery q) in
  let c := add_action c a in
  let! z := mk_length 0 in
  let! o := mk_offset 64 z in
  let! d := data_request_of len o in
  let! a := mk_action (Regular false false) (ReadFileData d) in
  Ok (add_action c a).
(** the argument in line 92 *)
Definition push_length : LengthArg := LengthObject (mkLength 2).
(** lines 96-100 *)
Definition push_interface : res InterfaceConfiguration :=
  let! a := mk_addr 1 NOID IdNone NLS_NONE in
  Ok (mkIC IF_D7ASP (Some (CfgD7 (mkConf (mkQoS RESP_NO RETRY_NO false false) (mkCT 0 0) a)))).
(** [RegularAction(operation=WriteFileData(operand=Data(offset=Offset(id=id,
    offset=Length(0)), data=list(x))))], lines 112-122 *)
Definition push_write (id : Z) (content : res (list Z)) : res Action :=
  let! z := mk_length 0 in
  let! o := mk_offset id z in
  let! bs := content in
  let! d := mk_data bs o in
  mk_action (Regular false false) (WriteFileData d).
(** lines 120-131 *)
Definition push_header : res FileHeader :=
  mk_fh (mkPerm false false true true true true true true) (mkProp true AC_WRITE TRANSIENT) 65 66 2 2.
(** lines 74-131 *)
Definition push_command (rnd : Z) (len : LengthArg) (v : Z) : res Command :=
  let! q := push_query len v in
  let! i := push_interface in
  let! c := mk_command rnd [] true None true in
  let! n := ct_compress 3 true in
  let! a := mk_addr 17 NBID (match n with Some c => IdCT c | None => IdNone end) NLS_NONE in
  let! c := add_forward_action c IF_D7ASP
              (Some (CfgD7 (mkConf (mkQoS RESP_ALL RETRY_NO false false) (mkCT 0 0) a))) in
  let! w := push_write 65 (command_ser q) in
  let c := add_action c w in
  let! w := push_write 66 (ic_ser i) in
  let c := add_action c w in
  let! h := push_header in
  let! h := mk_fho 64 h in
  let! w := mk_action (Regular false false) (WriteFileHeader h) in
  Ok (add_action c w).

(** the loop over the responses, lines 136-138: the ids that are printed, and
    the exception that ends the loop if there is one *)
Fixpoint push_report (responses : list Msg) : list AddrId * res unit :=
  match responses with
  | [] => ([], Ok tt)
  | MCmd r :: rest =>
      if c_completed r then push_report rest
      else match get_d7asp_interface_status r with
           | Ok (Some s) => let (ids, e) := push_report rest in (ad_id (st_addressee s) :: ids, e)
           | Ok None => ([], Err AttributeError)
           | Err e => ([], Err e)
           end
  | _ :: _ => ([], Err AttributeError)
  end.
(** the program after [connect]; [es] is what the device does until
    [execute_command] returns *)
Definition push_program (lib : bool) (s : Session) (rnd : Z) (len : LengthArg) (v : Z) (es : list DeviceEvent)
  : Session * list AddrId * res unit :=
  match push_command rnd len v with
  | Err e => (s, [], Err e)
  | Ok c =>
      match execute s c 30 with
      | (s, Err e) => (s, [], Err e)
      | (s, Ok _) =>
          let s := fold_left (device lib) es s in
          let (ids, e) := push_report (execute_result s) in (s, ids, e)
      end
  end.

(** *** query_nodes.py *)

(** lines 62-74 *)
Definition nodes_command (rnd : Z) : res Command :=
  let! a := mk_addr 17 NOID IdNone NLS_NONE in
  create_read rnd 64 2 0 IF_D7ASP (Some (CfgD7 (mkConf (mkQoS RESP_ALL RETRY_NO false false) (mkCT 0 0) a))).
(** received_command_callback, lines 44-47, called with one message after the
    other: what is logged, and what becomes of the process.  [os._exit(0)] ends
    it; an exception ([msg] has no [execution_completed]) ends the reader
    thread. *)
Inductive NodesState := NodesListening | NodesExited | NodesDeaf.
Fixpoint nodes_logged (calls : list Msg) : list Msg * NodesState :=
  match calls with
  | [] => ([], NodesListening)
  | MCmd c :: rest => if c_completed c then ([MCmd c], NodesExited)
                      else let (l, st) := nodes_logged rest in (MCmd c :: l, st)
  | m :: _ => ([m], NodesDeaf)
  end.
(** the program after [connect]: [execute_command_async] is [execute_command]
    with timeout 0 (modem.py:141-143); [msgs] are the messages the reader thread
    decodes from then on *)
Definition nodes_program (s : Session) (rnd : Z) (msgs : list (Z * Msg)) : Session * res (list Msg * NodesState) :=
  match nodes_command rnd with
  | Err e => (s, Err e)
  | Ok c =>
      match execute s c 0 with
      | (s, Err e) => (s, Err e)
      | (s, Ok _) =>
          let before := m_cb_calls (r_modem (se_reader s)) in
          let after := m_cb_calls (fold_left dispatch msgs (r_modem (se_reader s))) in
          (s, Ok (nodes_logged (skipn (length before) after)))
      end
  end.

(** *** read_phy_status.py, lines 51-55 *)
Definition phy_status_command (rnd : Z) : res Command :=
  let! f := mk_phy_status 0 0 0 0 10 [] [] in
  create_read_sys rnd (F_PhyStatus f) IF_HOST None.

(** *** send_lorawan.py *)

(** Calling a function with keyword arguments only: an argument that is no
    parameter, or a parameter without argument (none of them has a default),
    is a [TypeError]. *)
Definition keyword_call (params given : list string) : res unit :=
  if forallb (fun k => existsb (String.eqb k) params) given && forallb (fun p => existsb (String.eqb p) given) params
  then Ok tt else Err TypeError.
(** lorawan_interface_configuration_otaa.py:42, …_abp.py:43 *)
Definition otaa_params : list string := ["adr_enabled"; "request_ack"; "app_port"; "data_rate"]%string.
Definition abp_params : list string :=
  ["adr_enabled"; "request_ack"; "app_port"; "data_rate"; "dev_addr"; "netw_id"]%string.
(** the keywords in lines 67-75 and 88-97 *)
Definition otaa_given : list string :=
  ["request_ack"; "app_port"; "device_eui"; "app_eui"; "app_key"; "adr_enabled"; "data_rate"]%string.
Definition abp_given : list string :=
  ["request_ack"; "app_port"; "netw_session_key"; "app_session_key"; "dev_addr"; "netw_id"; "adr_enabled";
   "data_rate"]%string.
(** lines 59-101: the command for the given keywords *)
Definition lorawan_command (rnd : Z) (otaa : bool) (given : list string) : res Command :=
  if otaa
  then let! _ := keyword_call otaa_params given in
       create_read rnd 64 8 0 IF_OTAA (Some (CfgOTAA (mkOTAA false false 1 0)))
  else let! _ := keyword_call abp_params given in
       create_read rnd 64 8 0 IF_ABP (Some (CfgABP (mkABP false false 1 0 1122867 23))).
