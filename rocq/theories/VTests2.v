(** The repository's own unit tests, run against the model: operations, actions,
    commands and their parser, the serial parser and the DLL parser.  See
    VTests1.v. *)
From Verif Require Import MBase MCrc MCt MPhy MSp MFs MProfile MOperands MSysFiles MAlp MSerial MDll VTests1.
Open Scope Z_scope.

(** ** d7a/alp/operations/test/*.py *)
Example forward_d7asp :
  op_ser (Forward (mkIC IF_D7ASP (Some (CfgD7 conf_default))))
  = (Ok [215] +++ conf_ser conf_default).
Proof. reflexivity. Qed.
Example forward_lorawan_abp :
  op_ser (Forward (mkIC IF_ABP (Some (CfgABP (mkABP true false 1 0 1 1)))))
  = (Ok [2] +++ abp_ser (mkABP true false 1 0 1 1)).
Proof. vm_compute. reflexivity. Qed.
Example forward_lorawan_otaa :
  op_ser (Forward (mkIC IF_OTAA (Some (CfgOTAA (mkOTAA true false 1 0)))))
  = (Ok [3] +++ otaa_ser (mkOTAA true false 1 0)).
Proof. reflexivity. Qed.
Example indirect_forward :
  op_ser (IndirectForward (mkIndirect 64 None)) = Ok [64]
  /\ op_ser (IndirectForward (mkIndirect 64 (Some addr_default))) = Ok [64; 16; 0].
Proof. split; reflexivity. Qed.
Example nop : op_code NoOperation = 0 /\ op_ser NoOperation = Ok [].
Proof. split; reflexivity. Qed.
Definition return_1234 : res Operation :=
  let! d := mk_data [1; 2; 3; 4] (mkOffset 0 (mkLength 0)) in Ok (mk_return_file_data d).
Example return_file_data :
  (let! o := return_1234 in Ok (op_code o)) = Ok 32
  /\ (let! o := return_1234 in op_ser o) = Ok [0; 0; 4; 1; 2; 3; 4].
Proof. vm_compute. split; reflexivity. Qed.

(** ** d7a/alp/test/action.py *)
Example action_byte_generation :
  built (mk_action (Regular false false) NoOperation) action_ser = Ok [0]
  /\ built (mk_action (Regular true true) NoOperation) action_ser = Ok [192].
Proof. split; reflexivity. Qed.

(** ** d7a/alp/test/command.py; [rnd] is what [random.randint] returns *)
Definition hello_world := [72; 101; 108; 108; 111; 32; 119; 111; 114; 108; 100].
Definition hello_action : res Action :=
  let! d := mk_data hello_world (mkOffset 81 (mkLength 0)) in
  mk_action (Regular false false) (mk_return_file_data d).
Definition hello_status : res Action :=
  let! s := mk_status (mkChannelID (mkCH PN9 LO_RATE BAND_433) 16) 70 80 80 false false false false
                      200 0 (mkCT 0 20) addr_default in
  let! o := mk_iso 215 (Some s) in
  mk_action (StatusAct 1) (InterfaceStatus o).
Definition hello_bytes : list Z :=
  [98; 215; 32; 0; 16; 70; 80; 80; 0; 200; 0; 20; 16; 0; 32; 81; 0; 11] ++ hello_world.
Definition hello_command (rnd : Z) (generate : bool) (tag : option Z) : res (list Z) :=
  let! a := hello_action in
  let! s := hello_status in
  let! c := mk_command rnd [Some a; Some s] generate tag true in
  command_ser c.
Example command_without_tag rnd : hello_command rnd false None = Ok hello_bytes.
Proof. vm_compute. reflexivity. Qed.
Example command_with_tag rnd : hello_command rnd true (Some 25) = Ok ([180; 25] ++ hello_bytes).
Proof. vm_compute. reflexivity. Qed.

(** ** d7a/alp/test/command_factory.py: the actions of the commands *)
Definition actions_of (r : res Command) : res (list Action) := let! c := r in Ok (c_actions c).
Definition regular := mkAction (Regular false false).
Definition to_d7asp : Action := regular (Forward (mkIC IF_D7ASP (Some (CfgD7 conf_default)))).
Definition at_start (id : Z) : Offset := mkOffset id (mkLength 0).
Definition six := [0; 1; 2; 3; 4; 5].
Example create_with_read_file_action rnd :
  actions_of (create_read rnd 1 10 0 IF_HOST None)
  = Ok [regular (ReadFileData (mkDataRequest (at_start 1) (mkLength 10)))].
Proof. reflexivity. Qed.
Example create_with_write_file_action rnd :
  actions_of (create_write rnd 1 six 0 IF_HOST None)
  = Ok [regular (WriteFileData (mkData (at_start 1) (mkLength 6) six))].
Proof. reflexivity. Qed.
Example create_with_return_file_data_action rnd :
  actions_of (create_return rnd 64 [1] 0 None IF_HOST None)
  = Ok [regular (ReturnFileData (mkData (at_start 64) (mkLength 1) [1]) None)].
Proof. reflexivity. Qed.
Example create_with_read_file_action_d7asp rnd :
  actions_of (create_read rnd 1 10 0 IF_D7ASP None)
  = Ok [to_d7asp; regular (ReadFileData (mkDataRequest (at_start 1) (mkLength 10)))].
Proof. reflexivity. Qed.
Example create_with_write_file_action_d7asp rnd :
  actions_of (create_write rnd 1 six 0 IF_D7ASP None)
  = Ok [to_d7asp; regular (WriteFileData (mkData (at_start 1) (mkLength 6) six))].
Proof. reflexivity. Qed.
Example create_with_return_file_data_action_d7asp rnd :
  actions_of (create_return rnd 64 [1] 0 None IF_D7ASP None)
  = Ok [to_d7asp; regular (ReturnFileData (mkData (at_start 64) (mkLength 1) [1]) None)].
Proof. reflexivity. Qed.
Example create_with_read_file_header rnd :
  actions_of (create_read_header rnd 64 IF_HOST None) = Ok [regular (ReadFileHeader (mkFileId 64))].
Proof. reflexivity. Qed.
Definition test_header : FileHeader :=
  mkFH (mkPerm false true true true false true false false) (mkProp false AC_WRITE PERMANENT) 65 66 1 1.
Example create_with_write_file_header rnd :
  actions_of (create_write_header rnd 64 test_header IF_HOST None)
  = Ok [regular (WriteFileHeader (mkFHO 64 test_header))].
Proof. reflexivity. Qed.
Example create_with_create_file rnd :
  actions_of (create_new_file rnd 64 test_header IF_HOST None)
  = Ok [regular (CreateNewFile (mkFHO 64 test_header))].
Proof. reflexivity. Qed.

(** ** d7a/alp/test/parser.py *)
Definition interface_status_action : list Z :=
  [98; 215; 12; 32; 0; 0; 0; 0; 80; 0; 0; 0; 0; 16; 0].
Definition return_f3 : list Z := [32; 64; 0; 4; 0; 243; 0; 0].
(** [Parser().parse(ConstBitStream(bytes=l), len(l))] *)
Definition command_of (l : list Z) : res Command := parsed (alp_parse (zlen l)) l.
Definition f3_action : Action :=
  regular (ReturnFileData (mkData (at_start 64) (mkLength 4) [0; 243; 0; 0]) None).
Example basic_valid_message :
  actions_of (command_of (return_f3 ++ interface_status_action)) = Ok [f3_action].
Proof. vm_compute. reflexivity. Qed.
Example command_without_interface_status :
  (let! c := command_of [32; 64; 0; 4; 0; 255; 0; 0] in Ok (c_status c)) = Ok None.
Proof. vm_compute. reflexivity. Qed.
Example command_with_multiple_interface_status_actions :
  command_of (return_f3 ++ interface_status_action ++ interface_status_action) = Err ParseError.
Proof. vm_compute. reflexivity. Qed.
Example empty_data :
  actions_of (command_of [32; 64; 0; 0])
  = Ok [regular (ReturnFileData (mkData (at_start 64) (mkLength 0) []) None)].
Proof. vm_compute. reflexivity. Qed.
Example unsupported_action : command_of [37; 64; 0; 0] = Err ParseError.
Proof. vm_compute. reflexivity. Qed.
(** test_multiple_actions and test_multiple_non_grouped_actions_in_command *)
Example multiple_actions :
  actions_of (command_of (return_f3 ++ return_f3 ++ interface_status_action)) = Ok [f3_action; f3_action].
Proof. vm_compute. reflexivity. Qed.
Example interface_status_action_d7asp :
  (let! c := command_of [98; 215; 12; 32; 0; 16; 70; 80; 80; 0; 165; 0; 20; 34; 5;
                         36; 138; 182; 1; 81; 199; 150; 109] in
   match c_status c with
   | Some a =>
       match a_op a with
       | InterfaceStatus o =>
           match iso_status o with
           | Some s => Ok (op_code (a_op a), iso_id o, st_channel_id s, st_rx_level s, st_link_budget s,
                           st_missed s, st_nls s, st_seq_nr s, st_response_to s, st_retry s)
           | None => Err ValueError
           end
       | _ => Err ValueError
       end
   | None => Err ValueError
   end)
  = Ok (34, 215, mkChannelID (mkCH PN9 LO_RATE BAND_433) 16, 70, 80, false, false, 0, mkCT 0 20, false).
Proof. vm_compute. reflexivity. Qed.
Example without_tag_request :
  (let! c := command_of return_f3 in Ok (c_actions c, c_tag c)) = Ok ([f3_action], None).
Proof. vm_compute. reflexivity. Qed.
Example with_tag_request :
  (let! c := command_of ([52; 14] ++ return_f3) in Ok (c_actions c, c_tag c, c_respond c))
  = Ok ([f3_action], Some 14, false).
Proof. vm_compute. reflexivity. Qed.
Example with_tag_request_EOP_bit_set :
  (let! c := command_of ([180; 14] ++ return_f3) in Ok (c_actions c, c_tag c, c_respond c))
  = Ok ([f3_action], Some 14, true).
Proof. vm_compute. reflexivity. Qed.
Example with_multiple_tag_requests : command_of ([52; 14; 52; 15] ++ return_f3) = Err ParseError.
Proof. vm_compute. reflexivity. Qed.
Example return_file_header :
  (let! l := actions_of (command_of [33; 2; 0; 3; 0; 0; 15; 0; 0; 0; 15; 0; 0; 0]) in
   match l with
   | [a] => match a_op a with
            | ReturnFileHeader o => Ok (fho_id o, pr_enabled (fh_prop (fho_header o)))
            | _ => Err ValueError
            end
   | _ => Err ValueError
   end) = Ok (2, false).
Proof. vm_compute. reflexivity. Qed.
Example indirect_fwd :
  actions_of (command_of [51; 64]) = Ok [mkAction (IndFwdAct false false) (IndirectForward (mkIndirect 64 None))].
Proof. vm_compute. reflexivity. Qed.
Example indirect_fwd_with_overload :
  actions_of (command_of [179; 64; 16; 0])
  = Ok [mkAction (IndFwdAct true false) (IndirectForward (mkIndirect 64 (Some addr_default)))].
Proof. vm_compute. reflexivity. Qed.
Example break_query :
  actions_of (command_of [9; 68; 1; 25; 32; 1]) = Ok [regular (BreakQuery test_query)].
Proof. vm_compute. reflexivity. Qed.
Example parse_forward_lorawan_abp :
  (let! l := abp_ser (mkABP true true 1 0 1 2) in actions_of (command_of ([50; 2] ++ l)))
  = Ok [mkAction (FwdAct false) (Forward (mkIC IF_ABP (Some (CfgABP (mkABP true true 1 0 1 2)))))].
Proof. vm_compute. reflexivity. Qed.
Example parse_forward_lorawan_otaa :
  (let! l := otaa_ser (mkOTAA true true 1 0) in actions_of (command_of ([50; 3] ++ l)))
  = Ok [mkAction (FwdAct false) (Forward (mkIC IF_OTAA (Some (CfgOTAA (mkOTAA true true 1 0)))))].
Proof. vm_compute. reflexivity. Qed.

(** ** d7a/serial_modem_interface/test/parser.py; each holds whatever kind of
    exception [read("bool")] raises at the end of the stream *)
Definition frame_of (counter : Z) (alp : list Z) : list Z :=
  let (h, l) := calculate_crc alp in [192; 0; counter; 1; zlen alp; h; l] ++ alp.
Definition message_actions (m : Z * Msg) : list Action :=
  match snd m with MCmd c => c_actions c | _ => [] end.
(** a call of [parse], and what the tests look at: the actions of each command,
    the "skipped" of each error, "parsed" *)
Definition seen (r : res PResult) : res (list (list Action) * list Z * Z) :=
  let! r := r in Ok (map message_actions (pr_msgs r), map pe_skipped (pr_errors r), pr_parsed r).
Example serial_basic_valid_message lib :
  seen (snd (sparse lib (new_parser false) (frame_of 1 return_f3))) = Ok ([[f3_action]], [], 120).
Proof. vm_compute. reflexivity. Qed.
Example serial_bad_identifier lib :
  seen (snd (sparse lib (new_parser false)
    [12; 4; 0; 0; 0; 32; 36; 138; 182; 0; 82; 11; 53; 44; 32; 64; 0; 0])) = Ok ([], [18], 0).
Proof. vm_compute. reflexivity. Qed.
Example buffer_skipping : skip_bad [16; 32; 48; 192; 16; 32; 48] = ([192; 16; 32; 48], 3).
Proof. reflexivity. Qed.
Example entire_buffer_skipping : skip_bad [16; 32; 48; 16; 32; 48] = ([], 6).
Proof. reflexivity. Qed.
Example empty_buffer_skipping : skip_bad [] = ([], 0).
Proof. reflexivity. Qed.
Example buffer_skipping_with_first_item_the_id : skip_bad [192; 16; 32; 48] = ([], 4).
Proof. reflexivity. Qed.
Example buffer_skipping_with_first_and_second_item_the_id :
  skip_bad [192; 192; 16; 32; 48] = ([192; 16; 32; 48], 1).
Proof. reflexivity. Qed.
Definition bad_then_id : list Z :=
  [12; 4; 0; 0; 0; 32; 36; 138; 192; 0; 1; 1; 7; 51; 173; 11; 53; 44; 125; 64; 0; 0].
(** the second error shows that the CRC the test calls "calculated beforehand"
    is right: it is the action that is refused *)
Example bad_identifier_with_identifier_in_body lib :
  (let! r := snd (sparse lib (new_parser false) bad_then_id) in
   Ok (pr_msgs r, map pe_skipped (pr_errors r))) = Ok ([], [8; 14]).
Proof. vm_compute. reflexivity. Qed.
Definition half_command : list Z := [192; 0; 1; 1; 16; 220; 248] ++ return_f3.
Example partial_command lib :
  seen (snd (sparse lib (new_parser false) half_command)) = Ok ([], [], 0).
Proof. vm_compute. reflexivity. Qed.
Example continue_partial_command lib :
  let p := fst (sparse lib (new_parser false) half_command) in
  seen (snd (sparse lib p return_f3)) = Ok ([[f3_action; f3_action]], [], 184).
Proof. vm_compute. reflexivity. Qed.
Example continue_from_bad_buffer lib :
  let p := fst (sparse lib (new_parser false) bad_then_id) in
  seen (snd (sparse lib p (frame_of 2 return_f3))) = Ok ([[f3_action]], [], 120).
Proof. vm_compute. reflexivity. Qed.
Example continue_partial_second_frame lib :
  let (p, r) := sparse lib (new_parser false)
                  ([192; 0; 1; 1; 8; 164; 190] ++ return_f3 ++ [192; 0; 2; 1; 8; 164; 190]) in
  seen r = Ok ([[f3_action]], [], 120)
  /\ seen (snd (sparse lib p return_f3)) = Ok ([[f3_action]], [], 120).
Proof. vm_compute. split; reflexivity. Qed.

(** ** d7a/dll/test/parser.py *)
Definition read_id_command : list Z :=
  [21; 0; 106; 32; 1; 0; 0; 0; 0; 0; 0; 0; 1; 168; 233; 0; 5; 5; 1; 0; 0; 8; 37; 218].
Definition dialog : TpControl := mkTpControl true true false true false false false.
Definition transport (a : list Action) : TpFrame :=
  mkTpFrame dialog 233 0 10 (Some (mkCT 0 5)) None (Some (mkCT 0 5)) None
            (mkCommand a None false None true false None).
Example read_id_command_frame lib :
  snd (dll_parse lib true [] read_id_command)
  = Ok (Some (DFg (mkFgFrame 21 0 (mkFgControl NOID 42) []
         (mkNpFrame (mkNpControl false false UID NLS_NONE) 1 [0; 0; 0; 0; 0; 0; 0; 1]
           (transport [regular (ReadFileData (mkDataRequest (at_start 0) (mkLength 8)))])) 9690)),
        192, 0)
  /\ calculate_crc (firstn 22 read_id_command) = (37, 218).
Proof. vm_compute. split; reflexivity. Qed.
Definition read_id_response : list Z :=
  [37; 0; 128; 0; 0; 0; 0; 0; 0; 0; 1; 32; 1; 0; 0; 0; 0; 0; 0; 0; 2; 168; 233; 0; 5; 5;
   32; 0; 0; 8; 0; 0; 0; 0; 0; 0; 0; 2].
Example read_id_response_frame lib :
  let (h, l) := calculate_crc read_id_response in
  match snd (dll_parse lib true [] (read_id_response ++ [h; l])) with
  | Ok (Some (DFg f), _, _) =>
      ff_length f = 37 /\ ff_subnet f = 0 /\ ff_control f = mkFgControl UID 0
      /\ ff_target f = [0; 0; 0; 0; 0; 0; 0; 1]
      /\ nf_control (ff_np f) = mkNpControl false false UID NLS_NONE
      /\ nf_class (ff_np f) = 1 /\ nf_origin (ff_np f) = [0; 0; 0; 0; 0; 0; 0; 2]
      /\ nf_tp (ff_np f)
         = transport [regular (ReturnFileData (mkData (at_start 0) (mkLength 8) [0; 0; 0; 0; 0; 0; 0; 2])
                                              (Some (F_Uid (mkUid 2))))]
  | _ => False
  end.
Proof. vm_compute. repeat split. Qed.
Example background_frame lib :
  snd (dll_parse lib false [] [1; 128; 0; 1; 37; 218])
  = Ok (Some (DBg (mkBgFrame 1 (mkBgControl UID 0) 1 9690)), 48, 0).
Proof. vm_compute. reflexivity. Qed.
