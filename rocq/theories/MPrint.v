(** [str(x)] ([__str__]) of every object a command can contain.

    A text is a list of pieces.  How a number, a boolean, a member of an
    enumeration, a list of numbers or a dict is written out is Python's business:
    a piece only says which value is written.  The attributes of the objects are
    those of MAsDict. *)
From Coq Require Import Ascii String.
From Verif Require Import MBase MPhy MAsDict.
Open Scope string_scope.
Open Scope Z_scope.

Inductive Seg :=
| Lit (s : string)                  (* these characters *)
| Num (z : Z) | Hex (z : Z) | Pad3 (z : Z)   (* decimal, hex(), decimal with at least 3 digits *)
| Truth (b : bool)
| Member (enum : string) (value : Z)
| Chars (l : list Z)
| Nums (l : list Z)                 (* a list of numbers *)
| NoneText
| Dict (v : Value)                  (* a dict, by str() or pprint *)
| Default (cls : string)            (* no __str__: class and address *)
| Sub (t : list Seg).               (* the text of an attribute *)
Definition Text := list Seg.

(** an object with the texts of its attributes; a list with its elements *)
Inductive Tree := T (v : Value) (text : res Text) (attrs : list (string * Tree)) (elems : list Tree).
Definition value_of (t : Tree) : Value := let (v, _, _, _) := t in v.
Definition text_of (t : Tree) : res Text := let (_, x, _, _) := t in x.
Definition attrs_of (t : Tree) : list (string * Tree) := let (_, _, a, _) := t in a.
Definition elems_of (t : Tree) : list Tree := let (_, _, _, e) := t in e.
Fixpoint attr (k : string) (l : list (string * Tree)) : res Tree :=
  match l with
  | [] => Err AttributeError
  | (n, t) :: r => if String.eqb n k then Ok t else attr k r
  end.

(** the words for channels, channel_header.py:35-36, 52-57, 111,
    channel_status_identifier.py:33, 69 *)
Definition band_word (z : Z) : string :=
  match band_of z with Ok b => lstrip ["B"; "A"; "N"; "D"; "_"]%char (band_name b) | Err _ => "" end.
Definition class_word (z : Z) : string :=
  match class_of z with Ok c => class_to_char c | Err _ => "" end.
Definition coding_word (z : Z) : string :=
  match coding_of z with Ok c => coding_to_char c | Err _ => "" end.
Definition bandwidth_word (z : Z) : string := if z =? 1 then "kHz25" else "kHz200".
(** EngineeringModeMode.__str__, engineering_mode.py:51-56 *)
Definition mode_word (z : Z) : string :=
  if z =? 0 then "OFF" else if z =? 1 then "CONT_TX" else if z =? 2 then "TRANSIENT_TX"
  else if z =? 3 then "PER_RX" else if z =? 4 then "PER_TX" else "".
Inductive Word := WBand | WClass | WCoding | WBandwidth | WMode.
Definition word (w : Word) : Z -> string :=
  match w with WBand => band_word | WClass => class_word | WCoding => coding_word | WBandwidth => bandwidth_word | WMode => mode_word end.

(** ** Format strings: literal text, [{}] filled with an attribute, with [hex] of
    it, with its last digits padded, or with a word for an enumeration member *)
Inductive Item := L (s : string) | A (k : string) | AHex (k : string) | APad (k : string) | AWord (w : Word) (k : string).
Definition fill_one (attrs : list (string * Tree)) (i : Item) : res Seg :=
  match i with
  | L s => Ok (Lit s)
  | A k => let! t := attr k attrs in let! x := text_of t in Ok (Sub x)
  | AHex k => let! t := attr k attrs in
              match value_of t with PInt z => Ok (Hex z) | _ => Err TypeError end
  | APad k => let! t := attr k attrs in
              match value_of t with PInt z => Ok (Pad3 z) | _ => Err ValueError end
  | AWord f k => let! t := attr k attrs in
                 match value_of t with PMember _ z => Ok (Lit (word f z)) | _ => Err AttributeError end
  end.
Fixpoint fill (attrs : list (string * Tree)) (items : list Item) : res Text :=
  match items with
  | [] => Ok []
  | i :: r => let! s := fill_one attrs i in let! t := fill attrs r in Ok (s :: t)
  end.

(** The classes whose [__str__] is one format string *)
Definition formats : list (string * list Item) :=
  [ ("CT", [L "exp="; A "exp"; L " mant"; A "mant"]);                          (* types/ct.py:87-88 *)
    ("ChannelHeader", [AWord WBand "channel_band"; AWord WClass "channel_class"; AWord WCoding "channel_coding"]);
                                                                               (* phy/channel_header.py:110-115 *)
    ("ChannelID", [A "channel_header"; APad "channel_index"]);                 (* phy/channel_id.py:53-54 *)
    ("ChannelStatusIdentifier",                                                (* phy/channel_status_identifier.py:67-72 *)
      [L "channel_band="; AWord WBand "channel_band"; L ", channel_bandwidth="; AWord WBandwidth "channel_bandwidth";
       L ", channel_index="; A "channel_index"]);
    ("SubBand",                                                                (* phy/subband.py:70-77 *)
      [L "channel_index_start="; A "channel_index_start"; L ", channel_index_end="; A "channel_index_end";
       L ", eirp="; A "eirp"; L ", cca="; A "cca"; L ", duty="; A "duty"]);
    ("Status",                                                                 (* sp/status.py:126-141 *)
      [L "unicast="; A "unicast"; L ", nls="; A "nls"; L ", retry="; A "retry"; L ", missed="; A "missed";
       L ", fifo_token="; A "fifo_token"; L ", rx_level="; A "rx_level"; L ", seq_nr="; A "seq_nr";
       L ", target_rx_level="; A "target_rx_level"; L ", addressee="; A "addressee"; L ", response_to="; A "response_to";
       L ", link_budget="; A "link_budget"; L ", channel_id="; A "channel_id"]);
    ("Addressee", [L "ac="; A "access_class"; L ", id_type="; A "id_type"; L ", id="; A "id"]);   (* d7anp/addressee.py:148-149 *)
    ("FilePermissions", []);                                                   (* fs/file_permissions.py:78-79 *)
    ("FileProperties",                                                         (* fs/file_properties.py:72-77 *)
      [L "act_enabled="; A "act_enabled"; L ", act_condition="; A "act_condition"; L ", storage_class="; A "storage_class"]);
    ("FileHeader",                                                             (* fs/file_header.py:84-87 *)
      [L "permissions="; A "permissions"; L ", properties=("; A "properties"; L "), alp_command_file_id="; A "alp_command_file_id";
       L ", interface_file_id="; A "interface_file_id"; L ", file_size="; A "file_size"; L ", allocated_size="; A "allocated_size"]);
    ("Length", [A "value"]);                                                   (* alp/operands/length.py:71-72 *)
    ("Offset", [L "file-id="; A "id"; L ", offset="; A "offset"]);             (* offset.py:54-55 *)
    ("Data", [A "offset"; L ", length="; A "length"; L ", data="; A "data"]);  (* file.py:60-61 *)
    ("DataRequest", [A "offset"; L ", length="; A "length"]);                  (* file.py:80-81 *)
    ("FileIdOperand", [L "file-id="; A "file_id"]);                            (* file.py:97-98 *)
    ("FileHeaderOperand", [L "file-id="; A "file_id"; L ", header="; A "file_header"]);   (* file_header.py:50-51 *)
    ("InterfaceConfiguration",                                                 (* interface_configuration.py:44-45 *)
      [L "interface-id="; A "interface_id"; L ", configuration="; A "interface_configuration"]);
    ("InterfaceStatusOperand",                                                 (* interface_status.py:44-45 *)
      [L "interface-id="; A "interface_id"; L ", status="; A "interface_status"]);
    ("IndirectInterfaceOperand",                                               (* indirect_interface_operand.py:47-48 *)
      [L "interface-file-id="; A "interface_file_id"; L ", configuration-overload="; A "interface_configuration_overload"]);
    ("TagId", [L "tag_id="; A "tag_id"]);                                      (* tag_id.py:40-41 *)
    ("UidFile", [L "uid="; AHex "uid"]);                                       (* system_files/uid.py:52-53 *)
    ("VidFile", [L "vid="; AHex "vid"; L ", control="; AHex "control"]);       (* vid.py:56-57 *)
    ("FirmwareVersionFile",                                                    (* firmware_version.py:55-61, 86-87 *)
      [L "d7ap v"; A "d7a_protocol_version_major"; L "."; A "d7a_protocol_version_minor"; L ", filesystem v";
       A "filesystem_version_major"; L "."; A "filesystem_version_minor"; L ", application_name="; A "application_name";
       L ", git_sha1="; A "git_sha1"]);
    ("EngineeringModeFile",                                                    (* engineering_mode.py:100-101 *)
      [L "mode="; AWord WMode "mode"; L ", flags="; AHex "flags"; L ", timeout="; A "timeout"; L ", channel_id={";
       A "channel_id"; L "}, eirp="; A "eirp"]);
    ("DllConfigFile",                                                          (* dll_config.py:71-72: three of five *)
      [L "active_access_class="; A "active_access_class"; L ", lq_filter="; A "lq_filter"; L ", nf_ctrl="; A "nf_ctrl";
       L ", rx_nf_method_parameter, tx_nf_method_parameter"]);
    ("DllStatusFile",                                                          (* dll_status.py:88-89 *)
      [L "last_rx_packet_level="; A "last_rx_packet_level"; L ", last_rx_packet_link_budget="; A "last_rx_packet_link_budget";
       L ", noise_floor="; A "noise_floor"; L ", channel="; A "channel_header"; A "channel_index";
       L ", scan_timeout_ratio="; A "scan_timeout_ratio"; L ", scan_count="; A "scan_count";
       L ", scan_timeout_count="; A "scan_timeout_count"]);
    ("SecurityKeyFile", [L "key="; A "key"]);                                  (* security_key.py:51-52 *)
    ("RootAuthenticationKeyFile", [L "key="; A "key"]);                        (* root_authentication_key.py:57-58 *)
    ("UserAuthenticationKeyFile", [L "key="; A "key"]);                        (* user_authentication_key.py:57-58 *)
    ("AccessProfileFile",                                                      (* access_profile.py:50-51 *)
      [L "active_specifier="; A "access_specifier"; L ", access_profile="; A "access_profile"]);
    ("InterfaceConfigurationFile",                                             (* interface_configuration.py:53-54 *)
      [L "interface_configuration = "; A "interface_configuration"]);
    ("FactorySettingsFile",                                                    (* factory_settings.py:181-190 *)
      [L "gain="; A "gain"; L ", rx_bw_low_rate="; A "rx_bw_low_rate"; L ", rx_bw_normal_rate="; A "rx_bw_normal_rate";
       L ", rx_bw_high_rate="; A "rx_bw_high_rate"; L ", low rate="; A "bitrate_lo_rate"; L " : "; A "fdev_lo_rate";
       L ", normal rate="; A "bitrate_normal_rate"; L " : "; A "fdev_normal_rate"; L ", high rate="; A "bitrate_hi_rate";
       L " : "; A "fdev_hi_rate"; L ", preamble sizes "; A "preamble_size_lo_rate"; L " : "; A "preamble_size_normal_rate";
       L " : "; A "preamble_size_hi_rate"; L ", preamble detector size "; A "preamble_detector_size_lo_rate"; L " : ";
       A "preamble_detector_size_normal_rate"; L " : "; A "preamble_detector_size_hi_rate"; L " with tol ";
       A "preamble_tol_lo_rate"; L " : "; A "preamble_tol_normal_rate"; L " : "; A "preamble_tol_hi_rate";
       L ", rssi smoothing "; A "rssi_smoothing"; L " with offset "; A "rssi_offset"; L "
lora sf set to "; A "lora_bw"; L ", bw to "; A "lora_SF"; L "
gaussian set to "; A "gaussian"; L " and paramp to "; A "paramp"; L " microseconds"]) ].

(** classes printed as their dict: sp/qos.py:73-74, sp/configuration.py:56-57,
    lorawan_interface_configuration_*.py, dll/sub_profile.py:52-53,
    dll/*ground_frame.py *)
Definition dict_classes : list string :=
  ["QoS"; "Configuration"; "LoRaWANInterfaceConfigurationABP"; "LoRaWANInterfaceConfigurationOTAA"; "SubProfile";
   "ForegroundFrame"; "BackgroundFrame"].
(** Operation.__str__, alp/operations/operation.py:52-55 *)
Definition operation_classes : list string :=
  ["NoOperation"; "ReadFileData"; "ReadFileHeader"; "WriteFileData"; "WriteFileHeader"; "BreakQuery"; "CreateNewFile";
   "ReturnFileData"; "ReturnFileHeader"; "InterfaceStatus"; "TagResponse"; "Forward"; "IndirectForward"; "TagRequest"].
(** Action.__str__, alp/action.py:57-64 *)
Definition action_classes : list string :=
  ["RegularAction"; "ForwardAction"; "IndirectForwardAction"; "TagRequestAction"; "TagResponseAction"].
Definition is_none (v : Value) : bool := match v with PNone => true | _ => false end.
Definition class_of_value (v : Value) : string := match v with PObj c _ | POther c => c | _ => "" end.
Definition action_text (attrs : list (string * Tree)) : res Text :=
  let! op := attr "operation" attrs in
  if String.eqb (class_of_value (value_of op)) "ReturnFileData" then
    let! ty := attr "systemfile_type" (attrs_of op) in
    let! parsed := attr "file_data_parsed" (attrs_of op) in
    if negb (is_none (value_of ty)) && negb (is_none (value_of parsed)) then
      let! x := text_of parsed in
      Ok [Lit "Received "; Lit (class_of_value (value_of ty)); Lit " content: "; Sub x]
    else text_of op
  else text_of op.
(** StatusAction.__str__, alp/status_action.py:61-62 *)
Definition status_text (attrs : list (string * Tree)) : res Text :=
  let! op := attr "operation" attrs in
  let! operand := attr "operand" (attrs_of op) in text_of operand.
(** PhyStatusFile.__str__, phy_status.py:92-98.  The slice [[:-2]] removes the
    last "; ". *)
Definition number (t : Tree) : res Z := match value_of t with PInt z => Ok z | _ => Err TypeError end.
Fixpoint phy_list (ids noise : list Tree) (n counter : nat) : res Text :=
  match n with
  | O => Ok []
  | S m =>
      match nth_error ids counter with
      | None => Err IndexError
      | Some i =>
          let! x := text_of i in
          match nth_error noise counter with
          | None => Err IndexError
          | Some f =>
              let! y := text_of f in
              let! r := phy_list ids noise m (S counter) in
              Ok ((if Nat.eqb counter 0 then [] else [Lit "; "])
                  ++ [Lit "identifier="; Sub x; Lit ", noise_floor="; Sub y] ++ r)%list
          end
      end
  end.
Definition phy_text (attrs : list (string * Tree)) : res Text :=
  let! len := attr "channel_status_list_length" attrs in
  let! n := number len in
  let! ids := attr "channel_status_identifier" attrs in
  let! noise := attr "channel_noise_floor" attrs in
  let! l := phy_list (elems_of ids) (elems_of noise) (Z.to_nat n) 0 in
  let! head := fill attrs [L "up_time="; A "up_time"; L ", rx_time="; A "rx_time"; L ", tx_time="; A "tx_time";
                           L ", tx_duty_cycle="; A "tx_duty_cycle"; L ", channel_status_list_length=";
                           A "channel_status_list_length"] in
  Ok (head ++ [Lit ", list="; Sub (Lit "[" :: l ++ [Lit "]"])])%list.
(** AccessProfile.__str__, dll/access_profile.py:81-94 *)
Fixpoint joined (l : list Tree) : res Text :=
  match l with
  | [] => Ok []
  | t :: r => let! x := text_of t in let! y := joined r in Ok (Sub x :: y)
  end.
Definition profile_text (attrs : list (string * Tree)) : res Text :=
  let! ps := attr "sub_profiles" attrs in
  let! p := joined (elems_of ps) in
  let! bs := attr "sub_bands" attrs in
  let! b := joined (elems_of bs) in
  let! head := fill attrs [L "channel_header="; A "channel_header"] in
  Ok (head ++ [Lit ", sub_profiles="; Sub p; Lit ", sub_bands="; Sub b])%list.
(** Command.__str__, alp/command.py:342-363 *)
Fixpoint action_lines (l : list Tree) : res Text :=
  match l with
  | [] => Ok []
  | t :: r => let! x := text_of t in let! y := action_lines r in Ok (Lit "		action: " :: Sub x :: Lit "
" :: y)
  end.
Definition truth (t : Tree) : bool := match value_of t with PBool b => b | _ => false end.
Definition command_text (attrs : list (string * Tree)) : res Text :=
  let! head := fill attrs [L "Command with tag "; A "tag_id"; L " "] in
  let! done := attr "execution_completed" attrs in
  let! status := (if truth done then
                    let! err := attr "completed_with_error" attrs in
                    Ok (if truth err then "completed, with error" else "completed, without error")
                  else Ok "executing") in
  let! acts := attr "actions" attrs in
  let! lines := action_lines (elems_of acts) in
  let! st := attr "interface_status" attrs in
  let! last := (if is_none (value_of st) then Ok [] else
                  let! x := text_of st in Ok [Lit "	interface status: "; Sub x; Lit "
"]) in
  Ok (head ++ [Lit "("; Lit status; Lit ")"]
      ++ (match elems_of acts with [] => [] | _ => [Lit "
	actions:
"] end) ++ lines ++ last)%list.

(** which [__str__] a class has; [object]'s for the rest (operands of queries,
    control fields) *)
Fixpoint format_of (cls : string) (l : list (string * list Item)) : option (list Item) :=
  match l with
  | [] => None
  | (c, i) :: r => if String.eqb c cls then Some i else format_of cls r
  end.
Definition has (cls : string) (l : list string) : bool := existsb (String.eqb cls) l.
Definition method (v : Value) (cls : string) (attrs : list (string * Tree)) : res Text :=
  match format_of cls formats with
  | Some items => fill attrs items
  | None =>
      if has cls dict_classes then Ok [Dict (as_dict v)]
      else if has cls operation_classes then fill attrs [L (cls ++ ": "); A "operand"]
      else if has cls action_classes then action_text attrs
      else if String.eqb cls "StatusAction" then status_text attrs
      else if String.eqb cls "PhyStatusFile" then phy_text attrs
      else if String.eqb cls "AccessProfile" then profile_text attrs
      else if String.eqb cls "Command" then command_text attrs
      else Ok [Default cls]
  end.
Definition ints_of (l : list Value) : list Z := flat_map (fun v => match v with PInt z => [z] | _ => [] end) l.
Definition leaf (v : Value) : Text :=
  match v with
  | PNone => [NoneText]
  | PBool b => [Truth b]
  | PInt z => [Num z]
  | PText l => [Chars l]
  | PName s => [Lit s]
  | PMember e z => [Member e z]
  | PClass c | POther c => [Default c]
  | PList l => [Nums (ints_of l)]             (* lists that are printed as such hold numbers *)
  | PDict _ | PObj _ _ => [Dict v]
  end.
Fixpoint tree (v : Value) : Tree :=
  match v with
  | PObj cls attrs =>
      let subs := (fix go (l : list (string * Value)) : list (string * Tree) :=
                     match l with [] => [] | (k, x) :: r => (k, tree x) :: go r end) attrs in
      T v (method v cls subs) subs []
  | PList l => T v (Ok (leaf v)) [] (map tree l)
  | _ => T v (Ok (leaf v)) [] []
  end.
Definition str (v : Value) : res Text := text_of (tree v).
