(** d7a/support/schema.py: what [Validatable.validate] accepts, and the SCHEMA
    of every class that has one.

    [validate] (schema.py:73-86) hands the attributes of the object to Cerberus
    1.1 (the version of poetry.lock), which is not part of the repository.  Its
    behaviour for the rules used here is modelled as documented:
    - "oneof_schema": exactly one schema of the list accepts the attributes;
    - an attribute that is no key of the schema is not checked
      ([allow_unknown=True]); a key without an attribute is not checked
      (no rule says "required");
    - [None] is accepted by "nullable": True whatever the other rules say, and
      refused otherwise;
    - "integer" means [isinstance(value, (int, long))], which holds for a
      [bool]; "list" means any sequence that is not a string. *)
From Coq Require Import String.
From Verif Require Import MBase MSp.
Open Scope string_scope.
Open Scope Z_scope.

(** Python values, as far as validation tells them apart.  [VSeq] is a list, a
    tuple or a [bytearray]; [VObject] an instance of a class of the library,
    [VOther] anything else (a dict, a function, …). *)
Inductive PyVal :=
| VNone
| VBool (b : bool)
| VInt (z : Z)
| VFloat
| VText (chars : list Z)
| VSeq (l : list PyVal)
| VMember (enum : string) (value : Z)
| VObject (cls : string)
| VOther.

(** The classes a class of the library is derived from (d7a/alp/*_action.py,
    d7a/alp/operations/*.py; every other class with a schema is derived from
    [Validatable] only).  Classes that are not [Validatable] are [VOther],
    except [NotImplementedFile]. *)
Definition parents (c : string) : list string :=
  if existsb (String.eqb c)
       ["RegularAction"; "ForwardAction"; "IndirectForwardAction"; "StatusAction";
        "TagRequestAction"; "TagResponseAction"]
  then ["Action"; "Validatable"]
  else if existsb (String.eqb c)
       ["NoOperation"; "ReadFileData"; "ReadFileHeader"; "WriteFileData"; "WriteFileHeader";
        "BreakQuery"; "CreateNewFile"; "ReturnFileData"; "ReturnFileHeader"; "InterfaceStatus";
        "TagResponse"; "Forward"; "IndirectForward"; "TagRequest"]
  then ["Operation"; "Validatable"]
  else if existsb (String.eqb c) ["NotImplementedFile"; "Validatable"]
  then []
  else ["Validatable"].

(** [isinstance(value, cls)] for a class of the library *)
Definition isinstance (v : PyVal) (cls : string) : bool :=
  match v with
  | VMember e _ => String.eqb e cls
  | VObject c => String.eqb c cls || existsb (String.eqb cls) (parents c)
  | _ => false
  end.

(** [==] between the values that occur in "allowed" and "allowedmembers" *)
Definition py_same (a b : PyVal) : bool :=
  match a, b with
  | VNone, VNone => true
  | VInt x, VInt y => x =? y
  | VBool x, VInt y => b2z x =? y
  | VInt x, VBool y => x =? b2z y
  | VBool x, VBool y => Bool.eqb x y
  | VMember e x, VMember f y => String.eqb e f && (x =? y)
  | _, _ => false
  end.

(** a rule set of a schema; an absent rule is [None] *)
Inductive PType := TInteger | TBoolean | TString | TList.
Inductive Rule := mkRule
  { r_type : option PType;
    r_nullable : bool;
    r_min : option Z;
    r_max : option Z;
    r_allowed : option (list PyVal);
    r_isinstance : option string;
    r_members : option (list PyVal);
    r_schema : option Rule;            (* of the elements of a list *)
    r_minlength : option Z;
    r_maxlength : option Z }.

(** ** [Types], schema.py:88-155 *)

(** schema.py:89-93 (never called with a value) *)
Definition BOOLEAN : Rule :=
  mkRule (Some TBoolean) false None None None None None None None None.
(** schema.py:95-97 *)
Definition BYTE : Rule :=
  mkRule (Some TInteger) false (Some 0) (Some 255) None None None None None None.
(** schema.py:99-105 *)
Definition STRING (maxlength : Z) : Rule :=
  mkRule (Some TString) false None None None None None None None (Some maxlength).
(** a rule written out in ct.py:46-47 and in schema.py:111 *)
Definition PLAIN_INTEGER (lo hi : Z) : Rule :=
  mkRule (Some TInteger) false (Some lo) (Some hi) None None None None None None.
(** schema.py:107-112 *)
Definition BYTES : Rule :=
  mkRule (Some TList) false None None None None None (Some (PLAIN_INTEGER 0 255)) None None.
(** schema.py:114-118 *)
Definition OBJECT (clazz : option string) (nullable : bool) : Rule :=
  mkRule None nullable None None None clazz None None None None.
(** schema.py:120-128 *)
Definition INTEGER (values : option (list PyVal)) (min max : option Z) : Rule :=
  mkRule (Some TInteger)
         (match values with Some l => existsb (py_same VNone) l | None => false end)
         min max values None None None None None.
(** schema.py:130-134: the argument [nullable] is ignored *)
Definition ENUM (type : string) (allowedvalues : option (list PyVal)) : Rule :=
  mkRule None false None None None (Some type) allowedvalues None None None.
(** schema.py:140-143: [math.pow(2, length) - 1] is a float, exact up to 53
    bits and 2^length beyond *)
Definition BITS (length : Z) : Rule :=
  mkRule (Some TInteger) false (Some 0)
         (Some (if length <=? 53 then 2 ^ length - 1 else 2 ^ length))
         None None None None None None.
(** schema.py:145-155 *)
Definition LIST (type : option string) (minlength : Z) (maxlength : option Z) : Rule :=
  mkRule (Some TList) false None None None None None
         (match type with
          | Some c => Some (mkRule None false None None None (Some c) None None None None)
          | None => None
          end)
         (Some minlength) maxlength.

(** ** Validation of a value *)

(** the "type" rule *)
Definition has_type (t : PType) (v : PyVal) : bool :=
  match t, v with
  | TInteger, VInt _ => true
  | TInteger, VBool _ => true
  | TBoolean, VBool _ => true
  | TString, VText _ => true
  | TList, VSeq _ => true
  | _, _ => false
  end.
(** the number compared by "min" and "max" *)
Definition number (v : PyVal) : Z :=
  match v with VInt z => z | VBool b => b2z b | _ => 0 end.
(** [len(value)], for "minlength" and "maxlength" *)
Definition size (v : PyVal) : Z :=
  match v with VText l => zlen l | VSeq l => zlen l | _ => 0 end.
Definition if_given {A} (o : option A) (f : A -> bool) : bool :=
  match o with Some x => f x | None => true end.

(** all the rules of a rule set; [_validate_isinstance] and
    [_validate_allowedmembers] are schema.py:35-46 *)
Fixpoint accepts (r : Rule) (v : PyVal) : bool :=
  match v with
  | VNone => r_nullable r
  | _ =>
      if_given (r_type r) (fun t => has_type t v)
      && if_given (r_min r) (fun m => m <=? number v)
      && if_given (r_max r) (fun m => number v <=? m)
      && if_given (r_allowed r) (existsb (fun x => py_same v x))
      && if_given (r_isinstance r) (isinstance v)
      && if_given (r_members r) (existsb (fun x => py_same v x))
      && match r_schema r with
         | Some e => match v with VSeq l => forallb (accepts e) l | _ => true end
         | None => true
         end
      && if_given (r_minlength r) (fun m => m <=? size v)
      && if_given (r_maxlength r) (fun m => size v <=? m)
  end.

(** ** Validation of an object *)
Definition Schema := list (string * Rule).
Fixpoint rule_for (s : Schema) (key : string) : option Rule :=
  match s with
  | [] => None
  | (k, r) :: rest => if String.eqb key k then Some r else rule_for rest key
  end.

(** one schema of the list: the attributes that have a rule satisfy it *)
Definition schema_accepts (s : Schema) (attrs : list (string * PyVal)) : bool :=
  forallb (fun a => if_given (rule_for s (fst a)) (fun r => accepts r (snd a))) attrs.

(** Validatable.validate, schema.py:73-86; [false] stands for the
    [ValueError] *)
Definition validate (schemas : list Schema) (attrs : list (string * PyVal)) : bool :=
  Nat.eqb (length (filter (fun s => schema_accepts s attrs) schemas)) 1.

(** A class: its SCHEMA, and the attributes its constructor sets before it
    validates, in the order of the assignments.  Attributes that no schema of
    the library names are left out ([id] and [length] of the files, the other
    flags of a [Command]).  Actions also have the properties [op] and
    [operand] (action.py:49-55). *)
Record ClassDef := mkClass { cd_name : string; cd_schema : list Schema; cd_attrs : list string }.
Definition construct (c : ClassDef) (values : list PyVal) : bool :=
  validate (cd_schema c) (combine (cd_attrs c) values).

(** d7a/alp/action.py:39-43, attributes 45 *)
Definition C_Action : ClassDef := mkClass "Action"
  [ [ ("op", BITS 6);
     ("operation", OBJECT (Some "Operation") false);
     ("operand", OBJECT None true) ] ]
  ["op"; "operation"; "operand"].
(** d7a/alp/command.py:60-63, attributes 65 *)
Definition C_Command : ClassDef := mkClass "Command"
  [ [ ("actions", LIST (Some "Action") 0 None);
     ("interface_status", OBJECT (Some "StatusAction") true) ] ]
  ["actions"; "interface_status"].
(** d7a/alp/forward_action.py:32-37, attributes 39 *)
Definition C_ForwardAction : ClassDef := mkClass "ForwardAction"
  [ [ ("resp", BOOLEAN);
     ("op", BITS 6);
     ("operation", OBJECT (Some "Forward") false);
     ("operand", OBJECT (Some "InterfaceConfiguration") false) ] ]
  ["resp"; "op"; "operation"; "operand"].
(** d7a/alp/indirect_forward_action.py:32-38, attributes 40 *)
Definition C_IndirectForwardAction : ClassDef := mkClass "IndirectForwardAction"
  [ [ ("overload", BOOLEAN);
     ("resp", BOOLEAN);
     ("op", BITS 6);
     ("operation", OBJECT (Some "IndirectForward") false);
     ("operand", OBJECT (Some "IndirectInterfaceOperand") false) ] ]
  ["overload"; "resp"; "op"; "operation"; "operand"].
(** d7a/alp/regular_action.py:33-39, attributes 41 *)
Definition C_RegularAction : ClassDef := mkClass "RegularAction"
  [ [ ("group", BOOLEAN);
     ("resp", BOOLEAN);
     ("op", BITS 6);
     ("operation", OBJECT (Some "Operation") false);
     ("operand", OBJECT None true) ] ]
  ["group"; "resp"; "op"; "operation"; "operand"].
(** d7a/alp/status_action.py:42-46, attributes 48 *)
Definition C_StatusAction : ClassDef := mkClass "StatusAction"
  [ [ ("status_operand_extension", INTEGER (Some [VInt 0; VInt 1]) None None);
     ("operation", OBJECT (Some "Operation") false);
     ("operand", OBJECT None true) ] ]
  ["status_operand_extension"; "op"; "operation"; "operand"].
(** d7a/alp/tag_request_action.py:30-35, attributes 37 *)
Definition C_TagRequestAction : ClassDef := mkClass "TagRequestAction"
  [ [ ("respond_when_completed", BOOLEAN);
     ("op", BITS 6);
     ("operation", OBJECT (Some "Operation") false);
     ("operand", OBJECT None true) ] ]
  ["respond_when_completed"; "op"; "operation"; "operand"].
(** d7a/alp/tag_response_action.py:30-36, attributes 38 *)
Definition C_TagResponseAction : ClassDef := mkClass "TagResponseAction"
  [ [ ("eop", BOOLEAN);
     ("error", BOOLEAN);
     ("op", BITS 6);
     ("operation", OBJECT (Some "Operation") false);
     ("operand", OBJECT None true) ] ]
  ["eop"; "error"; "op"; "operation"; "operand"].
(** d7a/alp/operands/file.py:34-38, attributes 40 *)
Definition C_Data : ClassDef := mkClass "Data"
  [ [ ("offset", OBJECT (Some "Offset") false);
     ("length", OBJECT (Some "Length") false);
     ("data", BYTES) ] ]
  ["offset"; "data"; "length"].
(** d7a/alp/operands/file.py:66-69, attributes 71 *)
Definition C_DataRequest : ClassDef := mkClass "DataRequest"
  [ [ ("offset", OBJECT (Some "Offset") false);
     ("length", OBJECT (Some "Length") false) ] ]
  ["offset"; "length"].
(** d7a/alp/operands/file.py:86-88, attributes 90 *)
Definition C_FileIdOperand : ClassDef := mkClass "FileIdOperand"
  [ [ ("file_id", BYTE) ] ]
  ["file_id"].
(** d7a/alp/operands/file_header.py:30-33, attributes 35 *)
Definition C_FileHeaderOperand : ClassDef := mkClass "FileHeaderOperand"
  [ [ ("file_id", BYTE);
     ("file_header", OBJECT (Some "FileHeader") false) ] ]
  ["file_id"; "file_header"].
(** d7a/alp/operands/indirect_interface_operand.py:32-35, attributes 37 *)
Definition C_IndirectInterfaceOperand : ClassDef := mkClass "IndirectInterfaceOperand"
  [ [ ("interface_file_id", INTEGER None (Some 0) (Some 255));
     ("interface_configuration_overload", OBJECT (Some "Addressee") true) ] ]
  ["interface_file_id"; "interface_configuration_overload"].
(** d7a/alp/operands/interface_configuration.py:29-32, attributes 34 *)
Definition C_InterfaceConfiguration : ClassDef := mkClass "InterfaceConfiguration"
  [ [ ("interface_id", ENUM "InterfaceType" None);
     ("interface_configuration", OBJECT (Some "Validatable") true) ] ]
  ["interface_id"; "interface_configuration"].
(** d7a/alp/operands/interface_status.py:30-33, attributes 35 *)
Definition C_InterfaceStatusOperand : ClassDef := mkClass "InterfaceStatusOperand"
  [ [ ("interface_id", BYTE);
     ("interface_status", OBJECT (Some "Status") true) ] ]
  ["interface_id"; "interface_status"].
(** d7a/alp/operands/length.py:31-35, attributes 37 *)
Definition C_Length : ClassDef := mkClass "Length"
  [ [ ("value", INTEGER None (Some 0) (Some 1073741823)) ] ]
  ["value"].
(** d7a/alp/operands/lorawan_interface_configuration_abp.py:31-41, attributes 43 *)
Definition C_LoRaWANInterfaceConfigurationABP : ClassDef := mkClass "LoRaWANInterfaceConfigurationABP"
  [ [  ] ]
  ["adr_enabled"; "request_ack"; "app_port"; "data_rate"; "dev_addr"; "netw_id"].
(** d7a/alp/operands/lorawan_interface_configuration_otaa.py:31-40, attributes 42 *)
Definition C_LoRaWANInterfaceConfigurationOTAA : ClassDef := mkClass "LoRaWANInterfaceConfigurationOTAA"
  [ [  ] ]
  ["adr_enabled"; "request_ack"; "app_port"; "data_rate"].
(** d7a/alp/operands/offset.py:32-37, attributes 39 *)
Definition C_Offset : ClassDef := mkClass "Offset"
  [ [ ("id", BYTE);
     ("offset", OBJECT (Some "Length") false) ] ]
  ["id"; "offset"].
(** d7a/alp/operands/query.py:47-50, attributes 52 *)
Definition C_ArithQueryParams : ClassDef := mkClass "ArithQueryParams"
  [ [ ("signed_data_type", BOOLEAN);
     ("comp_type", OBJECT (Some "ArithComparisonType") false) ] ]
  ["signed_data_type"; "comp_type"].
(** d7a/alp/operands/query.py:70-77, attributes 79 *)
Definition C_QueryOperand : ClassDef := mkClass "QueryOperand"
  [ [ ("type", ENUM "QueryType" None);
     ("mask_present", BOOLEAN);
     ("params", OBJECT (Some "ArithQueryParams") false);
     ("compare_length", OBJECT (Some "Length") false);
     ("compare_value", BYTES);
     ("file_a_offset", OBJECT (Some "Offset") false) ] ]
  ["type"; "mask_present"; "params"; "compare_length"; "compare_value"; "file_a_offset"].
(** d7a/alp/operands/tag_id.py:29-31, attributes 33 *)
Definition C_TagId : ClassDef := mkClass "TagId"
  [ [ ("tag_id", BYTE) ] ]
  ["tag_id"].
(** d7a/d7anp/addressee.py:60-89, attributes 101 *)
Definition C_Addressee : ClassDef := mkClass "Addressee"
  [ [ ("id_type", ENUM "IdType" (Some [VMember "IdType" (idtype_value NBID)]));
     ("nls_method", ENUM "NlsMethod" None);
     ("access_class", BYTE);
     ("id", OBJECT (Some "CT") false) ];
    [ ("id_type", ENUM "IdType" (Some [VMember "IdType" (idtype_value NOID)]));
     ("nls_method", ENUM "NlsMethod" None);
     ("access_class", BYTE);
     ("id", INTEGER (Some [VNone]) None None) ];
    [ ("id_type", ENUM "IdType" (Some [VMember "IdType" (idtype_value VID)]));
     ("nls_method", ENUM "NlsMethod" None);
     ("access_class", BYTE);
     ("id", INTEGER None (Some 0) (Some 65535)) ];
    [ ("id_type", ENUM "IdType" (Some [VMember "IdType" (idtype_value UID)]));
     ("nls_method", ENUM "NlsMethod" None);
     ("access_class", BYTE);
     ("id", INTEGER None (Some 0) (Some 18446744073709551615)) ] ]
  ["id_type"; "access_class"; "id"; "nls_method"].
(** d7a/d7anp/control.py:29-34, attributes 36 *)
Definition C_d7anp_Control : ClassDef := mkClass "d7anp.Control"
  [ [ ("has_no_origin_access_id", BOOLEAN);
     ("has_hopping", BOOLEAN);
     ("origin_id_type", ENUM "IdType" (Some [VMember "IdType" (idtype_value UID); VMember "IdType" (idtype_value VID); VMember "IdType" (idtype_value NOID); VMember "IdType" (idtype_value NBID)]));
     ("nls_method", ENUM "NlsMethod" None) ] ]
  ["has_no_origin_access_id"; "nls_method"; "has_hopping"; "origin_id_type"].
(** d7a/d7anp/frame.py:31-36, attributes 38 *)
Definition C_d7anp_Frame : ClassDef := mkClass "d7anp.Frame"
  [ [ ("control", OBJECT (Some "d7anp.Control") false);
     ("origin_access_class", BYTE);
     ("origin_access_id", BYTES);
     ("d7atp_frame", OBJECT (Some "d7atp.Frame") false) ] ]
  ["control"; "origin_access_class"; "origin_access_id"; "d7atp_frame"].
(** d7a/d7atp/control.py:28-36, attributes 38 *)
Definition C_d7atp_Control : ClassDef := mkClass "d7atp.Control"
  [ [ ("is_dialog_start", BOOLEAN);
     ("has_tl", BOOLEAN);
     ("has_te", BOOLEAN);
     ("is_ack_requested", BOOLEAN);
     ("is_ack_not_void", BOOLEAN);
     ("is_ack_record_requested", BOOLEAN);
     ("has_agc", BOOLEAN) ] ]
  ["is_dialog_start"; "has_tl"; "has_te"; "is_ack_requested"; "is_ack_not_void"; "is_ack_record_requested"; "has_agc"].
(** d7a/d7atp/frame.py:33-43, attributes 45 *)
Definition C_d7atp_Frame : ClassDef := mkClass "d7atp.Frame"
  [ [ ("control", OBJECT (Some "d7atp.Control") false);
     ("dialog_id", INTEGER None (Some 0) (Some 255));
     ("transaction_id", INTEGER None (Some 0) (Some 255));
     ("agc_rx_level_i", INTEGER None (Some 0) (Some 31));
     ("tl", OBJECT (Some "CT") true);
     ("te", OBJECT (Some "CT") true);
     ("tc", OBJECT (Some "CT") true);
     ("ack_template", OBJECT None true);
     ("alp_command", OBJECT (Some "Command") false) ] ]
  ["control"; "dialog_id"; "transaction_id"; "agc_rx_level_i"; "tl"; "te"; "tc"; "ack_template"; "alp_command"].
(** d7a/dll/access_profile.py:45-49, attributes 51 *)
Definition C_AccessProfile : ClassDef := mkClass "AccessProfile"
  [ [ ("channel_header", OBJECT (Some "ChannelHeader") false);
     ("sub_profiles", LIST (Some "SubProfile") 4 (Some 4));
     ("sub_bands", LIST (Some "SubBand") 0 (Some 8)) ] ]
  ["channel_header"; "sub_profiles"; "sub_bands"].
(** d7a/dll/background_frame.py:34-39, attributes 41 *)
Definition C_BackgroundFrame : ClassDef := mkClass "BackgroundFrame"
  [ [ ("subnet", BYTE);
     ("control", OBJECT (Some "BackgroundFrameControl") false);
     ("payload", BITS 16);
     ("crc16", BITS 16) ] ]
  ["subnet"; "control"; "payload"; "crc16"].
(** d7a/dll/background_frame_control.py:29-32, attributes 34 *)
Definition C_BackgroundFrameControl : ClassDef := mkClass "BackgroundFrameControl"
  [ [ ("id_type", ENUM "IdType" None);
     ("tag", INTEGER None (Some 0) (Some 63)) ] ]
  ["id_type"; "tag"].
(** d7a/dll/foreground_frame.py:34-41, attributes 43 *)
Definition C_ForegroundFrame : ClassDef := mkClass "ForegroundFrame"
  [ [ ("length", BYTE);
     ("subnet", BYTE);
     ("control", OBJECT (Some "ForegroundFrameControl") false);
     ("target_address", BYTES);
     ("d7anp_frame", OBJECT (Some "d7anp.Frame") false);
     ("crc16", BITS 16) ] ]
  ["length"; "subnet"; "control"; "target_address"; "d7anp_frame"; "crc16"].
(** d7a/dll/foreground_frame_control.py:29-32, attributes 34 *)
Definition C_ForegroundFrameControl : ClassDef := mkClass "ForegroundFrameControl"
  [ [ ("id_type", ENUM "IdType" None);
     ("eirp_index", INTEGER None (Some 0) (Some 63)) ] ]
  ["id_type"; "eirp_index"].
(** d7a/dll/sub_profile.py:32-35, attributes 37 *)
Definition C_SubProfile : ClassDef := mkClass "SubProfile"
  [ [ ("subband_bitmap", BYTE);
     ("scan_automation_period", OBJECT (Some "CT") false) ] ]
  ["subband_bitmap"; "scan_automation_period"].
(** d7a/fs/file_header.py:32-39, attributes 41 *)
Definition C_FileHeader : ClassDef := mkClass "FileHeader"
  [ [ ("permissions", OBJECT (Some "FilePermissions") false);
     ("properties", OBJECT (Some "FileProperties") false);
     ("alp_command_file_id", BYTE);
     ("interface_file_id", BYTE);
     ("file_size", INTEGER None (Some 0) (Some 4294967295));
     ("allocated_size", INTEGER None (Some 0) (Some 4294967295)) ] ]
  ["permissions"; "properties"; "alp_command_file_id"; "interface_file_id"; "file_size"; "allocated_size"].
(** d7a/fs/file_permissions.py:28-37, attributes 39 *)
Definition C_FilePermissions : ClassDef := mkClass "FilePermissions"
  [ [ ("encrypted", BOOLEAN);
     ("executable", BOOLEAN);
     ("user_readable", BOOLEAN);
     ("user_writable", BOOLEAN);
     ("user_executable", BOOLEAN);
     ("guest_readable", BOOLEAN);
     ("guest_writable", BOOLEAN);
     ("guest_executable", BOOLEAN) ] ]
  ["encrypted"; "executable"; "user_readable"; "user_writeable"; "user_executeable"; "guest_readable"; "guest_writeable"; "guest_executeable"].
(** d7a/fs/file_properties.py:44-48, attributes 50 *)
Definition C_FileProperties : ClassDef := mkClass "FileProperties"
  [ [ ("act_enabled", BOOLEAN);
     ("act_cond", ENUM "ActionCondition" None);
     ("storage_class", ENUM "StorageClass" None) ] ]
  ["act_enabled"; "act_condition"; "storage_class"].
(** d7a/phy/channel_header.py:84-88, attributes 90 *)
Definition C_ChannelHeader : ClassDef := mkClass "ChannelHeader"
  [ [ ("channel_coding", ENUM "ChannelCoding" None);
     ("channel_class", ENUM "ChannelClass" None);
     ("channel_band", ENUM "ChannelBand" None) ] ]
  ["channel_coding"; "channel_class"; "channel_band"].
(** d7a/phy/channel_id.py:32-35, attributes 37 *)
Definition C_ChannelID : ClassDef := mkClass "ChannelID"
  [ [ ("channel_header", OBJECT (Some "ChannelHeader") false);
     ("channel_index", INTEGER None (Some 0) (Some 65535)) ] ]
  ["channel_header"; "channel_index"].
(** d7a/phy/channel_status_identifier.py:39-43, attributes 45 *)
Definition C_ChannelStatusIdentifier : ClassDef := mkClass "ChannelStatusIdentifier"
  [ [ ("channel_band", ENUM "ChannelBand" None);
     ("channel_bandwidth", ENUM "Bandwidth" None);
     ("channel_index", INTEGER None (Some 0) (Some 1039)) ] ]
  ["channel_band"; "channel_bandwidth"; "channel_index"].
(** d7a/phy/subband.py:33-39, attributes 41 *)
Definition C_SubBand : ClassDef := mkClass "SubBand"
  [ [ ("channel_index_start", INTEGER None (Some 0) (Some 65535));
     ("channel_index_end", INTEGER None (Some 0) (Some 65535));
     ("eirp", INTEGER None (Some (-128)) (Some 127));
     ("cca", INTEGER None (Some 0) (Some 255));
     ("duty", INTEGER None (Some 0) (Some 255)) ] ]
  ["channel_index_start"; "channel_index_end"; "eirp"; "cca"; "duty"].
(** d7a/sp/configuration.py:39-43, attributes 45 *)
Definition C_Configuration : ClassDef := mkClass "Configuration"
  [ [ ("qos", OBJECT (Some "QoS") false);
     ("dorm_to", OBJECT (Some "CT") false);
     ("addressee", OBJECT (Some "Addressee") false) ] ]
  ["qos"; "dorm_to"; "addressee"].
(** d7a/sp/qos.py:43-48, attributes 50 *)
Definition C_QoS : ClassDef := mkClass "QoS"
  [ [ ("stop_on_err", BOOLEAN);
     ("record", BOOLEAN);
     ("resp_mod", ENUM "ResponseMode" None);
     ("retry_mod", ENUM "RetryMode" None) ] ]
  ["resp_mod"; "retry_mod"; "stop_on_err"; "record"].
(** d7a/sp/status.py:56-69, attributes 71 *)
Definition C_Status : ClassDef := mkClass "Status"
  [ [ ("channel_id", OBJECT (Some "ChannelID") false);
     ("rx_level", BYTE);
     ("link_budget", BYTE);
     ("target_rx_level", BYTE);
     ("nls", BOOLEAN);
     ("missed", BOOLEAN);
     ("retry", BOOLEAN);
     ("ucast", BOOLEAN);
     ("fifo_token", BYTE);
     ("seq_nr", BYTE);
     ("response_to", OBJECT (Some "CT") false);
     ("addressee", OBJECT (Some "Addressee") false) ] ]
  ["channel_id"; "rx_level"; "link_budget"; "target_rx_level"; "nls"; "missed"; "retry"; "unicast"; "fifo_token"; "seq_nr"; "response_to"; "addressee"].
(** d7a/system_files/access_profile.py:31-34, attributes 36 *)
Definition C_AccessProfileFile : ClassDef := mkClass "AccessProfileFile"
  [ [ ("access_specifier", INTEGER None (Some 0) (Some 14));
     ("access_profile", OBJECT (Some "AccessProfile") true) ] ]
  ["access_specifier"; "access_profile"].
(** d7a/system_files/dll_config.py:32-38, attributes 40 *)
Definition C_DllConfigFile : ClassDef := mkClass "DllConfigFile"
  [ [ ("active_access_class", INTEGER None (Some 0) (Some 255));
     ("LQ_filter", INTEGER None (Some 0) (Some 255));
     ("NF_CTRL", INTEGER None (Some 0) (Some 255));
     ("RX_NF_method_parameter", INTEGER None (Some 0) (Some 255));
     ("TX_NF_method_parameter", INTEGER None (Some 0) (Some 255)) ] ]
  ["active_access_class"; "lq_filter"; "nf_ctrl"; "rx_nf_method_parameter"; "tx_nf_method_parameter"].
(** d7a/system_files/dll_status.py:33-42, attributes 44 *)
Definition C_DllStatusFile : ClassDef := mkClass "DllStatusFile"
  [ [ ("last_rx_packet_level", INTEGER None (Some 0) (Some 255));
     ("last_rx_packet_link_budget", INTEGER None (Some 0) (Some 255));
     ("noise_floor", INTEGER None (Some 0) (Some 255));
     ("channel_header", OBJECT (Some "ChannelHeader") false);
     ("channel_index", INTEGER None (Some 0) (Some 65535));
     ("scan_timeout_ratio", INTEGER None (Some 0) (Some 65535));
     ("scan_count", INTEGER None (Some 0) (Some 4294967295));
     ("scan_timeout_count", INTEGER None (Some 0) (Some 4294967295)) ] ]
  ["last_rx_packet_level"; "last_rx_packet_link_budget"; "noise_floor"; "channel_header"; "channel_index"; "scan_timeout_ratio"; "scan_count"; "scan_timeout_count"].
(** d7a/system_files/engineering_mode.py:60-66, attributes 68 *)
Definition C_EngineeringModeFile : ClassDef := mkClass "EngineeringModeFile"
  [ [ ("mode", ENUM "EngineeringModeMode" None);
     ("flags", INTEGER None (Some 0) (Some 255));
     ("timeout", INTEGER None (Some 0) (Some 255));
     ("channel_id", OBJECT (Some "ChannelID") false);
     ("eirp", INTEGER None (Some (-128)) (Some 127)) ] ]
  ["mode"; "flags"; "timeout"; "channel_id"; "eirp"].
(** d7a/system_files/factory_settings.py:34-58, attributes 60 *)
Definition C_FactorySettingsFile : ClassDef := mkClass "FactorySettingsFile"
  [ [ ("gain", INTEGER None (Some (-128)) (Some 127));
     ("rx_bw_low_rate", INTEGER None (Some 0) (Some 4294967295));
     ("rx_bw_normal_rate", INTEGER None (Some 0) (Some 4294967295));
     ("rx_bw_high_rate", INTEGER None (Some 0) (Some 4294967295));
     ("bitrate_lo_rate", INTEGER None (Some 0) (Some 4294967295));
     ("fdev_lo_rate", INTEGER None (Some 0) (Some 4294967295));
     ("bitrate_normal_rate", INTEGER None (Some 0) (Some 4294967295));
     ("fdev_normal_rate", INTEGER None (Some 0) (Some 4294967295));
     ("bitrate_hi_rate", INTEGER None (Some 0) (Some 4294967295));
     ("fdev_hi_rate", INTEGER None (Some 0) (Some 4294967295));
     ("preamble_size_lo_rate", INTEGER None (Some 0) (Some 255));
     ("preamble_size_normal_rate", INTEGER None (Some 0) (Some 255));
     ("preamble_size_hi_rate", INTEGER None (Some 0) (Some 255));
     ("preamble_detector_size_lo_rate", INTEGER None (Some 0) (Some 255));
     ("preamble_detector_size_normal_rate", INTEGER None (Some 0) (Some 255));
     ("preamble_detector_size_hi_rate", INTEGER None (Some 0) (Some 255));
     ("preamble_tol", INTEGER None (Some 0) (Some 255));
     ("rssi_smoothing", INTEGER None (Some 0) (Some 255));
     ("rssi_offset", INTEGER None (Some (-126)) (Some 125));
     ("lora_bw", INTEGER None (Some 0) (Some 4294967295));
     ("lora_SF", INTEGER None (Some 6) (Some 12));
     ("gaussian", INTEGER None (Some 0) (Some 3));
     ("paramp", INTEGER None (Some 0) (Some 65535)) ] ]
  ["gain"; "rx_bw_low_rate"; "rx_bw_normal_rate"; "rx_bw_high_rate"; "bitrate_lo_rate"; "fdev_lo_rate"; "bitrate_normal_rate"; "fdev_normal_rate"; "bitrate_hi_rate"; "fdev_hi_rate"; "preamble_size_lo_rate"; "preamble_size_normal_rate"; "preamble_size_hi_rate"; "preamble_detector_size_lo_rate"; "preamble_detector_size_normal_rate"; "preamble_detector_size_hi_rate"; "preamble_tol_lo_rate"; "preamble_tol_normal_rate"; "preamble_tol_hi_rate"; "rssi_smoothing"; "rssi_offset"; "lora_bw"; "lora_SF"; "gaussian"; "paramp"].
(** d7a/system_files/firmware_version.py:33-41, attributes 43 *)
Definition C_FirmwareVersionFile : ClassDef := mkClass "FirmwareVersionFile"
  [ [ ("d7a_protocol_version_major", INTEGER None (Some 0) (Some 255));
     ("d7a_protocol_version_minor", INTEGER None (Some 0) (Some 255));
     ("filesystem_version_major", INTEGER None (Some 0) (Some 255));
     ("filesystem_version_minor", INTEGER None (Some 0) (Some 255));
     ("application_name", STRING 6);
     ("git_sha1", STRING 7) ] ]
  ["d7a_protocol_version_major"; "d7a_protocol_version_minor"; "filesystem_version_major"; "filesystem_version_minor"; "application_name"; "git_sha1"].
(** d7a/system_files/interface_configuration.py:35-37, attributes 39 *)
Definition C_InterfaceConfigurationFile : ClassDef := mkClass "InterfaceConfigurationFile"
  [ [ ("interface_configuration", OBJECT (Some "InterfaceConfiguration") false) ] ]
  ["interface_configuration"].
(** d7a/system_files/phy_status.py:32-40, attributes 42 *)
Definition C_PhyStatusFile : ClassDef := mkClass "PhyStatusFile"
  [ [ ("up_time", INTEGER None (Some 0) (Some 4294967295));
     ("rx_time", INTEGER None (Some 0) (Some 4294967295));
     ("tx_time", INTEGER None (Some 0) (Some 4294967295));
     ("tx_duty_cycle", INTEGER None (Some 0) (Some 1000));
     ("channel_status_list_length", INTEGER None (Some 0) (Some 255));
     ("channel_status_identifier", LIST (Some "ChannelStatusIdentifier") 0 (Some 255));
     ("channel_noise_floor", LIST None 0 (Some 255)) ] ]
  ["up_time"; "rx_time"; "tx_time"; "tx_duty_cycle"; "channel_status_list_length"; "channel_status_identifier"; "channel_noise_floor"].
(** d7a/system_files/root_authentication_key.py:33-36, attributes 38 *)
Definition C_RootAuthenticationKeyFile : ClassDef := mkClass "RootAuthenticationKeyFile"
  [ [ ("key", BITS 128);
     ("rfu", BITS 192) ] ]
  ["key"; "rfu"].
(** d7a/system_files/security_key.py:33-35, attributes 37 *)
Definition C_SecurityKeyFile : ClassDef := mkClass "SecurityKeyFile"
  [ [ ("key", BITS 128) ] ]
  ["key"].
(** d7a/system_files/uid.py:32-34, attributes 37 *)
Definition C_UidFile : ClassDef := mkClass "UidFile"
  [ [ ("uid", INTEGER None (Some 0) (Some 18446744073709551615)) ] ]
  ["uid"].
(** d7a/system_files/user_authentication_key.py:33-36, attributes 38 *)
Definition C_UserAuthenticationKeyFile : ClassDef := mkClass "UserAuthenticationKeyFile"
  [ [ ("key", BITS 128);
     ("rfu", BITS 192) ] ]
  ["key"; "rfu"].
(** d7a/system_files/vid.py:32-35, attributes 38 *)
Definition C_VidFile : ClassDef := mkClass "VidFile"
  [ [ ("vid", INTEGER None (Some 0) (Some 65535));
     ("control", INTEGER None (Some 0) (Some 255)) ] ]
  ["vid"; "control"].
(** d7a/types/ct.py:45-48, attributes 50 *)
Definition C_CT : ClassDef := mkClass "CT"
  [ [ ("exp", PLAIN_INTEGER 0 7);
     ("mant", PLAIN_INTEGER 0 31) ] ]
  ["exp"; "mant"].
