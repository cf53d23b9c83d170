(** Reading a printed text: the fields "name=value" in it, what a reader takes
    each name to mean, and when a piece of text shows a value. *)
From Coq Require Import Ascii String.
From Verif Require Import MBase MCt MSp MFs MOperands MSysFiles MAlp MDll MAsDict MPrint SAsDict.
Open Scope string_scope.
Open Scope Z_scope.

Definition prints (v : Value) : Prop := exists t, str v = Ok t.

(** ** Fields *)
Fixpoint drop_while (p : ascii -> bool) (l : list ascii) : list ascii :=
  match l with [] => [] | c :: r => if p c then drop_while p r else l end.
Fixpoint take_while (p : ascii -> bool) (l : list ascii) : list ascii :=
  match l with [] => [] | c :: r => if p c then c :: take_while p r else [] end.
Definition one_of (s : string) (c : ascii) : bool := existsb (Ascii.eqb c) (list_ascii_of_string s).
(** the name a literal announces: what follows its last comma, up to a final
    "=" (with blanks or an opening bracket after it) *)
Definition label (l : string) : option string :=
  match drop_while (one_of " ({") (rev (list_ascii_of_string l)) with
  | c :: r =>
      if Ascii.eqb c "=" then
        let name := take_while (fun c => negb (Ascii.eqb c ",")) (drop_while (one_of " ") r) in
        Some (string_of_list_ascii (drop_while (one_of " ") (rev name)))
      else None
  | [] => None
  end.
(** the named fields of a text, each with the piece that follows the name *)
Fixpoint fields (t : Text) : list (string * Seg) :=
  match t with
  | Lit l :: (x :: _) as r =>
      match label l with Some n => (n, x) :: fields r | None => fields r end
  | _ :: r => fields r
  | [] => []
  end.
(** the piece that follows a given literal *)
Fixpoint after (l : string) (t : Text) : option Seg :=
  match t with
  | Lit m :: (x :: _) as r => if String.eqb l m then Some x else after l r
  | _ :: r => after l r
  | [] => None
  end.

(** ** Meaning of the names: the attribute of that name, with these aliases *)
Definition aliases : list (string * string * string) :=
  [ ("Addressee", "ac", "access_class"); ("Offset", "file-id", "id"); ("FileIdOperand", "file-id", "file_id");
    ("FileHeaderOperand", "file-id", "file_id"); ("FileHeaderOperand", "header", "file_header");
    ("InterfaceConfiguration", "interface-id", "interface_id"); ("InterfaceConfiguration", "configuration", "interface_configuration");
    ("InterfaceStatusOperand", "interface-id", "interface_id"); ("InterfaceStatusOperand", "status", "interface_status");
    ("IndirectInterfaceOperand", "interface-file-id", "interface_file_id");
    ("IndirectInterfaceOperand", "configuration-overload", "interface_configuration_overload");
    ("AccessProfileFile", "active_specifier", "access_specifier"); ("DllStatusFile", "channel", "channel_header");
    ("FactorySettingsFile", "low rate", "bitrate_lo_rate"); ("FactorySettingsFile", "normal rate", "bitrate_normal_rate");
    ("FactorySettingsFile", "high rate", "bitrate_hi_rate") ].
Fixpoint meaning_in (l : list (string * string * string)) (cls name : string) : string :=
  match l with
  | [] => name
  | (c, n, a) :: r => if String.eqb c cls && String.eqb n name then a else meaning_in r cls name
  end.
Definition meaning (cls name : string) : string := meaning_in aliases cls name.

(** ** A piece of text shows a value: by its own text, as a hexadecimal number,
    or by the word for an enumeration member *)
Definition word_for (attribute : string) (z : Z) : option string :=
  if String.eqb attribute "channel_band" then
    (if z =? 0 then Some "OT_IMPL" else if z =? 2 then Some "433" else if z =? 3 then Some "868" else if z =? 4 then Some "915" else None)
  else if String.eqb attribute "channel_bandwidth" then
    (if z =? 0 then Some "kHz200" else if z =? 1 then Some "kHz25" else None)
  else if String.eqb attribute "mode" then
    (if z =? 0 then Some "OFF" else if z =? 1 then Some "CONT_TX" else if z =? 2 then Some "TRANSIENT_TX"
     else if z =? 3 then Some "PER_RX" else if z =? 4 then Some "PER_TX" else None)
  else None.
Definition shows (attribute : string) (v : Value) (s : Seg) : Prop :=
  match s with
  | Sub t => str v = Ok t
  | Hex z => v = PInt z
  | Lit w => exists e z, v = PMember e z /\ word_for attribute z = Some w
  | _ => False
  end.

(** The classes that print "name=value" fields, and the attributes they leave
    out (or show without a name) *)
Definition labelled : list (string * list string) :=
  [ ("SubBand", []); ("ChannelStatusIdentifier", []); ("Status", []); ("Addressee", ["nls_method"]); ("FileProperties", []);
    ("FileHeader", []); ("Offset", []); ("Data", ["offset"]); ("DataRequest", ["offset"]); ("FileIdOperand", []);
    ("FileHeaderOperand", []); ("InterfaceConfiguration", []); ("InterfaceStatusOperand", []); ("IndirectInterfaceOperand", []);
    ("TagId", []); ("UidFile", ["id"; "length"]); ("VidFile", ["id"; "length"]); ("EngineeringModeFile", ["id"; "length"]);
    ("DllConfigFile", ["rx_nf_method_parameter"; "tx_nf_method_parameter"; "id"; "length"]);
    ("DllStatusFile", ["channel_index"; "id"; "length"]); ("SecurityKeyFile", ["id"; "length"]);
    ("RootAuthenticationKeyFile", ["rfu"; "id"; "length"]); ("UserAuthenticationKeyFile", ["rfu"; "id"; "length"]);
    ("AccessProfileFile", ["id"; "length"]); ("InterfaceConfigurationFile", ["id"; "length"]);
    ("CT", ["mant"]);
    ("FirmwareVersionFile", ["d7a_protocol_version_major"; "d7a_protocol_version_minor"; "filesystem_version_major";
                             "filesystem_version_minor"; "id"; "length"]);
    ("FactorySettingsFile", ["fdev_lo_rate"; "fdev_normal_rate"; "fdev_hi_rate"; "preamble_size_lo_rate"; "preamble_size_normal_rate";
       "preamble_size_hi_rate"; "preamble_detector_size_lo_rate"; "preamble_detector_size_normal_rate";
       "preamble_detector_size_hi_rate"; "preamble_tol_lo_rate"; "preamble_tol_normal_rate"; "preamble_tol_hi_rate";
       "rssi_smoothing"; "rssi_offset"; "lora_bw"; "lora_SF"; "gaussian"; "paramp"; "id"; "length"]) ].
Fixpoint find_class (cls : string) (l : list (string * list string)) : option (list string) :=
  match l with
  | [] => None
  | (c, h) :: r => if String.eqb c cls then Some h else find_class cls r
  end.
Definition left_out (cls : string) : option (list string) := find_class cls labelled.
Definition class_name_of (v : Value) : string := match v with PObj c _ => c | _ => "" end.
Definition attributes (v : Value) : list (string * Value) := match v with PObj _ l => l | _ => [] end.

(** The objects inside a command, a status or a system file that print this way *)
Inductive Part :=
| P_CT (x : CT) | P_SubBand (x : MPhy.SubBand) | P_Csi (x : MPhy.ChannelStatusIdentifier) | P_Status (x : Status) | P_Addressee (x : Addressee)
| P_Properties (x : FileProperties) | P_Header (x : FileHeader) | P_Offset (x : Offset) | P_Data (x : Data)
| P_Request (x : DataRequest) | P_FileId (x : FileId) | P_HeaderOp (x : FileHeaderOp) | P_IfConfig (x : InterfaceConfiguration)
| P_IfStatus (x : IfStatusOp) | P_Indirect (x : IndirectOp) | P_Tag (x : TagId) | P_File (x : SysFile).
Definition part_value (p : Part) : Value :=
  match p with
  | P_CT x => o_ct x
  | P_SubBand x => o_subband x | P_Csi x => o_csi x | P_Status x => o_status x | P_Addressee x => o_addr x
  | P_Properties x => o_prop x | P_Header x => o_fh x | P_Offset x => o_offset x | P_Data x => o_data x
  | P_Request x => o_dr x | P_FileId x => o_fid x | P_HeaderOp x => o_fho x | P_IfConfig x => o_ic x
  | P_IfStatus x => o_iso x | P_Indirect x => o_indirect x | P_Tag x => o_tag x | P_File x => o_file x
  end.

(** A [PhyStatusFile] whose lists are as long as it says *)
Definition lists_long_enough (f : PhyStatusFile) : Prop :=
  ps_len f <= zlen (ps_ids f) /\ ps_len f <= zlen (ps_noise f).
(** A completed command knows whether it completed with an error. *)
Definition outcome_known (c : Command) : Prop := c_completed c = true -> c_error c <> None.

(** ** The text of a command *)
Definition state_words (c : Command) : string :=
  if c_completed c
  then match c_error c with Some true => "completed, with error" | _ => "completed, without error" end
  else "executing".
Definition action_line (t : Text) : Text := [Lit "		action: "; Sub t; Lit "
"].
Definition lines (ts : list Text) : Text :=
  match ts with [] => [] | _ => Lit "
	actions:
" :: flat_map action_line ts end.

(** The name and the operand of an operation *)
Definition op_class (o : Operation) : string := class_name_of (o_operation o).
Definition op_operand (o : Operation) : Value :=
  match o with
  | NoOperation => PNone
  | ReadFileData x => o_dr x | ReadFileHeader x => o_fid x | WriteFileData x => o_data x | WriteFileHeader x => o_fho x
  | BreakQuery x => o_query x | CreateNewFile x => o_fho x | ReturnFileData x _ => o_data x | ReturnFileHeader x => o_fho x
  | InterfaceStatus x => o_iso x | TagResponse x => o_tag x | Forward x => o_ic x | IndirectForward x => o_indirect x
  | TagRequest x => o_tag x
  end.

(** The content of a recognised system file in an answer *)
Definition recognised (a : Action) : option SysFile :=
  match a_kind a, a_op a with
  | StatusAct _, _ => None
  | _, ReturnFileData d _ => try_parse_system_file d
  | _, _ => None
  end.

(** The texts that were filled in, in order *)
Definition filled (t : Text) : list Text := flat_map (fun s => match s with Sub x => [x] | _ => [] end) t.

(** The entries "identifier=…, noise_floor=…" of a list of channels, separated
    by "; " *)
Definition text_or_nothing (v : Value) : Text := match str v with Ok t => t | Err _ => [] end.
Fixpoint channel_entries (first : bool) (l : list (MPhy.ChannelStatusIdentifier * Z)) : Text :=
  match l with
  | [] => []
  | (c, z) :: r =>
      ((if first then [] else [Lit "; "])
       ++ [Lit "identifier="; Sub (text_or_nothing (o_csi c)); Lit ", noise_floor="; Sub [Num z]]
       ++ channel_entries false r)%list
  end.
(** the name of the class of a system file, d7a/system_files/*.py *)
Definition file_class (f : SysFile) : string :=
  match f with
  | F_Uid _ => "UidFile" | F_Factory _ => "FactorySettingsFile" | F_Fw _ => "FirmwareVersionFile"
  | F_Eng _ => "EngineeringModeFile" | F_Vid _ => "VidFile" | F_PhyStatus _ => "PhyStatusFile"
  | F_DllConfig _ => "DllConfigFile" | F_DllStatus _ => "DllStatusFile" | F_SecKey _ => "SecurityKeyFile"
  | F_RootKey _ => "RootAuthenticationKeyFile" | F_UserKey _ => "UserAuthenticationKeyFile"
  | F_AccessProfile _ => "AccessProfileFile" | F_NotImpl _ _ => "NotImplementedFile"
  | F_IfConfig _ => "InterfaceConfigurationFile"
  end.
