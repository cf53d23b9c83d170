(** Specification for C63: which values the constructors accept, in plain
    terms. *)
From Coq Require Import String.
From Verif Require Import MBase MCt MPhy MSp MFs MProfile MOperands MSysFiles MAlp MSerial MDll MSchema.
Open Scope string_scope.
Open Scope Z_scope.

(** What may be stored in an attribute. *)
Inductive Kind :=
| Whole (lo hi : Z)                    (* a whole number; True and False count as 1 and 0 *)
| Flag                                 (* True or False *)
| Member (enum : string)               (* a member of the enumeration *)
| MemberOf (enum : string) (values : list Z)
| Instance (cls : string)              (* an object of the class or of a subclass *)
| InstanceOrNone (cls : string)
| Bytes                                (* a sequence of whole numbers 0..255 *)
| Text (maxlength : Z)
| ListOf (cls : string) (lo : Z) (hi : option Z)   (* lo to hi objects of the class *)
| AnyList (hi : Z)                     (* at most hi elements, whatever they are *)
| Anything.                            (* not checked at all *)

Inductive whole_number : PyVal -> Z -> Prop :=
| whole_int z : whole_number (VInt z) z
| whole_true : whole_number (VBool true) 1
| whole_false : whole_number (VBool false) 0.

(** an object of class [cls], or of a class derived from it *)
Inductive instance_of : PyVal -> string -> Prop :=
| instance_itself c : instance_of (VObject c) c
| instance_member e x : instance_of (VMember e x) e
| instance_derived c p : In p (parents c) -> instance_of (VObject c) p.

Definition allowed (k : Kind) (v : PyVal) : Prop :=
  match k with
  | Whole lo hi => exists z, whole_number v z /\ lo <= z <= hi
  | Flag => exists b, v = VBool b
  | Member e => instance_of v e
  | MemberOf e values => exists x, v = VMember e x /\ In x values
  | Instance c => instance_of v c
  | InstanceOrNone c => v = VNone \/ instance_of v c
  | Bytes => exists l, v = VSeq l
             /\ Forall (fun x => exists z, whole_number x z /\ 0 <= z <= 255) l
  | Text n => exists l, v = VText l /\ Z.of_nat (length l) <= n
  | ListOf c lo hi =>
      exists l, v = VSeq l /\ Forall (fun x => instance_of x c) l /\ lo <= Z.of_nat (length l)
                /\ match hi with Some h => Z.of_nat (length l) <= h | None => True end
  | AnyList hi => exists l, v = VSeq l /\ Z.of_nat (length l) <= hi
  | Anything => True
  end.

(** Every class with one schema, and what its attributes may be, in the order
    in which the constructor sets them. *)
Definition documented : list (ClassDef * list Kind) :=
  let byte := Whole 0 255 in
  let word := Whole 0 65535 in
  let long := Whole 0 4294967295 in
  [ (C_CT, [Whole 0 7; Whole 0 31]);
    (* channels *)
    (C_ChannelHeader, [Member "ChannelCoding"; Member "ChannelClass"; Member "ChannelBand"]);
    (C_ChannelID, [Instance "ChannelHeader"; word]);
    (C_ChannelStatusIdentifier, [Member "ChannelBand"; Member "Bandwidth"; Whole 0 1039]);
    (C_SubBand, [word; word; Whole (-128) 127; byte; byte]);
    (C_SubProfile, [byte; Instance "CT"]);
    (C_AccessProfile, [Instance "ChannelHeader"; ListOf "SubProfile" 4 (Some 4);
                       ListOf "SubBand" 0 (Some 8)]);
    (* session *)
    (C_QoS, [Member "ResponseMode"; Member "RetryMode"; Flag; Flag]);
    (C_Configuration, [Instance "QoS"; Instance "CT"; Instance "Addressee"]);
    (C_Status, [Instance "ChannelID"; byte; byte; byte; Flag; Flag; Flag; Anything; byte; byte;
                Instance "CT"; Instance "Addressee"]);
    (* operands *)
    (C_Length, [Whole 0 1073741823]);
    (C_Offset, [byte; Instance "Length"]);
    (C_Data, [Instance "Offset"; Bytes; Instance "Length"]);
    (C_DataRequest, [Instance "Offset"; Instance "Length"]);
    (C_FileIdOperand, [byte]);
    (C_FileHeaderOperand, [byte; Instance "FileHeader"]);
    (C_IndirectInterfaceOperand, [byte; InstanceOrNone "Addressee"]);
    (C_InterfaceConfiguration, [Member "InterfaceType"; InstanceOrNone "Validatable"]);
    (C_InterfaceStatusOperand, [byte; InstanceOrNone "Status"]);
    (C_LoRaWANInterfaceConfigurationABP,
       [Anything; Anything; Anything; Anything; Anything; Anything]);
    (C_LoRaWANInterfaceConfigurationOTAA, [Anything; Anything; Anything; Anything]);
    (C_ArithQueryParams, [Flag; Member "ArithComparisonType"]);
    (C_QueryOperand, [Member "QueryType"; Flag; Instance "ArithQueryParams"; Instance "Length";
                      Bytes; Instance "Offset"]);
    (C_TagId, [byte]);
    (* actions: own flags, then op, operation and operand *)
    (C_Action, [Whole 0 63; Instance "Operation"; Anything]);
    (C_RegularAction, [Flag; Flag; Whole 0 63; Instance "Operation"; Anything]);
    (C_ForwardAction, [Flag; Whole 0 63; Instance "Forward"; Instance "InterfaceConfiguration"]);
    (C_IndirectForwardAction, [Flag; Flag; Whole 0 63; Instance "IndirectForward";
                               Instance "IndirectInterfaceOperand"]);
    (C_StatusAction, [Whole 0 1; Anything; Instance "Operation"; Anything]);
    (C_TagRequestAction, [Flag; Whole 0 63; Instance "Operation"; Anything]);
    (C_TagResponseAction, [Flag; Flag; Whole 0 63; Instance "Operation"; Anything]);
    (C_Command, [ListOf "Action" 0 None; InstanceOrNone "StatusAction"]);
    (* frames *)
    (C_d7anp_Control, [Flag; Member "NlsMethod"; Flag; MemberOf "IdType" [0; 1; 2; 3]]);
    (C_d7anp_Frame, [Instance "d7anp.Control"; byte; Bytes; Instance "d7atp.Frame"]);
    (C_d7atp_Control, [Flag; Flag; Flag; Flag; Flag; Flag; Flag]);
    (C_d7atp_Frame, [Instance "d7atp.Control"; byte; byte; Whole 0 31; InstanceOrNone "CT";
                     InstanceOrNone "CT"; InstanceOrNone "CT"; Anything; Instance "Command"]);
    (C_BackgroundFrameControl, [Member "IdType"; Whole 0 63]);
    (C_BackgroundFrame, [byte; Instance "BackgroundFrameControl"; word; word]);
    (C_ForegroundFrameControl, [Member "IdType"; Whole 0 63]);
    (C_ForegroundFrame, [byte; byte; Instance "ForegroundFrameControl"; Bytes;
                         Instance "d7anp.Frame"; word]);
    (* file headers *)
    (C_FilePermissions, [Flag; Flag; Flag; Anything; Anything; Flag; Anything; Anything]);
    (C_FileProperties, [Flag; Anything; Member "StorageClass"]);
    (C_FileHeader, [Instance "FilePermissions"; Instance "FileProperties"; byte; byte; long; long]);
    (* system files *)
    (C_AccessProfileFile, [Whole 0 14; InstanceOrNone "AccessProfile"]);
    (C_DllConfigFile, [byte; Anything; Anything; Anything; Anything]);
    (C_DllStatusFile, [byte; byte; byte; Instance "ChannelHeader"; word; word; long; long]);
    (C_EngineeringModeFile, [Member "EngineeringModeMode"; byte; byte; Instance "ChannelID";
                             Whole (-128) 127]);
    (C_FactorySettingsFile,
       [Whole (-128) 127; long; long; long; long; long; long; long; long; long;
        byte; byte; byte; byte; byte; byte; Anything; Anything; Anything;
        byte; Whole (-126) 125; long; Whole 6 12; Whole 0 3; word]);
    (C_FirmwareVersionFile, [byte; byte; byte; byte; Text 6; Text 7]);
    (C_InterfaceConfigurationFile, [Instance "InterfaceConfiguration"]);
    (C_PhyStatusFile, [long; long; long; Whole 0 1000; byte;
                       ListOf "ChannelStatusIdentifier" 0 (Some 255); AnyList 255]);
    (C_RootAuthenticationKeyFile, [Whole 0 (2 ^ 128); Whole 0 (2 ^ 192)]);
    (C_UserAuthenticationKeyFile, [Whole 0 (2 ^ 128); Whole 0 (2 ^ 192)]);
    (C_SecurityKeyFile, [Whole 0 (2 ^ 128)]);
    (C_UidFile, [Whole 0 18446744073709551615]);
    (C_VidFile, [word; byte]) ].

(** An [Addressee]: the identifier must fit the identifier type. *)
Definition addressee_allowed (id_type access_class id nls : PyVal) : Prop :=
  allowed (Whole 0 255) access_class /\ allowed (Member "NlsMethod") nls
  /\ (id_type = VMember "IdType" 0 /\ allowed (Instance "CT") id            (* NBID *)
      \/ id_type = VMember "IdType" 1 /\ id = VNone                          (* NOID *)
      \/ id_type = VMember "IdType" 2 /\ allowed (Whole 0 18446744073709551615) id   (* UID *)
      \/ id_type = VMember "IdType" 3 /\ allowed (Whole 0 65535) id).        (* VID *)

(** The attributes that take any value, by class. *)
Definition unchecked : list (string * string) :=
  flat_map (fun e => map (fun a => (cd_name (fst e), fst a))
                         (filter (fun a => match snd a with Anything => true | _ => false end)
                                 (combine (cd_attrs (fst e)) (snd e))))
           documented.

(** ** The values passed by the rest of this development *)
Definition accepted {A} (r : res A) : bool := match r with Ok _ => true | Err _ => false end.
Definition v_bytes (l : list Z) : PyVal := VSeq (map VInt l).
Definition v_opt {A} (cls : string) (o : option A) : PyVal :=
  match o with Some _ => VObject cls | None => VNone end.
Definition v_list {A} (cls : string) (l : list A) : PyVal := VSeq (map (fun _ => VObject cls) l).
Definition v_addr_id (i : AddrId) : PyVal :=
  match i with IdNone => VNone | IdInt z => VInt z | IdCT _ => VObject "CT" end.
Definition v_idtype (t : IdType) : PyVal := VMember "IdType" (idtype_value t).
Definition v_nls (m : NlsMethod) : PyVal := VMember "NlsMethod" (nls_value m).
Definition v_operation (o : Operation) : PyVal :=
  VObject (match o with
  | NoOperation => "NoOperation" | ReadFileData _ => "ReadFileData"
  | ReadFileHeader _ => "ReadFileHeader" | WriteFileData _ => "WriteFileData"
  | WriteFileHeader _ => "WriteFileHeader" | BreakQuery _ => "BreakQuery"
  | CreateNewFile _ => "CreateNewFile" | ReturnFileData _ _ => "ReturnFileData"
  | ReturnFileHeader _ => "ReturnFileHeader" | InterfaceStatus _ => "InterfaceStatus"
  | TagResponse _ => "TagResponse" | Forward _ => "Forward"
  | IndirectForward _ => "IndirectForward" | TagRequest _ => "TagRequest" end).
Definition v_operand (o : Operation) : PyVal :=
  match o with
  | NoOperation => VNone | ReadFileData _ => VObject "DataRequest"
  | ReadFileHeader _ => VObject "FileIdOperand"
  | WriteFileData _ | ReturnFileData _ _ => VObject "Data"
  | WriteFileHeader _ | CreateNewFile _ | ReturnFileHeader _ => VObject "FileHeaderOperand"
  | BreakQuery _ => VObject "QueryOperand" | InterfaceStatus _ => VObject "InterfaceStatusOperand"
  | TagResponse _ | TagRequest _ => VObject "TagId" | Forward _ => VObject "InterfaceConfiguration"
  | IndirectForward _ => VObject "IndirectInterfaceOperand" end.
(** the class of an action and the attributes its constructor sets *)
Definition action_construct (k : ActKind) (o : Operation) : bool :=
  let op := VInt (op_code o) in
  let operation := v_operation o in
  let operand := v_operand o in
  match k with
  | Regular g r => construct C_RegularAction [VBool g; VBool r; op; operation; operand]
  | FwdAct r => construct C_ForwardAction [VBool r; op; operation; operand]
  | IndFwdAct v r => construct C_IndirectForwardAction [VBool v; VBool r; op; operation; operand]
  | StatusAct e => construct C_StatusAction [VInt e; op; operation; operand]
  | TagReqAct r => construct C_TagRequestAction [VBool r; op; operation; operand]
  | TagRespAct e x => construct C_TagResponseAction [VBool e; VBool x; op; operation; operand]
  end.
