(** The repository's own unit tests, run against the model: constructors called
    with values of the wrong type, and operations.  See VTests1.v. *)
From Coq Require Import String.
From Verif Require Import MBase MSchema MOperation.
From Verif Require MCt MPhy MSp.
Open Scope string_scope.
Open Scope Z_scope.

(** ** d7a/phy/test/channel_header.py.  "wrong" is a text. *)
Definition wrong : PyVal := VText [119; 114; 111; 110; 103].
Definition pn9 : PyVal := VMember "ChannelCoding" 0.
Definition normal_rate : PyVal := VMember "ChannelClass" 2.
Definition band_433 : PyVal := VMember "ChannelBand" 2.
Example channel_header_validation :
  construct C_ChannelHeader [pn9; normal_rate; band_433] = true
  /\ construct C_ChannelHeader [wrong; normal_rate; band_433] = false
  /\ construct C_ChannelHeader [pn9; wrong; band_433] = false
  /\ construct C_ChannelHeader [pn9; normal_rate; wrong] = false.
Proof. repeat split. Qed.

(** ** d7a/dll/test/access_profile.py, test_validation_sub_bands_type *)
Example access_profile_sub_bands_type :
  construct C_AccessProfile
    [VObject "ChannelHeader"; VSeq (repeat (VObject "SubProfile") 4); VSeq [VNone]] = false
  /\ construct C_AccessProfile
    [VObject "ChannelHeader"; VSeq (repeat (VObject "SubProfile") 4); VSeq [VObject "SubBand"]] = true.
Proof. split; reflexivity. Qed.

(** ** d7a/sp/test/configuration.py *)
Example configuration_default :
  construct C_Configuration [VObject "QoS"; VObject "CT"; VObject "Addressee"] = true.
Proof. reflexivity. Qed.
Example configuration_invalid :
  construct C_Configuration [VNone; VObject "CT"; VObject "Addressee"] = false
  /\ construct C_Configuration [VObject "QoS"; VObject "CT"; VNone] = false
  /\ construct C_Configuration [VObject "QoS"; VNone; VObject "Addressee"] = false.
Proof. repeat split. Qed.
Example configuration_bad_composed_objects :
  construct C_Configuration [VObject "CT"; VObject "CT"; VObject "Addressee"] = false
  /\ construct C_Configuration [VObject "QoS"; VObject "QoS"; VObject "Addressee"] = false
  /\ construct C_Configuration [VObject "QoS"; VObject "CT"; VObject "QoS"] = false.
Proof. repeat split. Qed.

(** ** d7a/d7anp/test/addressee.py, test_invalid_id_type *)
Example addressee_invalid_id_type :
  construct C_Addressee [VInt 0; VInt 0; VNone; VMember "NlsMethod" 0] = false
  /\ construct C_Addressee [VMember "IdType" 1; VInt 0; VNone; VMember "NlsMethod" 0] = true.
Proof. split; reflexivity. Qed.

(** ** d7a/alp/operands/test/file.py, test_data_bad_offset: [Data(Data())], where
    [len(data)] is 0 *)
Example data_bad_offset :
  construct C_Data [VObject "Offset"; VObject "Data"; VObject "Length"] = false
  /\ construct C_Data [VObject "Offset"; VSeq []; VObject "Length"] = true.
Proof. split; reflexivity. Qed.

(** ** d7a/alp/test/action.py: [Action()] and [Action(Action())], whose [op] and
    [operand] are those of the inner action *)
Example action_default : construct C_Action [VInt 0; VObject "NoOperation"; VNone] = true.
Proof. reflexivity. Qed.
Example action_switches :
  construct C_RegularAction [VBool true; VBool true; VInt 0; VObject "NoOperation"; VNone] = true.
Proof. reflexivity. Qed.
Example action_bad_operation : construct C_Action [VInt 0; VObject "Action"; VNone] = false.
Proof. reflexivity. Qed.

(** ** d7a/alp/operations/test/operation.py.  [OperandX] and [OperandY] are
    classes of the test; the operation has no name of the library. *)
Definition operation_x : OpClass := mkOpClass "MyOperation" 0 (Some "OperandX").
Example missing_operand : make_operation operation_x None = Err ValueError.
Proof. reflexivity. Qed.
Example unexpected_operand :
  make_operation (mkOpClass "MyOperation" 0 None) (Some (VObject "OperandY")) = Err ValueError.
Proof. reflexivity. Qed.
Example incorrect_operand : make_operation operation_x (Some (VObject "OperandY")) = Err ValueError.
Proof. reflexivity. Qed.
Example op_property : make_operation (mkOpClass "MyOperation" 123 None) None = Ok (123, VNone).
Proof. reflexivity. Qed.
