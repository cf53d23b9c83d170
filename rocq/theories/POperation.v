(** C75: an operation is made from the operand it is for, and from nothing else. *)
From Coq Require Import String.
From Verif Require Import MBase MOperands MSysFiles MAlp MSchema SSchema MOperation SOperation LOperation.
Open Scope string_scope.
Open Scope Z_scope.

(** Whatever is passed: the operation is made exactly when it is an object of
    the operand class (nothing, for the operation without operand), it then
    carries the code of the operation and the very object, and in every other
    case an exception is raised. *)
Theorem C75_made_from_its_operand : forall o c arg, class_of_operation o c ->
  outcome o arg (make_operation c arg).
Proof. exact made. Qed.
Print Assumptions C75_made_from_its_operand.

(** Every operation has one class, and the class can be told from the code. *)
Theorem C75_one_class_each : forall o,
  (exists c, class_of_operation o c) /\
  (forall c c', class_of_operation o c -> class_of_operation o c' -> c = c').
Proof. exact (fun o => conj (every_operation o) (one_class o)). Qed.
Print Assumptions C75_one_class_each.
Theorem C75_codes_tell_them_apart : forall o o',
  op_code o = op_code o' <-> v_operation o = v_operation o'.
Proof. exact codes_tell. Qed.
Print Assumptions C75_codes_tell_them_apart.

(** The code is in the low six bits of the first byte of every action made of
    the operation, whatever the flags, and the bytes of the operand follow. *)
Theorem C75_code_on_the_wire : forall k o a bs, mk_action k o = Ok a -> action_ser a = Ok bs ->
  exists b rest, bs = b :: rest /\ b mod 64 = op_code o /\ op_ser o = Ok rest.
Proof. exact on_the_wire. Qed.
Print Assumptions C75_code_on_the_wire.

(** Concrete cases. *)
Definition tag_request_class : OpClass := mkOpClass "TagRequest" 52 (Some "TagId").
Example C75_case :
  class_of_operation (TagRequest (mkTag 7)) tag_request_class
  /\ make_operation tag_request_class (Some (VObject "TagId")) = Ok (52, VObject "TagId")
  /\ make_operation tag_request_class (Some (VObject "Data")) = Err ValueError
  /\ make_operation tag_request_class (Some (VInt 7)) = Err ValueError
  /\ make_operation tag_request_class None = Err ValueError.
Proof. unfold class_of_operation, operation_classes. cbn. intuition auto 20. Qed.
Example C75_case_wire :
  action_ser (mkAction (TagReqAct true) (TagRequest (mkTag 7))) = Ok [180; 7] /\ 180 mod 64 = 52.
Proof. split; reflexivity. Qed.
