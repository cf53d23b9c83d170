(** Specification for C75: which operand each operation takes and what comes
    out.  The operations of the typed model (MAlp.v) say which operand goes with
    which operation; here the untyped constructor calls are compared with them. *)
From Coq Require Import String.
From Verif Require Import MBase MOperands MSysFiles MAlp MSchema SSchema MOperation.
Open Scope string_scope.
Open Scope Z_scope.

(** [c] is the class of the operation [o] *)
Definition class_of_operation (o : Operation) (c : OpClass) : Prop :=
  In c operation_classes /\ v_operation o = VObject (oc_name c).
(** the class of the operand an operation works on, by the type of its operand *)
Definition operand_class (o : Operation) : option string :=
  match v_operand o with VObject k => Some k | _ => None end.
(** the outcome of making an operation of the class of [o] from an argument *)
Definition outcome (o : Operation) (arg : option PyVal) (r : res (Z * PyVal)) : Prop :=
  match operand_class o, arg with
  | None, None => r = Ok (op_code o, VNone)
  | None, Some _ => r = Err TypeError
  | Some k, Some v => (instance_of v k /\ r = Ok (op_code o, v)) \/ (~ instance_of v k /\ r = Err ValueError)
  | Some k, None => r = Err (if op_code o =? 34 then TypeError else ValueError)
  end.
