(** Actions as an application builds them: vocabulary for C16. *)
From Verif Require Export SCommand.
Open Scope list_scope.
Open Scope Z_scope.

(** An action of the class that belongs to its operation, with operands their
    constructors accept.  A forward is built as a regular action
    ([Command.add_forward_action]); interface statuses are only received. *)
Definition buildable (a : Action) : Prop :=
  op_wf (a_op a) /\
  match a_kind a, a_op a with
  | Regular _ _, (IndirectForward _ | TagRequest _ | TagResponse _ | InterfaceStatus _) => False
  | Regular _ _, _ => True
  | IndFwdAct _ _, IndirectForward _ => True
  | TagReqAct _, TagRequest _ => True
  | TagRespAct _ _, TagResponse _ => True
  | _, _ => False
  end.
