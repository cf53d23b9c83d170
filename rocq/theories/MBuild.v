(** Building a command call by call: add_action, add_forward_action and
    add_indirect_forward_action, command.py:95-167, on one command object.  Each
    of them appends to [self.actions] as its last step, so a call that raises
    leaves the command as it was. *)
From Verif Require Import MBase MCt MPhy MSp MOperands MSysFiles MAlp.

Inductive Call :=
| AddAction (a : Action)
| AddForward (t : InterfaceType) (conf : option IfConfig)
| AddIndirect (file : Z) (overload : bool) (conf : option Addressee).

(** one call: the command afterwards, and the exception if it raised *)
Definition call (c : Command) (k : Call) : Command * option exn :=
  let r := match k with
           | AddAction a => Ok (add_action c a)
           | AddForward t conf => add_forward_action c t conf
           | AddIndirect file overload conf => add_indirect_forward_action c file overload conf
           end in
  match r with Ok c' => (c', None) | Err e => (c, Some e) end.
(** a sequence of calls by a program that survives the exceptions *)
Fixpoint calls (c : Command) (l : list Call) : Command * list (option exn) :=
  match l with
  | [] => (c, [])
  | k :: r => let (c1, e) := call c k in let (c2, es) := calls c1 r in (c2, e :: es)
  end.
