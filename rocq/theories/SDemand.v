(** Specification for C63: the classes that constructors demand. *)
From Coq Require Import String.
From Verif Require Export MSchema SSchema.
From Coq Require Import List.
Import ListNotations.
Open Scope string_scope.

(** the class an argument of this kind has *)
Definition demanded (k : Kind) : option string :=
  match k with
  | Instance c | InstanceOrNone c => Some c
  | ListOf c _ _ => Some c
  | _ => None
  end.
(** the classes without a schema of one's own, and [Addressee], which has four *)
Definition others : list string := ["Addressee"; "Validatable"; "Operation"; "Forward"; "IndirectForward"].
