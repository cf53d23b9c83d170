(** Specification for C76: members of enumerations. *)
From Coq Require Import String Ascii.
From Verif Require Import MBase MSchema MEnum.
Open Scope string_scope.
Open Scope Z_scope.

(** the class body of [e] declares [n = v] *)
Definition declares (e : EnumDef) (n : string) (v : Z) : Prop := In (n, v) (e_members e).
(** the names are distinct, and so are the values: no member has two names *)
Definition unambiguous (e : EnumDef) : Prop :=
  NoDup (map fst (e_members e)) /\ NoDup (map snd (e_members e)).
(** a conversion from numbers to members: it gives the member with that value, and
    raises [ValueError] for the numbers that no member has *)
Definition converts {T} (e : EnumDef) (of_number : Z -> res T) (value : T -> Z) : Prop :=
  forall v, (exists n, declares e n v) /\ (exists t, of_number v = Ok t /\ value t = v) \/
            (~ exists n, declares e n v) /\ of_number v = Err ValueError.
