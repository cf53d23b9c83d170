(** Vocabulary for codec specifications: what it means that an object has a
    given wire layout.  Layouts are bit strings, most significant bit first;
    they are written as concatenations of [Zbits width value]. *)
From Verif Require Export MBase.

(** serialization succeeds, yields bytes, and these bytes are exactly [l] *)
Definition emits (r : res (list Z)) (l : list bool) : Prop :=
  exists bs, r = Ok bs /\ Forall is_byte bs /\ bytes_bits bs = l.

(** parsing [l] followed by anything returns [x], consumes exactly [l] and
    leaves what follows *)
Definition accepts {A} (p : P A) (l : list bool) (x : A) : Prop :=
  forall pos rest, p (St pos (l ++ rest)) = Ok (x, St (pos + length l) rest).

(** every well-formed object is emitted with its layout and read back from it *)
Definition codec {A} (wf : A -> Prop) (layout : A -> list bool)
  (ser : A -> res (list Z)) (parse : P A) : Prop :=
  forall x, wf x -> emits (ser x) (layout x) /\ accepts parse (layout x) x.

(** parsing [l] followed by anything fails with [e] *)
Definition rejects {A} (p : P A) (l : list bool) (e : exn) : Prop :=
  forall pos rest, p (St pos (l ++ rest)) = Err e.

(** whatever the parser returns is well-formed, and what it consumed is the
    layout of the result *)
Definition canonical {A} (wf : A -> Prop) (layout : A -> list bool) (parse : P A) : Prop :=
  forall s x s', parse s = Ok (x, s') ->
    wf x /\ bits s = layout x ++ bits s' /\ pos s' = (pos s + length (layout x))%nat.

(** the constructor [mk] accepts exactly the well-formed arguments *)
Definition in0 (hi v : Z) : Prop := 0 <= v <= hi.
