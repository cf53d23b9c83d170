(** Vocabulary for C94: what the bytes of a command and of several frames determine *)
From Verif Require Export SCodec SCommand SSerial.
Open Scope list_scope.
Open Scope Z_scope.

(** what of a command is on the wire: its actions, whether it begins with a tag
    request, and if so its tag and the respond-when-completed flag *)
Definition same_on_wire (c d : Command) : Prop :=
  c_actions c = c_actions d /\ c_generate c = c_generate d
  /\ (c_generate c = true -> c_tag c = c_tag d /\ c_respond c = c_respond d).

(** frames one after the other: counter, type and payload of each *)
Definition line_bytes (l : list (Z * Z * list Z)) : list Z :=
  flat_map (fun f => match f with (c, t, p) => frame c t p end) l.
