(** Specification for the resend loop of examples/engineering_mode.py on a line that damages frames. *)
From Verif Require Export SCounted SPrograms.
Open Scope list_scope.
Open Scope Z_scope.

(** what arrives during one call: the frames, and how the reads cut them *)
Definition Heard := (list Arrival * list (list Z))%type.
Definition heard_ok (r : Heard) : Prop := Forall (arrival_ok false) (fst r) /\ concat (snd r) = arriving (fst r).
(** the call and what the damage leaves of its replies; nothing if none of them ends the execution *)
Definition call_left (c : Command) (r : Heard) : Command * list Msg := (c, expected (mkExchange c 10 (accepted (fst r)) (snd r))).
(** the call has to be repeated *)
Definition to_repeat (x : Command * list Msg) : Prop := all_tag_responses x /\ ~ confirmed x.
Definition as_events (r : Heard) : list DeviceEvent := map DBytes (snd r).
