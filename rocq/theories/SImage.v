(** Specification for examples/write_update.py on a line that damages frames. *)
From Verif Require Export SResend SOta.
Open Scope list_scope.
Open Scope Z_scope.

(** a round: the random tag of its command, and what arrives during the call *)
Definition ImageRound := (Z * Heard)%type.
Definition image_round_ok (r : ImageRound) : Prop := 0 <= fst r <= 255 /\ heard_ok (snd r).
Definition as_round (r : ImageRound) : Z * list DeviceEvent := (fst r, as_events (snd r)).
(** the call returned what the damage left of the replies to it *)
Definition returned_left (call : Command * list Msg) (r : ImageRound) : Prop :=
  c_tag (fst call) = Some (fst r) /\ call = call_left (fst call) (snd r).
(** whichever command with the tag of the round is sent, a confirmation arrives intact *)
Definition confirmation_left (r : ImageRound) : Prop := forall c, c_tag c = Some (fst r) -> confirmed (call_left c (snd r)).
Definition confirmation_lost (r : ImageRound) : Prop := forall c, c_tag c = Some (fst r) -> ~ confirmed (call_left c (snd r)).
