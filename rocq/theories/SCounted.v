(** Specification for C107 and C108: which headers count; good and damaged frames. *)
From Verif Require Export SReport SPrompt.
Open Scope list_scope.
Open Scope Z_scope.

(** the counter of the frame [buf] starts with, if there is a header and all
    the bytes it announces are there, whether or not the CRC is right *)
Definition header_counter (buf : list Z) : list Z :=
  match buf with
  | sync :: version :: counter :: _ :: len :: _ :: _ :: rest =>
      if (sync =? 192) && (version =? 0) && (len <=? zlen rest) then [counter] else []
  | _ => []
  end.
(** the counters of the frames a parser looked at, in order *)
Definition looked_at (rs : list Round) : list Z := flat_map (fun r => header_counter (ro_buffer r)) rs.
(** how often it looked at a frame with a complete header and payload and put
    it off, because the message in it is not complete *)
Definition put_off (r : Round) : Z :=
  match ro_out r with Waits => zlen (header_counter (ro_buffer r)) | _ => 0 end.
Definition times_put_off (rs : list Round) : Z := total put_off rs.

(** a frame the receiver takes for damaged: its CRC is not that of its payload *)
Record Hit := mkHit { h_counter : Z; h_type : Z; h_crc1 : Z; h_crc2 : Z; h_payload : list Z }.
Definition hit_bytes (d : Hit) : list Z :=
  192 :: 0 :: h_counter d :: h_type d :: zlen (h_payload d) :: h_crc1 d :: h_crc2 d :: h_payload d.
Definition hit_ok (d : Hit) : Prop :=
  Forall is_byte (hit_bytes d) /\ calculate_crc (h_payload d) <> (h_crc1 d, h_crc2 d) /\ no_c0 (tl (hit_bytes d)).
(** what arrives: frames that are accepted and frames that are not, in any order *)
Inductive Arrival := Whole (x : Sent) | Hurt (d : Hit).
Definition arrival_bytes (a : Arrival) : list Z := match a with Whole x => sent_frame x | Hurt d => hit_bytes d end.
Definition arrival_counter (a : Arrival) : Z := match a with Whole x => s_counter x | Hurt d => h_counter d end.
Definition arrival_ok (skip : bool) (a : Arrival) : Prop := match a with Whole x => sent_ok skip x | Hurt d => hit_ok d end.
Definition arriving (l : list Arrival) : list Z := flat_map arrival_bytes l.
Definition accepted (l : list Arrival) : list Sent := flat_map (fun a => match a with Whole x => [x] | Hurt _ => [] end) l.
Definition refused (l : list Arrival) : list PErr :=
  flat_map (fun a => match a with Whole _ => [] | Hurt d => [mkPErr ParseError (zlen (hit_bytes d))] end) l.
(** [rest] is the beginning of the first of the frames of [l], not all of it *)
Definition begun (l : list Arrival) (rest : list Z) : Prop :=
  match l with
  | [] => rest = []
  | a :: _ => exists missing, missing <> [] /\ arrival_bytes a = rest ++ missing
  end.
(** of the frames [l], damaged or not, [bytes] have arrived: exactly those of
    [l1] completely, [rest] belongs to the next one *)
Definition come (l : list Arrival) (bytes : list Z) (l1 : list Arrival) (rest : list Z) : Prop :=
  exists l2, l = l1 ++ l2 /\ bytes = arriving l1 ++ rest /\ begun l2 rest.
(** one call of [execute_command] while frames of the other side arrive, some
    damaged: the traffic is what the damage leaves *)
Definition exchange_hurt (x : Exchange) : Prop :=
  command_wf (x_command x) /\ command_bytes (x_command x) <= 255 /\ 0 < x_timeout x
  /\ exists l, Forall (arrival_ok false) l /\ concat (x_chunks x) = arriving l /\ x_traffic x = accepted l.
(** the frames [tr] on their way: those marked [true] arrive as they are, the
    others with a wrong CRC but the counter they were sent with *)
Inductive crossed : list bool -> list Sent -> list Arrival -> Prop :=
| crossed_nil : crossed [] [] []
| crossed_whole x good tr l : crossed good tr l -> crossed (true :: good) (x :: tr) (Whole x :: l)
| crossed_hurt x d good tr l : hit_ok d -> h_counter d = s_counter x -> crossed good tr l ->
    crossed (false :: good) (x :: tr) (Hurt d :: l).
Fixpoint marked {A} (good : list bool) (l : list A) : list A :=
  match good, l with
  | true :: g, x :: r => x :: marked g r
  | false :: g, _ :: r => marked g r
  | _, _ => []
  end.
