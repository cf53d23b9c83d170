(** Passing received commands on: vocabulary for C99. *)
From Verif Require Export SCommand.
Open Scope list_scope.
Open Scope Z_scope.

(** [Command(actions=received.actions, send_tag_response_when_completed=respond)]:
    a new command with the actions of a received one and a tag of its own *)
Definition passed_on (rnd : Z) (respond : bool) (received : Command) : res Command :=
  mk_command rnd (map Some (c_actions received)) true None respond.
(** [c] was received *)
Definition received (c : Command) : Prop := exists n s s', (pos s mod 8 = 0)%nat /\ alp_parse n s = Ok (c, s').
(** the next node receives [c'] when [c] is passed on *)
Definition hop (c c' : Command) : Prop :=
  exists rnd respond d bs s', 0 <= rnd <= 255 /\ passed_on rnd respond c = Ok d /\ command_ser d = Ok bs
  /\ alp_parse (zlen bs) (stream_of bs) = Ok (c', s').
(** passed on [n] times *)
Fixpoint hops (n : nat) (c c' : Command) : Prop :=
  match n with
  | O => c' = c
  | S n => exists d, hop c d /\ hops n d c'
  end.

(** actions that can be written with their operand *)
Definition writable (a : Action) : Prop :=
  match a_op a with
  | Forward _ => False
  | WriteFileData d | ReturnFileData d _ => d_data d <> []
  | _ => True
  end.
(** the byte of an NBID addressee: it stands for an estimate of [ct_int c] devices *)
Definition nbid (c : CT) : Z := 32 * ct_exp c + ct_mant c.
Definition of_nbid (v : Z) : CT := mkCT (v / 32) (v mod 32).
(** what becomes of the byte [v] at one hop: it is read as a number of devices and
    compressed, 3 bits of exponent (a power of 4) and 5 bits of mantissa *)
Definition nbid_hop (v : Z) : Z :=
  if v <=? 31 then v else if v <=? 124 then 32 + (v + 3) / 4 else 64 + (v + 15) / 16.
Definition addr_hop (a : Addressee) : Addressee :=
  match ad_id a with
  | IdCT c => mkAddr (ad_access_class a) (ad_id_type a) (IdCT (of_nbid (nbid_hop (nbid c)))) (ad_nls a)
  | _ => a
  end.
Definition action_hop (a : Action) : Action :=
  match a_op a with
  | IndirectForward (mkIndirect f (Some x)) => mkAction (a_kind a) (IndirectForward (mkIndirect f (Some (addr_hop x))))
  | _ => a
  end.
(** actions that arrive as they were *)
Definition lasting (a : Action) : Prop :=
  writable a /\
  match a_op a with
  | IndirectForward i =>
      match ii_overload i with
      | Some x => match ad_id x with IdCT c => nbid c <= 31 \/ nbid c = 43 | _ => True end
      | None => True
      end
  | _ => True
  end.
(** where the byte of an NBID addressee ends *)
Definition nbid_end (v : Z) : Z := if v <=? 31 then v else 43.
Definition action_end (a : Action) : Action :=
  match a_op a with
  | IndirectForward (mkIndirect f (Some (mkAddr ac t (IdCT c) m))) =>
      mkAction (a_kind a) (IndirectForward (mkIndirect f (Some (mkAddr ac t (IdCT (of_nbid (nbid_end (nbid c)))) m))))
  | _ => a
  end.
