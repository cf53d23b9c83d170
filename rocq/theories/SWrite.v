(** Calls on a device that may fail: the line, and what is compared. *)
From Verif Require Export MWrite SRecover SConnect.

Definition up (s : Session) : Z := sp_up (r_parser (se_reader s)).
Definition skipping (s : Session) : bool := m_skip (r_modem (se_reader s)).

(** everything an application can see of the object, now and later, except what the
    device got *)
Definition alike (s s' : Session) : Prop :=
  se_reader s = se_reader s' /\ se_uid s = se_uid s' /\ se_fw s = se_fw s'.
(** the same history on a device that never fails *)
Definition no_failure (e : WEvent) : WEvent :=
  match e with
  | WCall c t _ => WCall c t Written
  | WConnect rnd b _ => WConnect rnd b Written
  | e => e
  end.

(** what is on the line after one call: the frame, the frame (if the device had
    taken all of it before it failed), or the beginning of the frame *)
Definition piece_of (n : Z) (alp : list Z) (m : Msg) (o : Outcome) : Piece :=
  match o with
  | Written => Intact (mkSent n 1 alp m)
  | Failed k => if Nat.leb (length (frame n 1 alp)) k then Intact (mkSent n 1 alp m)
                else Damaged (firstn k (frame n 1 alp))
  end.
(** no frame can be built for the command *)
Definition cannot_send (c : Command) : Prop :=
  (exists e, command_ser c = Err e) \/ (exists alp, command_ser c = Ok alp /\ 255 < zlen alp).
(** [line n events pieces]: what [execute_command] calls put on the line when the
    counter starts at [n]; every frame that could be built takes a counter, whether
    it was written or not.  The message of an intact frame is up to its receiver. *)
Inductive line : Z -> list WEvent -> list Piece -> Prop :=
| line_nil n : line n [] []
| line_device n e r l : line n r l -> line n (WDevice e :: r) l
| line_refused n c t o r l : cannot_send c -> line n r l -> line n (WCall c t o :: r) l
| line_call n c t o alp m r l : command_ser c = Ok alp -> zlen alp <= 255 -> line (counter_after n) r l ->
    line n (WCall c t o :: r) (piece_of n alp m o :: l).
