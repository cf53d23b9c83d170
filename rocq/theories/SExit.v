(** Vocabulary for C97: programs whose callback ends the reader thread. *)
From Verif Require Export SCallback SOta SPrograms SConverse MExit.
Open Scope list_scope.
Open Scope Z_scope.

(** a connected modem with the callback, its reader running or not *)
Definition listening (s : Session) : Prop :=
  let m := r_modem (se_reader s) in m_has_cb m = true /\ m_connected m = true /\ m_skip m = false.
Definition reader_runs (s : Session) : Prop := r_alive (se_reader s) = true.
(** a message that completes the command with the tag waited for; one that
    completes another command *)
Definition completes (tag : option Z) (tx : Z * Msg) : Prop :=
  exists c, snd tx = MCmd c /\ fst tx <= 3 /\ c_completed c = true /\ c_tag c = tag.
Definition completes_other (tag : option Z) (tx : Z * Msg) : Prop :=
  exists c, snd tx = MCmd c /\ fst tx <= 3 /\ c_completed c = true /\ c_tag c <> tag.
(** the tag the modem waits for *)
Definition waits_for (s : Session) : option Z := m_tag (r_modem (se_reader s)).
Definition update_run (lib : bool) (cbs : Callbacks) (s : Session) (file : list Z) (rounds : list (Z * list DeviceEvent))
  (s' : Session) (log : list (Command * list Msg)) (st : OtaState) : Prop :=
  usable_session s /\ Forall is_byte file /\ Forall (fun r => 0 <= fst r <= 255) rounds
  /\ update_loop lib cbs s file 0 rounds = (s', log, st).
(** everything that is read up to here *)
Definition events_cb (lib : bool) (cbs : Callbacks) (s : Session) (es : list DeviceEvent) : Session :=
  fold_left (device_cb lib cbs) es s.
(** the device sends these messages, cut into these pieces *)
Definition brings (es : list DeviceEvent) (tr : list Sent) : Prop :=
  exists chunks, es = map DBytes chunks /\ Forall (sent_ok false) tr /\ concat chunks = wire tr.
