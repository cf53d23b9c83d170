(** Callbacks that raise. *)
From Verif Require Export SSerial MCallback SModem.

Definition read_chunks_cb (lib : bool) (cbs : Callbacks) (r : Reader) (chunks : list (list Z)) : Reader :=
  fold_left (reader_chunk_cb lib cbs) chunks r.
(** the modem after handling [msgs] with callbacks that do not raise *)
Definition handled (m : Modem) (msgs : list (Z * Msg)) : Modem := fold_left dispatch msgs m.
(** in state [m] the message is passed to a callback, which raises *)
Definition raises_for (cbs : Callbacks) (m : Modem) (t : Z) (x : Msg) : Prop :=
  (goes m t x PCallback /\ cb_raises cbs m x = true)
  \/ (goes m t x PRebootCallback /\ rbcb_raises cbs m x = true).
(** no callback raises while [msgs] are handled from [m] on *)
Definition no_raise (cbs : Callbacks) (m : Modem) (msgs : list (Z * Msg)) : Prop :=
  forall before t x rest, msgs = before ++ (t, x) :: rest -> ~ raises_for cbs (handled m before) t x.
(** [first_raise cbs m msgs before t x rest]: the first message of [msgs] for
    which a callback raises is [x] *)
Definition first_raise (cbs : Callbacks) (m : Modem) (msgs before : list (Z * Msg)) (t : Z) (x : Msg)
  (rest : list (Z * Msg)) : Prop :=
  msgs = before ++ (t, x) :: rest /\ no_raise cbs m before /\ raises_for cbs (handled m before) t x.
