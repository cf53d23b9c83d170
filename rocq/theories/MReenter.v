(** modem/modem.py: callbacks that themselves call methods of the modem.  The
    callbacks run in the reader thread (modem.py:204-244), so does whatever they
    call.  Other application threads are not part of this model (C68). *)
From Verif Require Import MBase MAlp MSerial MModem MConnect.

(** What a callback does: return; raise; call [execute_command] (145-175) and go
    on depending on what it returned or raised; call [stop_reading] (184-187),
    which raises [RuntimeError] at line 187 because a thread cannot join itself,
    and go on (with [Raise] if it does not catch that). *)
Inductive Prog :=
| Finish
| Raise
| Exec (c : Command) (timeout : Z) (k : res (list Msg) -> Prog)
| Stop (k : Prog).
(** the two callbacks; what they do may depend on everything before *)
Record Handlers := mkHandlers { h_cb : Session -> Msg -> Prog; h_rbcb : Session -> Msg -> Prog }.

(** where the reader thread stands *)
Inductive RAt :=
| InRead                                   (* modem.py:204-206 *)
| Handling (msgs : list (Z * Msg))         (* 220: messages still to be handled *)
| InCallback (p : Prog) (msgs : list (Z * Msg))   (* 231 or 234 *)
| InWait (c : Command) (timeout : Z) (k : res (list Msg) -> Prog) (msgs : list (Z * Msg))
                                           (* 168, in a call made by a callback *)
| Ended.
(** [rw_results]: the calls of [execute_command] made by callbacks, with what
    they returned or raised *)
Record RWorld := mkRWorld
  { rw_session : Session; rw_active : bool; rw_input : list Z; rw_at : RAt;
    rw_results : list (Command * Z * res (list Msg)) }.

Definition with_reader (s : Session) (r : Reader) : Session := mkSession r (se_uid s) (se_fw s) (se_sent s).
Definition with_modem (s : Session) (m : Modem) : Session :=
  with_reader s (mkReader (r_parser (se_reader s)) m (r_alive (se_reader s))).
Definition dies (s : Session) : Session :=
  with_reader s (mkReader (r_parser (se_reader s)) (r_modem (se_reader s)) false).
(** modem.py:221-234: the callback called for a message, if any *)
Definition callback_for (h : Handlers) (s : Session) (tx : Z * Msg) : option Prog :=
  let (t, x) := tx in
  let m := r_modem (se_reader s) in
  if is_response m t x then None
  else if m_has_cb m && m_connected m && (t <=? 3) then Some (h_cb h s x)
  else if (t =? 5) && m_has_rbcb m then Some (h_rbcb h s x)
  else None.

(** A byte arrives; the reader thread goes on; the waiting loop of a call made by
    a callback ends because the time is over. *)
Inductive RLabel := RArrive (b : Z) | RGo | RTimeout.

(** modem.py:163: in skip_alp_parsing mode the timeout is 0, 146-149 *)
Definition waits_not (s : Session) (timeout : Z) : bool :=
  m_skip (r_modem (se_reader s)) || (timeout =? 0).

Definition rstep (lib : bool) (h : Handlers) (w : RWorld) (l : RLabel) : option RWorld :=
  let '(mkRWorld s a inp at_ log) := w in
  match l with
  | RArrive b => Some (mkRWorld s a (inp ++ [b]) at_ log)
  | RGo =>
      match at_ with
      | InRead =>
          match inp with
          | [] => None
          | b :: r =>
              match sparse lib (r_parser (se_reader s)) [b] with
              | (p, Ok res) =>
                  Some (mkRWorld (with_reader s (mkReader p (r_modem (se_reader s)) (r_alive (se_reader s)))) a r
                                 (Handling (pr_msgs res)) log)
              | (p, Err _) =>
                  Some (mkRWorld (with_reader s (mkReader p (r_modem (se_reader s)) false)) a r Ended log)
              end
          end
      | Handling [] => Some (mkRWorld s a inp (if a then InRead else Ended) log)   (* 204 *)
      | Handling (tx :: r) =>
          let s' := with_modem s (dispatch (r_modem (se_reader s)) tx) in
          Some (mkRWorld s' a inp (match callback_for h s tx with Some p => InCallback p r | None => Handling r end) log)
      | InCallback Finish r => Some (mkRWorld s a inp (Handling r) log)
      | InCallback Raise r => Some (mkRWorld (dies s) a inp Ended log)
      | InCallback (Stop k) r => Some (mkRWorld s false inp (InCallback k r) log)
      | InCallback (Exec c t k) r =>
          match execute s c t with
          | (s', Ok tt) =>
              if waits_not s t then Some (mkRWorld s' a inp (InCallback (k (Ok [])) r) (log ++ [(c, t, Ok [])]))
              else Some (mkRWorld s' a inp (InWait c t k r) log)
          | (s', Err e) => Some (mkRWorld s' a inp (InCallback (k (Err e)) r) (log ++ [(c, t, Err e)]))
          end
      | InWait c t k r =>
          if m_completed (r_modem (se_reader s))
          then let v := Ok (execute_result s) in Some (mkRWorld s a inp (InCallback (k v) r) (log ++ [(c, t, v)]))
          else None
      | Ended => None
      end
  | RTimeout =>
      match at_ with
      | InWait c t k r =>
          let v := Ok (execute_result s) in Some (mkRWorld s a inp (InCallback (k v) r) (log ++ [(c, t, v)]))
      | _ => None
      end
  end.
Fixpoint rrun (lib : bool) (h : Handlers) (w : RWorld) (ls : list RLabel) : option RWorld :=
  match ls with
  | [] => Some w
  | l :: r => match rstep lib h w l with Some w' => rrun lib h w' r | None => None end
  end.
(** a modem object whose reader thread is reading *)
Definition reading_world (s : Session) : RWorld := mkRWorld s true [] InRead [].
