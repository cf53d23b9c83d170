(** What calls of connect() do not touch. *)
From Verif Require Export SConnect.

(** the set-up of the modem, the messages kept for the caller, the calls of the
    callbacks and the reader *)
Definition keeps_rest (s s' : Session) : Prop :=
  let m := r_modem (se_reader s) in let m' := r_modem (se_reader s') in
  m_skip m' = m_skip m /\ m_has_cb m' = m_has_cb m /\ m_has_rbcb m' = m_has_rbcb m
  /\ m_unsol m' = m_unsol m /\ m_rebooted m' = m_rebooted m
  /\ m_cb_calls m' = m_cb_calls m /\ m_rb_calls m' = m_rb_calls m /\ m_logged m' = m_logged m
  /\ r_alive (se_reader s') = r_alive (se_reader s).
(** neither the parser nor a command being executed *)
Definition keeps_all (s s' : Session) : Prop :=
  keeps_rest s s' /\ r_parser (se_reader s') = r_parser (se_reader s) /\ se_sent s' = se_sent s
  /\ execute_result s' = execute_result s /\ m_heap (r_modem (se_reader s')) = m_heap (r_modem (se_reader s))
  /\ m_resp (r_modem (se_reader s')) = m_resp (r_modem (se_reader s)) /\ m_tag (r_modem (se_reader s')) = m_tag (r_modem (se_reader s))
  /\ m_completed (r_modem (se_reader s')) = m_completed (r_modem (se_reader s)).
