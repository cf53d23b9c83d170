(** Calls on a device that may fail. *)
From Verif Require Import SWrite LWrite.

(** C83 *)
(** the call raises exactly if no frame can be built (then nothing happened) or the
    device fails *)
Theorem C83_result : forall s c timeout o, is_byte (up s) ->
  (cannot_send c -> exists e, execute_out s c timeout o = (s, Refused e))
  /\ (~ cannot_send c -> snd (execute_out s c timeout o) = match o with Written => Waits | Failed _ => DeviceError end).
Proof. exact call_result. Qed.
Print Assumptions C83_result.
(** on a device that does not fail, these are the calls of the other models *)
Theorem C83_without_failure : forall s c timeout,
  execute s c timeout = (fst (execute_out s c timeout Written),
    match snd (execute_out s c timeout Written) with Refused e => Err e | _ => Ok tt end).
Proof. exact call_written. Qed.
Print Assumptions C83_without_failure.
Theorem C83_connect_without_failure : forall rnd check s,
  connect_begin rnd check s = (fst (connect_out rnd check s Written),
    match snd (connect_out rnd check s Written) with
    | CReturned v => Returned v | CRaised e => Raised e | CWaits => Waiting | CDeviceError => Waiting end)
  /\ snd (connect_out rnd check s Written) <> CDeviceError.
Proof. exact connect_written. Qed.
Print Assumptions C83_connect_without_failure.
Theorem C83_history_without_failure : forall lib s e, wstep lib s (no_failure e) =
  match e with
  | WDevice d => device lib s d
  | WCall c t _ => fst (execute s c t)
  | WConnect rnd b _ => fst (connect_begin rnd b s)
  | WConnectEnd => fst (connect_end s)
  end.
Proof. exact step_written. Qed.
Print Assumptions C83_history_without_failure.
(** a failure changes nothing but the bytes on the line: whatever happens before and
    after, the object is as if the device had never failed *)
Theorem C83_same_state : forall lib events s, alike (wrun lib s events) (wrun lib s (map no_failure events)).
Proof. exact run_alike. Qed.
Print Assumptions C83_same_state.
Theorem C83_same_answers : forall s s', alike s s' ->
  execute_result s = execute_result s' /\ snd (connect_end s) = snd (connect_end s').
Proof. exact alike_answers. Qed.
Print Assumptions C83_same_answers.
(** the line: frames with consecutive counters, some of them cut *)
Theorem C83_line : forall lib n events pieces, line n events pieces -> forall s, is_byte n -> up s = n ->
  se_sent (wrun lib s events) = se_sent s ++ on_line pieces.
Proof. exact run_line. Qed.
Print Assumptions C83_line.
(** the peer gets exactly the commands whose frames were taken in full *)
Theorem C83_peer : forall lib lib' events pieces s q chunks,
  is_byte (up s) -> se_sent s = [] -> line (up s) events pieces ->
  line_ok (sp_skip q) pieces -> sp_buf q = [] -> concat chunks = se_sent (wrun lib s events) -> chunks <> [] ->
  exists q' errs, feeds lib' q chunks q' (delivered (intact pieces)) errs /\ sp_buf q' = []
    /\ Forall (fun e => pe_exn e = ParseError) errs.
Proof. exact run_peer. Qed.
Print Assumptions C83_peer.
Example C83_case : exists c, command_ser c = Ok [180; 5; 1; 0; 0; 8; 1; 2; 0; 17]
  /\ exists ps, line 255 [WCall c 10 Written; WCall c 10 (Failed 16); WDevice (DBytes [1]); WCall c 0 Written] ps
     /\ line_ok true ps /\ map s_counter (intact ps) = [255; 1].
Proof. exact write_case. Qed.
(** an answer that arrives after the call raised is not unsolicited: it goes to the
    call that is over *)
Theorem C83_late_answer_refuted : forall lib s c timeout k x a,
  is_byte (up s) -> skipping s = false -> sp_skip (r_parser (se_reader s)) = false ->
  sp_buf (r_parser (se_reader s)) = [] -> r_alive (se_reader s) = true -> 0 < timeout -> ~ cannot_send c ->
  sent_ok false x -> s_msg x = MCmd a -> c_tag a = c_tag c -> s_type x <= 3 ->
  let s1 := fst (execute_out s c timeout (Failed k)) in
  let s2 := device lib s1 (DBytes (sent_frame x)) in
  m_cb_calls (r_modem (se_reader s2)) = m_cb_calls (r_modem (se_reader s))
  /\ m_unsol (r_modem (se_reader s2)) = m_unsol (r_modem (se_reader s))
  /\ execute_result s2 = (if c_completed a then [MCmd a] else []).
Proof. exact late_answer. Qed.
Print Assumptions C83_late_answer_refuted.
(** [connect] that raised: not connected, and the next call asks again *)
Theorem C83_connect_failed : forall rnd s k,
  0 <= rnd <= 255 -> connected s = false -> skipping s = false -> is_byte (up s) ->
  exists s', connect_out rnd true s (Failed k) = (s', CDeviceError)
  /\ connected s' = false
  /\ se_sent s' = se_sent s ++ firstn k (frame (up s) 1 (connect_request rnd))
  /\ forall rnd', 0 <= rnd' <= 255 -> exists s2, connect_out rnd' true s' Written = (s2, CWaits)
       /\ se_sent s2 = se_sent s' ++ frame (counter_after (up s)) 1 (connect_request rnd').
Proof. exact connect_fails. Qed.
Print Assumptions C83_connect_failed.
(** without ALP parsing it counts as connected although it raised, and no later call
    sends anything *)
Theorem C83_connect_failed_refuted : forall rnd s k,
  0 <= rnd <= 255 -> connected s = false -> skipping s = true -> is_byte (up s) ->
  exists s', connect_out rnd true s (Failed k) = (s', CDeviceError)
  /\ connected s' = true
  /\ se_sent s' = se_sent s ++ firstn k (frame (up s) 1 (connect_request rnd))
  /\ forall rnd' check o, connect_out rnd' check s' o = (s', CReturned None).
Proof. exact connect_fails_skip. Qed.
Print Assumptions C83_connect_failed_refuted.
Example C83_case_connect : connected (new_session true true true) = false /\ skipping (new_session true true true) = true
  /\ is_byte (up (new_session true true true)) /\ connected (new_session false true true) = false
  /\ skipping (new_session false true true) = false /\ sp_buf (r_parser (se_reader (new_session false true true))) = []
  /\ r_alive (se_reader (new_session false true true)) = true.
Proof. repeat split; discriminate. Qed.
Example C83_case_late_answer : exists c x a, ~ cannot_send c /\ sent_ok false x /\ s_msg x = MCmd a /\ c_tag a = c_tag c
  /\ c_tag c = Some 5 /\ s_type x <= 3 /\ c_completed a = true.
Proof. exact late_case. Qed.
