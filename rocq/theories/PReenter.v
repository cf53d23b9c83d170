(** Callbacks that call the modem: property C78. *)
From Verif Require Import SReenter LReenter LReenter2 LConverse PConverse.

(** ** C78 *)
(** whatever the callbacks do and whenever bytes arrive: once the reader is at
    rest, the result is the one of handling the bytes one after the other with
    every call of execute_command returning the empty list (or its exception) at
    once; bytes that arrive during a call wait, none is lost *)
Theorem C78_as_if_at_once : forall lib h s ls w, rrun lib h (reading_world s) ls = Some w -> rests w ->
  exists done, came ls = done ++ rw_input w
    /\ in_sequence lib h s done
       = mkSeq (rw_session w) (rw_active w) (match rw_at w with Ended => true | _ => false end) (rw_results w).
Proof. exact as_if_at_once. Qed.
Print Assumptions C78_as_if_at_once.
(** a call made from a callback never returns a response *)
Theorem C78_no_response : forall lib h s ls w c t v, rrun lib h (reading_world s) ls = Some w ->
  In (c, t, v) (rw_results w) -> v = Ok [] \/ exists e, v = Err e.
Proof. exact no_response. Qed.
Print Assumptions C78_no_response.
(** it raises only for commands that cannot be sent *)
Theorem C78_accepted : forall lib h s ls w c t v, is_byte (sp_up (r_parser (se_reader s))) ->
  rrun lib h (reading_world s) ls = Some w -> In (c, t, v) (rw_results w) ->
  command_wf c -> command_bytes c <= 255 -> v = Ok [].
Proof. exact accepted. Qed.
Print Assumptions C78_accepted.
(** it lasts until its time is over: nothing else ends the waiting, and there were
    as many ends of time as accepted calls that were not asynchronous *)
Theorem C78_only_the_clock : forall lib h s ls w c t k r, rrun lib h (reading_world s) ls = Some w ->
  rw_at w = InWait c t k r -> rstep lib h w RGo = None.
Proof. exact only_the_clock. Qed.
Print Assumptions C78_only_the_clock.
Theorem C78_full_time : forall lib h s ls w, rrun lib h (reading_world s) ls = Some w ->
  timeouts ls = waited (m_skip (r_modem (se_reader s))) (rw_results w).
Proof. exact full_time. Qed.
Print Assumptions C78_full_time.
(** the calls do send: one frame per accepted command, in order, nothing else *)
Theorem C78_sent : forall lib h s ls w, rrun lib h (reading_world s) ls = Some w -> rests w ->
  se_sent (rw_session w) = se_sent s ++ outgoing (r_parser (se_reader s)) (rw_results w).
Proof. exact sent_by_callbacks. Qed.
Print Assumptions C78_sent.
(** the reader never hangs for good *)
Theorem C78_never_stuck : forall lib h w,
  rests w \/ (exists w', rstep lib h w RGo = Some w') \/ (exists w', rstep lib h w RTimeout = Some w').
Proof. exact never_stuck. Qed.
Print Assumptions C78_never_stuck.
(** a callback asks the node back and waits: the responses, however early they
    arrive, reach neither the call, nor the callback, nor the list of unsolicited
    responses; they end in a list nobody holds *)
Theorem C78_responses_lost : forall lib h s ls w tr t0 x0 rs c timeout, in_use s -> has_list s -> to_callback s = true ->
  rrun lib h (reading_world s) ls = Some w -> rests w -> rw_input w = [] -> came ls = wire tr ->
  Forall (sent_ok false) tr -> SSerial.delivered tr = (t0, x0) :: rs -> t0 <= 3 -> ~ is_answer (r_modem (se_reader s)) x0 ->
  (forall s', h_cb h s' x0 = Exec c timeout (fun _ => Finish)) ->
  command_wf c -> command_bytes c <= 255 -> 0 < timeout -> Forall (fun tx => is_reply (c_tag c) tx = true) rs ->
  rw_results w = [(c, timeout, Ok [])]
  /\ session_inbox PCallback (rw_session w) = session_inbox PCallback s ++ [x0]
  /\ session_inbox PUnsolicited (rw_session w) = session_inbox PUnsolicited s
  /\ session_inbox PResult (rw_session w) = map snd rs.
Proof. exact sync_lost. Qed.
Print Assumptions C78_responses_lost.
(** callbacks that only use execute_command_async get everything: each message
    goes where it would go without their calls, in order, also the responses to
    their own commands *)
Theorem C78_asynchronous : forall lib h s ls w tr p sel, in_use s -> not_collecting s -> has_list s -> asynchronous_handlers h ->
  rrun lib h (reading_world s) ls = Some w -> rests w -> rw_input w = [] -> came ls = wire tr -> Forall (sent_ok false) tr ->
  p <> PResult -> sorted (r_modem (se_reader s)) p (SSerial.delivered tr) sel ->
  session_inbox p (rw_session w) = session_inbox p s ++ sel /\ rw_at w = InRead.
Proof. exact async_delivery. Qed.
Print Assumptions C78_asynchronous.
(** a callback that calls stop_reading: no further byte is read, and when the
    thread comes to rest it has ended *)
Theorem C78_stop : forall lib h s ls w ls' w', rrun lib h (reading_world s) ls = Some w -> rw_active w = false ->
  rrun lib h w ls' = Some w' ->
  rw_input w' = rw_input w ++ came ls' /\ (rests w' -> rw_at w' = Ended).
Proof. exact stop_from_callback. Qed.
Print Assumptions C78_stop.

(** the callback reacts to tag 8 by reading a file with tag 7; the response
    arrives at once, completely, long before the time is over *)
Definition seen (tag : Z) : Msg := MCmd (reply_seen tag (mkReply true false [])).
Definition has_tag (tag : Z) (x : Msg) : bool := match x with MCmd c => same_tag (c_tag c) (Some tag) | _ => false end.
Definition asks (timeout : Z) : Handlers :=
  mkHandlers (fun _ x => if has_tag 8 x then Exec (read0 7) timeout (fun _ => Finish) else Finish) (fun _ _ => Finish).
Definition connected_session : Session :=
  mkSession (mkReader (new_parser false) (set_connected (new_modem false true false)) true) None None [].
Definition exchange_bytes : list Sent := [mkSent 1 1 [163; 8] (seen 8); mkSent 2 1 [163; 7] (seen 7)].
Definition case_labels (timeout : bool) : list RLabel :=
  map RArrive (wire exchange_bytes)
  ++ flat_map (fun _ => [RGo; RGo]) (firstn 8 (wire exchange_bytes))
  ++ [RGo; RGo; RGo] ++ (if timeout then [RTimeout] else []) ++ [RGo; RGo]
  ++ flat_map (fun _ => [RGo; RGo]) (firstn 8 (wire exchange_bytes))
  ++ (if timeout then [RGo; RGo; RGo] else [RGo; RGo; RGo; RGo]).
Example C78_case :
  in_use connected_session /\ has_list connected_session /\ to_callback connected_session = true
  /\ not_collecting connected_session /\ Forall (sent_ok false) exchange_bytes
  /\ asynchronous_handlers (asks 0)
  /\ (exists w, rrun true (asks 10) (reading_world connected_session) (case_labels true) = Some w /\ rests w /\ rw_input w = []
       /\ rw_results w = [(read0 7, 10, Ok [])] /\ session_inbox PCallback (rw_session w) = [seen 8])
  /\ (exists w, rrun true (asks 0) (reading_world connected_session) (case_labels false) = Some w /\ rests w /\ rw_input w = []
       /\ rw_results w = [(read0 7, 0, Ok [])] /\ session_inbox PCallback (rw_session w) = [seen 8; seen 7]).
Proof.
  refine (conj _ (conj _ (conj eq_refl (conj eq_refl (conj _ (conj _ (conj _ _))))))).
  - unfold in_use, is_byte. cbn. repeat split; lia.
  - unfold has_list. cbn. lia.
  - assert (R : forall n t, is_byte n -> 0 <= t <= 255 -> sent_ok false (mkSent n 1 [163; t] (seen t))).
    { intros n t N H. destruct (reply_exists t (mkReply true false [])) as (c & C).
      assert (O : reply_ok t (mkReply true false [])) by (refine (conj H (conj (Forall_nil _) (conj eq_refl _))); cbn; lia).
      destruct (reply_transmits t _ c O C) as (bs & E & P & K). apply reply_shape in C. subst c.
      assert (E2 : command_ser (mkCommand (tag_response t (mkReply true false []) :: re_actions (mkReply true false [])) None false None true false None)
                 = Ok [163; t]) by (cbn; unfold tag_ser, yield1; cbn [tag_value]; replace ((0 <=? t) && (t <=? 255)) with true by lia; reflexivity).
      rewrite E2 in E. injection E as <-. unfold sent_ok. cbn [s_counter s_type s_payload s_msg].
      refine (conj N (conj _ (conj P K))). unfold is_byte. lia. }
    constructor; [apply R; unfold is_byte; lia | constructor; [apply R; unfold is_byte; lia | constructor]].
  - split; intros s x; cbn; [destruct (has_tag 8 x)|]; repeat constructor; lia.
  - eexists. split; [vm_compute; reflexivity|]. split; [left; reflexivity|]. repeat split.
  - eexists. split; [vm_compute; reflexivity|]. split; [left; reflexivity|]. repeat split.
Qed.
