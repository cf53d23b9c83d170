(** A modem object over its life: properties C54 to C56. *)
From Coq Require Import Permutation.
From Verif Require Import SModem SConnect SConnect2 LAlias LConnect LConnect2.
From Verif Require SSync LKept.

(** ** C54 *)
(** under every schedule: all result lists together hold responses that
    arrived, each in one place, in the order of arrival *)
Theorem C54_one_list_each : forall cb rbcb ls w, run (new_world cb rbcb) ls = Some w ->
  subsequence (concat (m_heap (w_m w)) ++ in_hand w) (map snd (arrivals ls)).
Proof. exact in_one_list. Qed.
Print Assumptions C54_one_list_each.
(** and none is lost: every ALP message that arrived is once in a result list, at
    the callback, among the unsolicited messages or in the hands of the reader *)
Theorem C54_nothing_lost : forall cb rbcb ls w, run (new_world cb rbcb) ls = Some w ->
  Permutation (concat (m_heap (w_m w)) ++ m_cb_calls (w_m w) ++ m_unsol (w_m w) ++ SSync.held (w_r w))
    (SSync.alp_messages (arrivals ls)).
Proof. exact LKept.kept_somewhere. Qed.
Print Assumptions C54_nothing_lost.
(** the same from any later moment at which the reader holds no message and no
    command is executed, whether the modem is connected or not *)
Theorem C54_nothing_lost_later : forall m ls w, (m_resp m < length (m_heap m))%nat ->
  run (mkWorld m RIdle AIdle []) ls = Some w ->
  Permutation (concat (m_heap (w_m w)) ++ m_cb_calls (w_m w) ++ m_unsol (w_m w) ++ SSync.held (w_r w))
    ((concat (m_heap m) ++ m_cb_calls m ++ m_unsol m) ++ SSync.alp_messages (arrivals ls)).
Proof. exact LKept.kept_from. Qed.
Print Assumptions C54_nothing_lost_later.
(** a list that was replaced never changes again *)
Theorem C54_retired_lists_are_frozen : forall ls w w' r, run w ls = Some w' -> exists_object w r -> retired w r ->
  list_object w' r = list_object w r.
Proof. exact retired_frozen. Qed.
Print Assumptions C54_retired_lists_are_frozen.
Theorem C54_next_command_retires : forall w tag sync w' r,
  w_r w = RIdle -> run w [LExec tag sync; LApp] = Some w' -> exists_object w r -> retired w' r.
Proof. exact next_retires. Qed.
Print Assumptions C54_next_command_retires.
(** before that a list the application holds can grow, at its end only *)
Theorem C54_lists_grow_at_the_end : forall ls w w' r, run w ls = Some w' -> exists_object w r ->
  exists more, list_object w' r = list_object w r ++ more /\ subsequence more (in_hand w ++ map snd (arrivals ls)).
Proof. exact grows. Qed.
Print Assumptions C54_lists_grow_at_the_end.
Theorem C54_returned_list_is_final_refuted : forall cb rbcb tag c1 c2,
  c_tag c1 = Some tag -> c_tag c2 = Some tag -> c_completed c1 = true ->
  exists ls w, run (new_world cb rbcb) ls = Some w
  /\ w_rets w = [(Some tag, Some 1%nat, [MCmd c1])] /\ w_a w = AIdle /\ list_object w 1 = [MCmd c1; MCmd c2].
Proof. exact returned_grows. Qed.
Print Assumptions C54_returned_list_is_final_refuted.
Example C54_case_later : let m := mkModem false true true true [[MRaw [1]]] 0 None false [] [] [] [] [] in
  (m_resp m < length (m_heap m))%nat
  /\ exists w, run (mkWorld m RIdle AIdle []) [LMsg 1 (MCmd (answer (Some 3) true)); LReader; LMsg 3 (MRaw [7]); LReader;
    LExec (Some 7) true; LApp; LApp; LApp; LApp; LMsg 1 (MCmd (answer (Some 7) true)); LReader; LReader; LReader] = Some w
  /\ m_cb_calls (w_m w) = [MCmd (answer (Some 3) true); MRaw [7]] /\ concat (m_heap (w_m w)) = [MRaw [1]; MCmd (answer (Some 7) true)].
Proof. split; [cbn; lia|]. eexists. split; [vm_compute; reflexivity|]. split; vm_compute; reflexivity. Qed.
Example C54_case : c_tag (answer (Some 7) true) = Some 7 /\ c_completed (answer (Some 7) true) = true
  /\ exists w, run (new_world true true) [LExec (Some 7) true; LApp; LExec (Some 8) true] = None
  /\ run (new_world true true) [LExec (Some 7) true; LApp] = Some w /\ exists_object w 0 /\ retired w 0.
Proof.
  split; [reflexivity|]. split; [reflexivity|]. eexists. split; [reflexivity|]. split; [reflexivity|].
  split; [unfold exists_object; cbn; lia|]. split; cbn; [lia | discriminate].
Qed.

(** ** C55 *)
Theorem C55_alive_iff : forall lib es s, alive s = true ->
  (alive (devices lib s es) = true <-> survives lib (r_parser (se_reader s)) es).
Proof. exact survives_iff. Qed.
Print Assumptions C55_alive_iff.
(** an exception of the device: what was received stays, nothing follows *)
Theorem C55_exception_ends_reading : forall lib s es rest,
  let before := devices lib s es in
  let after := devices lib s (es ++ DException :: rest) in
  alive after = false /\ (forall p, session_inbox p after = session_inbox p before)
  /\ execute_result after = execute_result before.
Proof. exact exception_ends. Qed.
Print Assumptions C55_exception_ends_reading.
Theorem C55_dead_for_good : forall lib l s, alive s = false ->
  alive (acts lib s l) = false /\ forall p, p <> PResult -> session_inbox p (acts lib s l) = session_inbox p s.
Proof. exact dead_stays. Qed.
Print Assumptions C55_dead_for_good.
Theorem C55_commands_time_out : forall lib s c t es s', alive s = false -> execute s c t = (s', Ok tt) ->
  execute_result (devices lib s' es) = [].
Proof. exact dead_commands. Qed.
Print Assumptions C55_commands_time_out.
Theorem C55_bridge_survives_any_bytes : forall lib es s, alive s = true -> sp_skip (r_parser (se_reader s)) = true ->
  byte_in (r_parser (se_reader s)) -> Forall event_bytes es ->
  (alive (devices lib s es) = true <-> ~ In DException es).
Proof. exact bridge_survives. Qed.
Print Assumptions C55_bridge_survives_any_bytes.
(** otherwise one malformed frame is enough to end the thread *)
Theorem C55_peer_can_end_it : exists bytes, Forall is_byte bytes /\
  forall lib cb rbcb, alive (devices lib (new_session false cb rbcb) [DBytes bytes]) = false.
Proof. exact peer_kills. Qed.
Print Assumptions C55_peer_can_end_it.
Example C55_case : let s := devices true (new_session false true true) [DBytes [192; 0]; DException] in
  alive s = false /\ exists s', execute s (answer None false) 10 = (s', Ok tt).
Proof. split; [reflexivity|]. eexists. vm_compute. reflexivity. Qed.

(** ** C56 *)
Theorem C56_request_sent : forall rnd s, 0 <= rnd <= 255 -> connected s = false ->
  m_skip (r_modem (se_reader s)) = false -> is_byte (sp_up (r_parser (se_reader s))) ->
  exists s', connect_begin rnd true s = (s', Waiting)
  /\ se_sent s' = se_sent s ++ frame (sp_up (r_parser (se_reader s))) 1 (connect_request rnd)
  /\ se_uid s' = se_uid s /\ se_fw s' = se_fw s /\ connected s' = false.
Proof. exact connect_request_sent. Qed.
Print Assumptions C56_request_sent.
Theorem C56_bridge_mode_does_not_wait : forall rnd s, 0 <= rnd <= 255 -> connected s = false ->
  m_skip (r_modem (se_reader s)) = true -> is_byte (sp_up (r_parser (se_reader s))) ->
  exists s', connect_begin rnd true s = (s', Returned (Some true)) /\ connected s' = true
  /\ se_sent s' = se_sent s ++ frame (sp_up (r_parser (se_reader s))) 1 (connect_request rnd)
  /\ se_uid s' = se_uid s /\ se_fw s' = se_fw s.
Proof. exact connect_skip. Qed.
Print Assumptions C56_bridge_mode_does_not_wait.
Theorem C56_unchecked_sends_nothing : forall rnd s, connected s = false ->
  exists s', connect_begin rnd false s = (s', Returned (Some true)) /\ connected s' = true
  /\ se_sent s' = se_sent s /\ se_uid s' = se_uid s /\ se_fw s' = se_fw s.
Proof. exact connect_unchecked_sends. Qed.
Print Assumptions C56_unchecked_sends_nothing.
(** the second call of a successful connect() answers None, not True *)
Theorem C56_repeated_returns_true_refuted : forall rnd check s, connected s = true ->
  connect_begin rnd check s = (s, Returned None).
Proof. exact connect_again. Qed.
Print Assumptions C56_repeated_returns_true_refuted.
Theorem C56_no_answer_false : forall s, execute_result s = [] -> connect_end s = (s, Returned (Some false)).
Proof. exact connect_no_answer. Qed.
Print Assumptions C56_no_answer_false.
Theorem C56_answer_decides : forall s c rest, execute_result s = MCmd c :: rest -> connected s = false ->
  Forall usable (returned_files c) ->
  exists s' b, connect_end s = (s', Returned (Some b))
  /\ learns_uid (se_uid s) (returned_files c) (se_uid s') /\ learns_fw (se_fw s) (returned_files c) (se_fw s')
  /\ connected s' = b /\ (b = true <-> known_both s').
Proof. exact connect_answered. Qed.
Print Assumptions C56_answer_decides.
Theorem C56_unusable_file_raises : forall s c rest good i d more, execute_result s = MCmd c :: rest ->
  returned_files c = good ++ (i, d) :: more -> Forall usable good -> Forall is_byte d -> ~ usable (i, d) ->
  exists s' e, connect_end s = (s', Raised e) /\ (i = 0 -> e = StructError)
  /\ learns_uid (se_uid s) good (se_uid s') /\ learns_fw (se_fw s) good (se_fw s') /\ connected s' = connected s.
Proof. exact connect_unusable. Qed.
Print Assumptions C56_unusable_file_raises.
(** any traffic around the answer, any chunking *)
Theorem C56_end_to_end : forall lib s rnd c t uid f before later chunks, ready s -> 0 <= rnd <= 255 ->
  length uid = 8%nat -> Forall is_byte uid -> fw_wf f -> is_byte c -> 0 <= t <= 3 ->
  Forall (sent_ok false) before -> Forall (sent_ok false) later -> unrelated rnd before -> unrelated rnd later ->
  concat chunks = wire before ++ frame c t (connect_answer rnd uid f) ++ wire later ->
  exists s1 s3, connect_begin rnd true s = (s1, Waiting)
  /\ se_sent s1 = se_sent s ++ frame (sp_up (r_parser (se_reader s))) 1 (connect_request rnd)
  /\ connect_end (devices lib s1 (map DBytes chunks)) = (s3, Returned (Some true))
  /\ se_uid s3 = Some (big_endian uid) /\ se_fw s3 = Some (fw_padded f) /\ connected s3 = true.
Proof. exact connect_end_to_end. Qed.
Print Assumptions C56_end_to_end.
(** any traffic at all: the answers to the request decide *)
Theorem C56_any_traffic : forall lib s rnd chunks tr sel, ready s -> 0 <= rnd <= 255 ->
  Forall (sent_ok false) tr -> concat chunks = wire tr -> answers_in (Some rnd) (SSerial.delivered tr) sel ->
  exists s1, connect_begin rnd true s = (s1, Waiting)
  /\ se_sent s1 = se_sent s ++ frame (sp_up (r_parser (se_reader s))) 1 (connect_request rnd)
  /\ let s2 := devices lib s1 (map DBytes chunks) in
     connected s2 = false /\ se_uid s2 = se_uid s /\ se_fw s2 = se_fw s /\ se_sent s2 = se_sent s1 /\ alive s2 = true
     /\ ((some_completed sel /\ execute_result s2 = sel) \/ (~ some_completed sel /\ execute_result s2 = [])).
Proof. exact connect_traffic. Qed.
Print Assumptions C56_any_traffic.
(** nothing else changes: set-up, kept messages, callbacks, reader *)
Theorem C56_begin_keeps : forall rnd check s, keeps_rest s (fst (connect_begin rnd check s))
  /\ (check = false -> keeps_all s (fst (connect_begin rnd check s))).
Proof. exact begin_keeps. Qed.
Print Assumptions C56_begin_keeps.
Theorem C56_end_keeps : forall s, keeps_all s (fst (connect_end s)).
Proof. exact end_keeps. Qed.
Print Assumptions C56_end_keeps.
Example C56_case : ready (new_session false true false)
  /\ let f := mkFw 1 2 3 4 [103; 119] [97; 98; 99; 100; 101; 102; 103] in fw_wf f
  /\ let stream := frame 9 5 [1] ++ frame 10 1 (connect_answer 200 [1; 2; 3; 4; 5; 6; 7; 8] f) in
     let s1 := fst (connect_begin 200 true (new_session false true false)) in
     let (s3, r) := connect_end (devices true s1 [DBytes (firstn 11 stream); DBytes (skipn 11 stream)]) in
     r = Returned (Some true) /\ se_uid s3 = Some 72623859790382856
     /\ se_sent s3 = [192; 0; 0; 1; 10; 147; 13; 180; 200; 1; 0; 0; 8; 1; 2; 0; 17].
Proof.
  split; [unfold ready, is_byte; cbn; repeat split; lia|]. split.
  - unfold fw_wf, ascii_text, byte_ok. cbn. repeat split; try lia; repeat constructor; lia.
  - vm_compute. repeat split.
Qed.
