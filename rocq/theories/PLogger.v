(** The program that logs unsolicited messages: property C85. *)
From Coq Require Import Ascii String.
From Coq Require Import ZifyBool.
From Verif Require Import MBase LModem LConnect SConverse LConverse SLogger LLogger.
Local Open Scope list_scope.
Local Open Scope Z_scope.

(** whatever intact traffic arrives and however it is cut: if connect() returns, the
    log has one line for each reboot, and for each command completely received after
    connect() returned true, in order of arrival, unless it has connect()'s tag; if
    connect() raises, the reboots up to then *)
Theorem C85_log : forall lib rnd before during after rest tr, 0 <= rnd <= 255 -> Forall (sent_ok false) tr ->
  concat before ++ concat during ++ concat after ++ rest = wire tr ->
  exists s log p later, logger_program lib rnd before during after = ((s, log), p)
  /\ let seen := whole tr (number_of_bytes before + number_of_bytes during) in
     whole tr (number_of_bytes before + number_of_bytes during + number_of_bytes after) = seen ++ later
  /\ se_sent s = frame 0 1 (connect_request rnd)
  /\ match p with
     | Returned (Some b) => connected s = b /\ alive s = true /\ log = reboots seen ++ lines rnd b later
     | Raised _ => log = reboots seen
     | _ => False
     end.
Proof. exact logger_log. Qed.
Print Assumptions C85_log.
Theorem C85_everything_is_complete : forall tr, whole tr (length (wire tr)) = tr.
Proof. exact whole_all. Qed.
Print Assumptions C85_everything_is_complete.

(** connect() returns true exactly when the first answer to its request has both
    files *)
Theorem C85_answered : forall lib rnd before during after rest tr meanwhile c more, 0 <= rnd <= 255 -> Forall (sent_ok false) tr ->
  concat before ++ concat during ++ concat after ++ rest = wire tr ->
  whole tr (number_of_bytes before + number_of_bytes during) = whole tr (number_of_bytes before) ++ meanwhile ->
  answers_in (Some rnd) (SSerial.delivered meanwhile) (MCmd c :: more) -> some_completed (MCmd c :: more) ->
  Forall usable (returned_files c) ->
  exists b, snd (logger_program lib rnd before during after) = Returned (Some b)
  /\ (b = true <-> latest 0 (returned_files c) <> None /\ latest 2 (returned_files c) <> None).
Proof. exact logger_answered. Qed.
Print Assumptions C85_answered.

(** without an answer in time the program goes on, but never logs a command,
    whatever arrives later *)
Theorem C85_logs_without_connection_refuted : forall lib rnd before during after rest tr meanwhile,
  0 <= rnd <= 255 -> Forall (sent_ok false) tr ->
  concat before ++ concat during ++ concat after ++ rest = wire tr ->
  whole tr (number_of_bytes before + number_of_bytes during) = whole tr (number_of_bytes before) ++ meanwhile ->
  Forall (fun x => ~ ends_request rnd x) meanwhile ->
  exists s log, logger_program lib rnd before during after = ((s, log), Returned (Some false))
  /\ alive s = true /\ log = reboots (whole tr (number_of_bytes before + number_of_bytes during + number_of_bytes after))
  /\ forall t, ~ In (Message t) log.
Proof. exact logger_silent. Qed.
Print Assumptions C85_logs_without_connection_refuted.

(** Any bytes at all: the modem object goes through the states it would go through
    without the log, and each call of a callback leaves its line, in order *)
Theorem C85_any_bytes : forall lib chunks s log, let s2 := devices lib s (map DBytes chunks) in
  exists new, logger_chunks lib (s, log) chunks = (s2, log ++ new)
  /\ filter is_message new = flat_map message_line (new_commands s s2)
  /\ filter (fun x => negb (is_message x)) new = flat_map reboot_line (new_reboots s s2).
Proof. exact log_any. Qed.
Print Assumptions C85_any_bytes.
(** and bytes for which parse raises end it: nothing is logged any more, not even
    messages that were decoded before in the same piece *)
Theorem C85_logs_for_ever_refuted : forall lib s log chunk e p chunks, alive s = true -> chunk <> [] ->
  sparse lib (r_parser (se_reader s)) chunk = (p, Err e) ->
  exists s2, logger_chunks lib (s, log) (chunk :: chunks) = (s2, log) /\ alive s2 = false.
Proof. exact log_ends. Qed.
Print Assumptions C85_logs_for_ever_refuted.
(** a reboot, then a break query that does not compare *)
Example C85_case_raises : forall lib, exists p e,
  sparse lib (new_parser false) (frame 1 5 [3] ++ frame 2 1 [9; 0]) = (p, Err e).
Proof. intros [|]; eexists _, _; vm_compute; reflexivity. Qed.

(** a reboot and the beginning of a message before connect(), the rest of it and the
    answer meanwhile, a message and a reboot afterwards *)
Definition C85_firmware : FirmwareVersionFile := mkFw 1 1 0 0 [97] [98].
Definition C85_answer : list Z := connect_answer 9 [0; 0; 0; 0; 0; 0; 1; 2] C85_firmware.
Definition C85_before : list (list Z) := [frame 1 5 [3]; [192; 0; 2]].
Definition C85_during : list (list Z) := [skipn 3 (frame 2 1 [163; 7]); frame 3 1 C85_answer].
Definition C85_after : list (list Z) := [frame 4 1 [163; 8] ++ frame 5 5 [1]].
Definition C85_traffic : list Sent :=
  [mkSent 1 5 [3] (MInt 3); mkSent 2 1 [163; 7] (MCmd (reply_seen 7 (mkReply true false [])));
   mkSent 3 1 C85_answer (MCmd (command_of false None true (answer_actions 9 [0; 0; 0; 0; 0; 0; 1; 2] C85_firmware)));
   mkSent 4 1 [163; 8] (MCmd (reply_seen 8 (mkReply true false []))); mkSent 5 5 [1] (MInt 1)].
Example C85_case : Forall (sent_ok false) C85_traffic
  /\ concat C85_before ++ concat C85_during ++ concat C85_after ++ [] = wire C85_traffic
  /\ exists s t, logger_program true 9 C85_before C85_during C85_after
     = ((s, [Rebooted 3; Message t; Rebooted 1]), Returned (Some true))
  /\ str (o_command (reply_seen 8 (mkReply true false []))) = Ok t.
Proof.
  refine (conj _ (conj eq_refl _)).
  - assert (R : forall n t, is_byte n -> 0 <= t <= 255 -> sent_ok false (mkSent n 1 [163; t] (MCmd (reply_seen t (mkReply true false []))))).
    { intros n t N H. destruct (reply_exists t (mkReply true false [])) as (c & C).
      assert (O : reply_ok t (mkReply true false [])) by (refine (conj H (conj (Forall_nil _) (conj eq_refl _))); cbn; lia).
      destruct (reply_transmits t _ c O C) as (bs & E & P & K). apply reply_shape in C. subst c.
      assert (E2 : command_ser (mkCommand (tag_response t (mkReply true false []) :: re_actions (mkReply true false [])) None false None true false None)
                 = Ok [163; t]) by (cbn; unfold tag_ser, yield1; cbn [tag_value]; replace ((0 <=? t) && (t <=? 255)) with true by lia; reflexivity).
      rewrite E2 in E. injection E as <-. unfold sent_ok. cbn [s_counter s_type s_payload s_msg].
      refine (conj N (conj _ (conj P K))). unfold is_byte. lia. }
    constructor; [apply LSend.sent_rebooted; unfold is_byte; lia|].
    constructor; [apply R; unfold is_byte; lia|].
    constructor; [apply answer_sent; unfold is_byte; try lia; try reflexivity|].
    + repeat constructor; unfold is_byte; lia.
    + unfold fw_wf, ascii_text, byte_ok. cbn. repeat split; try lia; repeat constructor; lia.
    + constructor; [apply R; unfold is_byte; lia|].
      constructor; [apply LSend.sent_rebooted; unfold is_byte; lia | constructor].
  - eexists _, _. split; vm_compute; reflexivity.
Qed.
Example C85_case_unanswered : exists s, logger_program true 9 C85_before [] (C85_during ++ C85_after)
  = ((s, [Rebooted 3; Rebooted 1]), Returned (Some false)).
Proof. eexists. vm_compute. reflexivity. Qed.
