(** Stopping and starting the reader thread: property C74. *)
From Verif Require Import SLife LLife.

(** With [stop_reading] and [start_reading] called in turns, under every
    schedule of the application, the reader threads and the device: *)
Theorem C74_one_reader : forall lib skip cb rbcb ls w,
  disciplined ls -> life_run lib (new_life skip cb rbcb) ls = Some w -> (readers w <= 1)%nat.
Proof. exact life_one_reader. Qed.
Print Assumptions C74_one_reader.
(** no byte is lost or reordered, wherever in a frame the reader was stopped:
    the modem is as if it had read without a break, and unless the port failed
    or the parser raised it reads again after [start_reading] *)
Theorem C74_as_if_undisturbed : forall lib skip cb rbcb ls w, disciplined ls -> Forall is_byte (arrived ls) ->
  life_run lib (new_life skip cb rbcb) ls = Some w ->
  exists handled, arrived ls = handled ++ in_its_hands w ++ lf_input w
  /\ let s := undisturbed lib skip cb rbcb handled in
     lf_modem w = r_modem (se_reader s) /\ (alive s = true -> lf_parser w = r_parser (se_reader s))
  /\ (lf_app w = RFree -> told_to_read ls = true -> lf_open w = true -> alive s = true -> readers w = 1%nat).
Proof. exact life_same. Qed.
Print Assumptions C74_as_if_undisturbed.
(** every message of the traffic arrives, once the program has nothing left to do *)
Theorem C74_all_delivered : forall lib skip cb rbcb ls w tr, disciplined ls ->
  life_run lib (new_life skip cb rbcb) ls = Some w -> told_to_read ls = true -> lf_open w = true -> resting lib w ->
  Forall (sent_ok skip) tr -> arrived ls = wire tr ->
  lf_modem w = fold_left dispatch (SSerial.delivered tr) (new_modem skip cb rbcb).
Proof. exact life_delivers. Qed.
Print Assumptions C74_all_delivered.
(** after [stop_reading] has returned nothing is handled until [start_reading]
    is called; what arrives waits in the port *)
Theorem C74_stopped : forall lib skip cb rbcb ls w, disciplined ls ->
  life_run lib (new_life skip cb rbcb) ls = Some w -> told_to_read ls = false -> lf_app w = RFree ->
  readers w = 0%nat /\
  forall ls' w', ~ In LStart ls' -> life_run lib w ls' = Some w' ->
  lf_modem w' = lf_modem w /\ lf_parser w' = lf_parser w /\ lf_input w' = lf_input w ++ arrived ls'.
Proof. exact life_stopped. Qed.
Print Assumptions C74_stopped.
(** while it is being stopped the reader handles at most one more byte *)
Theorem C74_one_more_byte : forall lib skip cb rbcb ls v ls' w, disciplined ls ->
  life_run lib (new_life skip cb rbcb) ls = Some v -> lf_app v = RCancel -> stops_and_starts ls' = [] ->
  life_run lib v ls' = Some w ->
  exists h, (length h <= 1)%nat /\ in_its_hands v ++ lf_input v ++ arrived ls' = h ++ in_its_hands w ++ lf_input w
  /\ lf_modem w = r_modem (reading_on lib v h) /\ lf_parser w = r_parser (reading_on lib v h).
Proof. exact life_stopping. Qed.
Print Assumptions C74_one_more_byte.
(** no call blocks for ever, even if nothing arrives: the program only rests
    between calls, with the reader ended or waiting for input; and there are at
    most five steps until [stop_reading] returns *)
Theorem C74_no_call_blocks : forall lib skip cb rbcb ls w, disciplined ls ->
  life_run lib (new_life skip cb rbcb) ls = Some w -> resting lib w -> lf_app w = RFree
  /\ (readers w = 0%nat \/ told_to_read ls = true /\ lf_input w = [] /\ in_its_hands w = [] /\ lf_open w = true).
Proof. exact life_resting. Qed.
Print Assumptions C74_no_call_blocks.
Theorem C74_stop_returns : forall lib skip cb rbcb ls w ls' w', disciplined ls ->
  life_run lib (new_life skip cb rbcb) ls = Some w -> lf_app w = RCancel \/ lf_app w = RJoin ->
  Forall internal ls' -> life_run lib w ls' = Some w' -> (length ls' <= 5)%nat.
Proof. exact life_stop_returns. Qed.
Print Assumptions C74_stop_returns.
(** and without new input nothing runs for ever, so what has arrived is handled *)
Theorem C74_nothing_runs_for_ever : forall lib skip cb rbcb ls w ls' w', disciplined ls ->
  life_run lib (new_life skip cb rbcb) ls = Some w -> Forall internal ls' -> life_run lib w ls' = Some w' ->
  (length ls' <= 3 * length (lf_input w) + 5)%nat.
Proof. exact life_bounded. Qed.
Print Assumptions C74_nothing_runs_for_ever.
(** after an exception of the device no restart helps: nothing is ever read again *)
Theorem C74_restart_after_failure_refuted : forall lib skip cb rbcb ls w ls' w', disciplined ls ->
  Forall is_byte (arrived ls) -> life_run lib (new_life skip cb rbcb) ls = Some w -> lf_open w = false ->
  life_run lib w ls' = Some w' ->
  lf_modem w' = lf_modem w /\ lf_parser w' = lf_parser w /\ lf_input w' = lf_input w.
Proof. exact life_failed. Qed.
Print Assumptions C74_restart_after_failure_refuted.
(** [start_reading] on a modem that is reading already (the constructor starts
    it): a second thread; bytes can change places and the message is lost, *)
Theorem C74_second_start_refuted : forall lib skip cb rbcb, exists ls w,
  life_run lib (new_life skip cb rbcb) ls = Some w
  /\ stops_and_starts ls = [false] /\ arrived ls = some_answer /\ lf_input w = [] /\ in_its_hands w = []
  /\ (forall p, life_inbox p w = [])
  /\ exists p x, session_inbox p (undisturbed lib skip cb rbcb some_answer) = [x].
Proof. exact two_readers_lose. Qed.
Print Assumptions C74_second_start_refuted.
(** after [stop_reading] has returned a message is still delivered, *)
Theorem C74_second_start_stopped_refuted : forall lib skip cb rbcb, exists ls w more w',
  life_run lib (new_life skip cb rbcb) ls = Some w /\ stops_and_starts ls = [false; true] /\ lf_app w = RFree
  /\ readers w = 1%nat /\ stops_and_starts more = [] /\ life_run lib w more = Some w'
  /\ exists p x, life_inbox p w = [] /\ life_inbox p w' = [x].
Proof. exact two_readers_not_stopped. Qed.
Print Assumptions C74_second_start_stopped_refuted.
(** or [stop_reading] does not return unless another byte arrives *)
Theorem C74_second_start_stop_returns_refuted : forall lib skip cb rbcb, exists ls w,
  life_run lib (new_life skip cb rbcb) ls = Some w /\ stops_and_starts ls = [false; true] /\ lf_app w = RJoin
  /\ lf_open w = true /\ resting lib w.
Proof. exact two_readers_hang. Qed.
Print Assumptions C74_second_start_stop_returns_refuted.

(** stopped in the middle of a frame, the rest arrives while stopped, restarted *)
Example C74_case : let ls := flat_map (reads_one 0) (firstn 5 some_answer) ++ [LReader 0; LStop; LGoOn; LReader 0; LReader 0; LGoOn]
    ++ map LArrive (skipn 5 some_answer) ++ [LStart; LGoOn] in
  disciplined ls /\ arrived ls = some_answer /\ told_to_read ls = true /\ exists w,
  life_run true (new_life false true true) ls = Some w /\ lf_input w = skipn 5 some_answer /\ readers w = 1%nat
  /\ exists w' x, life_run true w (flat_map (fun _ => [LReader 1; LReader 1; LReader 1]) (skipn 5 some_answer) ++ [LReader 1]) = Some w'
  /\ life_inbox SModem.PResult w' = [x].
Proof.
  cbn zeta. split; [repeat split|]. split; [vm_compute; reflexivity|]. split; [reflexivity|].
  eexists. split; [vm_compute; reflexivity|]. split; [reflexivity|]. split; [reflexivity|].
  do 2 eexists. split; vm_compute; reflexivity.
Qed.
Example C74_case_failed : exists w, life_run true (new_life false true true) [LReader 0; LArrive 192; LFails 0] = Some w
  /\ lf_open w = false /\ lf_input w = [192].
Proof. eexists. split; vm_compute; [reflexivity | split; reflexivity]. Qed.
