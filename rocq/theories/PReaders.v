(** Any number of reader threads: property C100. *)
From Verif Require Import SReaders LReaders LReaders2 LReaders3 LReaders4 LReaders5 LReaders6 LReaders7.

(** Whoever calls [start_reading] and [stop_reading] however often, under every
    schedule: every byte taken from the port is handed over to the parser exactly
    once or in the hands of a reader, none is skipped, and no byte comes earlier
    than it arrived by more places than there were further calls of
    [start_reading] *)
Theorem C100_each_byte_once : forall n ls w, port_run (new_port n) ls = Some w ->
  exists order kept, picked (came ls) (handed (new_port n) ls) order /\ picked (came ls) (held w) kept
  /\ Permutation (order ++ kept) (seq 0 (length (order ++ kept)))
  /\ (length (order ++ kept) <= length (came ls))%nat
  /\ k_input w = skipn (length (order ++ kept)) (came ls)
  /\ forall i k, nth_error order i = Some k -> (k <= i + starts ls)%nat.
Proof. exact run_order. Qed.
Print Assumptions C100_each_byte_once.
(** that many places it can be, *)
Theorem C100_overtakes : forall bytes last, exists ls w, port_run (new_port 1) ls = Some w
  /\ starts ls = length bytes /\ came ls = bytes ++ [last] /\ handed (new_port 1) ls = [last].
Proof. exact overtakes. Qed.
Print Assumptions C100_overtakes.
(** and one further call is enough for a byte to come after any number of later
    ones *)
Theorem C100_overtaken : forall first bytes, exists ls w, port_run (new_port 1) ls = Some w
  /\ starts ls = 1%nat /\ came ls = first :: bytes /\ handed (new_port 1) ls = bytes ++ [first].
Proof. exact overtaken. Qed.
Print Assumptions C100_overtaken.
(** The order is kept if no two readers ever have a byte in their hands at once,
    so always without a further [start_reading] *)
Theorem C100_in_order : forall n ls w, port_run (new_port n) ls = Some w ->
  (forall pre post v, ls = pre ++ post -> port_run (new_port n) pre = Some v -> (length (held v) <= 1)%nat) ->
  came ls = handed (new_port n) ls ++ held w ++ k_input w.
Proof. exact run_plain. Qed.
Print Assumptions C100_in_order.
Theorem C100_single_reader : forall n ls w, port_run (new_port n) ls = Some w -> starts ls = 0%nat ->
  came ls = handed (new_port n) ls ++ held w ++ k_input w.
Proof. exact run_single. Qed.
Print Assumptions C100_single_reader.
(** Every [start_reading] adds at most one reader *)
Theorem C100_readers : forall n ls w, port_run (new_port n) ls = Some w ->
  (live w <= 1 + starts ls)%nat /\ (length (held w) <= live w)%nat.
Proof. exact run_live. Qed.
Print Assumptions C100_readers.
(** From [stop_reading] to the next [start_reading] every reader in [read()] hands
    over at most one more byte, the others none, *)
Theorem C100_after_stop : forall ls w v, port_run w ls = Some v -> k_active w = false -> starts ls = 0%nat ->
  k_active v = false /\ (in_read v + length (handed w ls) <= in_read w)%nat.
Proof. exact run_in_read. Qed.
Print Assumptions C100_after_stop.
(** [stop_reading] called by the application returns only after the reader started
    last has ended (if nobody is starting another); so without further readers
    nothing is handed over once it has returned, *)
Theorem C100_waits_for_last : forall n ls i v rest w, port_run (new_port n) (ls ++ [KStop (App i)]) = Some v -> ~ starting v ->
  port_run v rest = Some w -> starts rest = 0%nat -> the_call w (App i) = Some CNone ->
  exists t, nth_error (k_threads w) (k_last v) = Some t /\ alive_reader t = false.
Proof. exact waits_for_last. Qed.
Print Assumptions C100_waits_for_last.
Theorem C100_stopped : forall n ls i v rest w, port_run (new_port n) (ls ++ [KStop (App i)]) = Some v ->
  port_run v rest = Some w -> starts (ls ++ rest) = 0%nat -> the_call w (App i) = Some CNone ->
  live w = 0%nat /\ forall more x, starts more = 0%nat -> port_run w more = Some x -> handed w more = [].
Proof. exact stopped_for_good. Qed.
Print Assumptions C100_stopped.
(** but with further readers that happens after [stop_reading] has returned: one
    byte for each *)
Theorem C100_still_handed_refuted : forall bytes, exists ls v rest w, port_run (new_port 1) ls = Some v
  /\ starts ls = length bytes /\ the_call v (App 0) = Some CNone /\ k_active v = false
  /\ port_run v rest = Some w /\ starts rest = 0%nat /\ came rest = bytes /\ handed v rest = bytes.
Proof. exact still_handed. Qed.
Print Assumptions C100_still_handed_refuted.
(** No calls wait for each other: if nothing goes on and a call has not returned, a
    reader waits for input *)
Theorem C100_no_deadlock : forall n ls w x c, port_run (new_port n) ls = Some w -> at_rest w ->
  the_call w x = Some c -> c <> CNone ->
  exists j, nth_error (k_threads w) j = Some KRead /\ k_open w = true /\ k_cancelled w = false /\ k_input w = [].
Proof. exact rest_waits. Qed.
Print Assumptions C100_no_deadlock.
(** after [stop_reading] as many bytes as there are readers in [read()] are enough
    for every reader to end and every call to return *)
Theorem C100_stop_returns : forall n ls v rest w, port_run (new_port n) ls = Some v -> k_active v = false ->
  starts rest = 0%nat -> port_run v rest = Some w -> at_rest w ->
  (in_read v <= length (held v) + length (k_input v) + length (came rest))%nat ->
  live w = 0%nat /\ forall x c, the_call w x = Some c -> c = CNone.
Proof. exact run_stopped. Qed.
Print Assumptions C100_stop_returns.
(** and the program does come to rest *)
Theorem C100_comes_to_rest : forall w, exists most, forall ls v, Forall own_step ls -> port_run w ls = Some v ->
  (length ls <= most)%nat.
Proof. exact comes_to_rest. Qed.
Print Assumptions C100_comes_to_rest.
(** After an exception of the device nothing more is read, whatever is started:
    only bytes already in the hands of readers are handed over *)
Theorem C100_after_failure : forall n ls i w rest v, port_run (new_port n) (ls ++ [KFails i]) = Some w -> port_run w rest = Some v ->
  came rest = [] /\ k_input v = k_input w /\ Permutation (handed w rest ++ held v) (held w).
Proof. exact after_failure. Qed.
Print Assumptions C100_after_failure.
(** [stop_reading] called by a callback in the only reader does not wait for that
    reader, and no further byte is handed over *)
Theorem C100_stop_in_callback : forall n ls i v, port_run (new_port n) (ls ++ [KStop (Reader i)]) = Some v -> starts ls = 0%nat ->
  (exists w, port_run v [KGoOn (Reader i); KGoOn (Reader i); KGoOn (Reader i)] = Some w /\ the_call w (Reader i) = Some CNone)
  /\ forall rest w, starts rest = 0%nat -> port_run v rest = Some w -> handed v rest = [].
Proof. exact callback_stops. Qed.
Print Assumptions C100_stop_in_callback.

(** a second reader, started by a callback in the first: the third byte is handed
    over before the second *)
Example C100_case : exists w, port_run (new_port 2)
    (takes 0 10 ++ [KLoop 0; KStart (Reader 0); KGoOn (Reader 0); KGoOn (Reader 0)] ++ takes 1 11 ++ [KDone 0 true]
     ++ takes 0 12 ++ hands 0 ++ hands 1) = Some w
  /\ k_threads w = [KTop; KTop].
Proof. eexists. split; reflexivity. Qed.
Example C100_case_handed : handed (new_port 2)
    (takes 0 10 ++ [KLoop 0; KStart (Reader 0); KGoOn (Reader 0); KGoOn (Reader 0)] ++ takes 1 11 ++ [KDone 0 true]
     ++ takes 0 12 ++ hands 0 ++ hands 1) = [10; 12; 11]%Z.
Proof. reflexivity. Qed.
(** two threads call [stop_reading] at once; one waits for the reader, whose
    callback calls it as well *)
Example C100_case_stop : exists v w, port_run (new_port 2)
    (takes 0 10 ++ [KLoop 0; KStop (App 0); KStop (Reader 0); KStop (App 1); KGoOn (App 0); KGoOn (App 0)]) = Some v
  /\ k_active v = false /\ in_read v = 0%nat
  /\ port_run v [KGoOn (Reader 0); KGoOn (Reader 0); KGoOn (Reader 0); KDone 0 true; KLoop 0; KGoOn (App 0); KGoOn (App 1); KGoOn (App 1); KGoOn (App 1)]
     = Some w /\ live w = 0%nat /\ k_apps w = [CNone; CNone].
Proof. do 2 eexists. repeat split. Qed.
(** [stop_reading] of the application while the only reader waits for input *)
Example C100_case_waits : exists v w, port_run (new_port 1) ([KLoop 0] ++ [KStop (App 0)]) = Some v
  /\ port_run v [KGoOn (App 0); KGoOn (App 0); KLoop 0; KLoop 0; KGoOn (App 0)] = Some w
  /\ the_call w (App 0) = Some CNone /\ k_threads w = [KEnded].
Proof. do 2 eexists. repeat split. Qed.
(** the device fails while a second reader holds a byte; a third is started *)
Example C100_case_failure : exists w v, port_run (new_port 1) ((start_more 1 ++ takes 1 10 ++ [KLoop 0; KArrive 11]) ++ [KFails 0]) = Some w
  /\ held w = [10]%Z /\ k_input w = [11]%Z /\ port_run w (hands 1 ++ start_more 1 ++ [KLoop 2; KLoop 2; KLoop 1; KLoop 1]) = Some v
  /\ handed w (hands 1) = [10]%Z /\ k_threads v = [KEnded; KEnded; KEnded] /\ k_input v = [11]%Z.
Proof. do 2 eexists. repeat split. Qed.
