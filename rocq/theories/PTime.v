(** Waiting for an answer, and the clock: property C77. *)
From Verif Require Import STime LTime.

(** As long as the clock is not set back, an answer that is complete before the
    clock shows the end of the timeout is never missed, however the threads are
    scheduled; all answers that have arrived are returned. *)
Theorem C77_answer_in_time_found : forall w timeout began looks final returned l d,
  timeout <> 0 -> never_back (w_clock w) -> filed w -> schedule began looks final returned ->
  complete_by w d -> w_clock w d - w_clock w began < timeout ->
  execute_waits w timeout began looks final returned = Some l ->
  arrived_by returned (w_answers w) l /\ exists c, In c l /\ c_completed c = true.
Proof. exact found. Qed.
Print Assumptions C77_answer_in_time_found.
(** Whatever the clock does: an empty list means that the answer was not
    complete although the clock showed that the time was over. *)
Theorem C77_result : forall w timeout began looks final returned l,
  timeout <> 0 -> filed w -> schedule began looks final returned -> execute_waits w timeout began looks final returned = Some l ->
  (complete_by w final /\ arrived_by returned (w_answers w) l /\ l <> [])
  \/ (~ complete_by w final /\ l = [] /\ timeout <= w_clock w (lk_clock (last_look looks)) - w_clock w began).
Proof. exact result_cases. Qed.
Print Assumptions C77_result.
(** If the clock is not set back the call is over one sleep after the timeout … *)
Theorem C77_over_in_time : forall w timeout began looks final returned l e,
  0 < timeout -> 0 <= e -> keeps_up (w_clock w) -> schedule began looks final returned -> prompt e began looks final returned ->
  execute_waits w timeout began looks final returned = Some l -> returned <= began + timeout + 50000 + 4 * e.
Proof. exact duration. Qed.
Print Assumptions C77_over_in_time.
(** … and, whatever the clock does, one sleep after the answer is complete. *)
Theorem C77_over_after_answer : forall w timeout began looks final returned l e d,
  0 < timeout -> 0 <= e -> schedule began looks final returned -> prompt e began looks final returned -> complete_by w d ->
  execute_waits w timeout began looks final returned = Some l -> returned <= Z.max began d + 50000 + 5 * e.
Proof. exact duration_found. Qed.
Print Assumptions C77_over_after_answer.
(** It does end: there are at most two looks more than sleeps fit into the timeout. *)
Theorem C77_ends : forall w timeout began looks, keeps_up (w_clock w) -> in_order began looks -> looks <> [] ->
  timeout <= 50000 * (zlen looks - 1) -> wait_loop w timeout (w_clock w began) looks <> None.
Proof. exact ends. Qed.
Print Assumptions C77_ends.
(** A clock that tells the time meets both conditions. *)
Theorem C77_honest_clock : forall clock, honest clock -> keeps_up clock /\ never_back clock.
Proof. exact honest_keeps. Qed.
Print Assumptions C77_honest_clock.
(** A clock that is set back while the call waits makes it wait as much longer, *)
Theorem C77_set_back : forall s d ans timeout began looks final returned l,
  0 < timeout -> 0 <= d -> began < s <= began + timeout -> schedule began looks final returned ->
  (forall t, ~ complete_by (mkWaited ans (set_by s (- d))) t) ->
  execute_waits (mkWaited ans (set_by s (- d))) timeout began looks final returned = Some l ->
  l = [] /\ began + timeout + d <= returned.
Proof. exact set_back_longer. Qed.
Print Assumptions C77_set_back.
(** so that no bound holds for all clocks; *)
Theorem C77_over_in_time_refuted : forall m, let d := 50000 * Z.of_nat m in
  exists looks final returned,
    schedule 0 looks final returned /\ prompt 0 0 looks final returned
    /\ execute_waits (mkWaited [] (set_by 50000 (- d))) 1000000 0 looks final returned = Some []
    /\ returned = 1000000 + d.
Proof. exact set_back_witness. Qed.
Print Assumptions C77_over_in_time_refuted.
(** a clock that is set forward ends the call before its time, and the answer is
    not returned. *)
Theorem C77_full_timeout_refuted : exists w timeout began looks final returned a,
  never_back (w_clock w) /\ filed w /\ schedule began looks final returned /\ prompt 0 began looks final returned
  /\ In a (w_answers w) /\ c_completed (an_command a) = true /\ an_flagged a < began + timeout
  /\ execute_waits w timeout began looks final returned = Some [].
Proof. exact set_forward_witness. Qed.
Print Assumptions C77_full_timeout_refuted.
(** A timeout of zero does not wait, a negative one looks once. *)
Theorem C77_no_waiting : forall w timeout began looks final returned l,
  (timeout = 0 -> execute_waits w timeout began looks final returned = Some l -> looks = [] /\ l = [])
  /\ (timeout < 0 -> never_back (w_clock w) -> schedule began looks final returned ->
      execute_waits w timeout began looks final returned = Some l -> length looks = 1%nat).
Proof. exact (fun w timeout began looks final returned l => conj (zero_timeout w timeout began looks final returned l) (negative_timeout w timeout began looks final returned l)). Qed.
Print Assumptions C77_no_waiting.

(** the answer arrives while the thread sleeps for the second time *)
Definition late_answer : Answer := mkAnswer (mkCommand [] None false (Some 7) true true None) 70000 71000.
Definition partial_answer : Answer := mkAnswer (mkCommand [] None false (Some 7) true false None) 3000 3000.
Definition some_wait : Waited := mkWaited [partial_answer; late_answer] (fun t => t + 5).
Example C77_case : let looks := [mkLook 1 2; mkLook 50003 50004; mkLook 100010 100010] in
  honest (w_clock some_wait) /\ filed some_wait /\ schedule 0 looks 100011 100012 /\ prompt 10 0 looks 100011 100012
  /\ complete_by some_wait 71000
  /\ execute_waits some_wait 100000 0 looks 100011 100012 = Some [an_command partial_answer; an_command late_answer]
  /\ execute_waits (mkWaited [partial_answer] (fun t => t + 5)) 100000 0 looks 100011 100012 = Some [].
Proof.
  cbv zeta. refine (conj _ (conj _ (conj _ (conj _ (conj _ (conj eq_refl eq_refl)))))).
  - intros a b. cbn. ring.
  - intros a [<-|[<-|[]]]; cbn; discriminate.
  - repeat split; cbn; discriminate.
  - repeat split; cbn; discriminate.
  - exists late_answer. repeat split; cbn; [auto | discriminate].
Qed.
