(** The waiting loop of [Modem.execute_command], modem/modem.py:163-175, with
    instants and a clock.

    An instant is a number of microseconds of real time.  [datetime.now()] is
    the computer's clock, which somebody may set: [w_clock] is any function from
    instants to what it shows.  [timeout] is in microseconds too (the code
    compares seconds; whole numbers of seconds are multiples of 1000000).  The
    answers are those the reader thread files under the tag of the call; where
    they come from is in MModem.v and MThreads.v. *)
From Verif Require Export MBase MAlp MSerial.

(** One answer: when the reader thread appends it to
    [_sync_execution_response_cmds] and when it gets past the test of
    [execution_completed] and has set [_sync_execution_completed] if it is to be
    set, modem.py:223-226. *)
Record Answer := mkAnswer { an_command : Command; an_appended : Z; an_flagged : Z }.
Record Waited := mkWaited { w_answers : list Answer; w_clock : Z -> Z }.

(** [_sync_execution_completed] at an instant; execute_command has set it to
    False at the start, modem.py:154 *)
Definition completed_at (w : Waited) (t : Z) : bool :=
  existsb (fun a => c_completed (an_command a) && (an_flagged a <=? t)) (w_answers w).
(** what is in [_sync_execution_response_cmds] at an instant *)
Definition collected_at (w : Waited) (t : Z) : list Command :=
  map an_command (filter (fun a => an_appended a <=? t) (w_answers w)).

(** One evaluation of the condition in modem.py:168: the flag is read at
    [lk_flag]; the clock at [lk_clock], if the flag was not set (otherwise that
    instant is not used). *)
Record Look := mkLook { lk_flag : Z; lk_clock : Z }.
Definition goes_on (w : Waited) (timeout start : Z) (k : Look) : bool :=
  negb (completed_at w (lk_flag k)) && (w_clock w (lk_clock k) - start <? timeout).

(** The loop in lines 168-169: [None] while it has not ended within these looks,
    otherwise the looks it did not use.  Between two looks lies a
    [time.sleep(0.05)]. *)
Fixpoint wait_loop (w : Waited) (timeout start : Z) (looks : list Look) : option (list Look) :=
  match looks with
  | [] => None
  | k :: r => if goes_on w timeout start k then wait_loop w timeout start r else Some r
  end.

(** Lines 163-175.  [start_time] is read at the instant [began]; the flag is read
    once more at [final]; [returned] is the instant at which the caller has the
    list (the object returned may still grow, C46).  [Some] if the looks are
    exactly those of the loop. *)
Definition execute_waits (w : Waited) (timeout began : Z) (looks : list Look) (final returned : Z) : option (list Command) :=
  if timeout =? 0 then match looks with [] => Some [] | _ => None end
  else match wait_loop w timeout (w_clock w began) looks with
       | Some [] => Some (if completed_at w final then collected_at w returned else [])
       | _ => None
       end.
