(** tools/modem2mqtt.py: the program that forwards what the modem receives to an
    MQTT broker.  Two threads: the main thread runs the constructor and then
    sleeps, the reader thread of the [Modem] object reads from the device and
    calls [on_command_received]. *)
From Verif Require Import MBase MSp MOperands MSysFiles MAlp MSerial MModem MConnect.

(** How far the main thread is in [__init__] and [connect_to_mqtt]
    (modem2mqtt.py:64-79): the [Modem] object exists; [connect()] has returned;
    [self.mq] has been assigned; [self.mqtt_topic_incoming] has been assigned.
    What follows (connecting to the broker, waiting for it, [run]) changes
    nothing the reader looks at. *)
Inductive Setup := ModemMade | ModemConnected | ClientMade | TopicKnown.

(** What a call of the callback does: hand bytes to the MQTT client, or log the
    exception it caught. *)
Inductive Outcome := Published (bytes : list Z) | Failed (e : exn).

(** on_command_received, modem2mqtt.py:109-121, and publish_to_mqtt, 100-101.
    [len] fails on a number and on a [Command]; without the attributes
    [self.mq] and [self.mqtt_topic_incoming] there is an [AttributeError].
    Every exception is caught.  What the client does with the message is not
    modelled. *)
Definition on_command_received (st : Setup) (cmd : Msg) : Outcome :=
  match cmd with
  | MRaw bytes =>
      match st with
      | TopicKnown => Published bytes
      | _ => Failed AttributeError
      end
  | MInt _ | MCmd _ => Failed TypeError
  end.

(** [br_pending]: the messages of the last chunk the reader still has to handle
    (the loop modem.py:220-242); [br_outcomes]: the calls of the callback *)
Record Bridge := mkBridge
  { br_session : Session; br_pending : list (Z * Msg); br_setup : Setup; br_outcomes : list Outcome }.

(** modem2mqtt.py:64: [Modem(device, rate, callback, skip_alp_parsing=True)]
    starts the reader, modem.py:87 *)
Definition bridge_start : Bridge := mkBridge (new_session true true false) [] ModemMade [].

(** One step: the device answers the [read] of the reader (modem.py:206-219),
    the reader handles one message (modem.py:220-242), the main thread runs its
    next assignment.  The first of these is [connect()] (modem2mqtt.py:65); its
    effects on the two threads' common state are one step here, because in this
    mode the reader looks only at [connected]. *)
Inductive BLabel := BDevice (e : DeviceEvent) | BHandle | BMain.
Definition with_reader (s : Session) (r : Reader) : Session := mkSession r (se_uid s) (se_fw s) (se_sent s).
Definition bridge_step (lib : bool) (rnd : Z) (b : Bridge) (l : BLabel) : option Bridge :=
  let s := br_session b in
  let r := se_reader s in
  match l with
  | BDevice e =>
      match r_alive r, br_pending b with
      | true, [] =>
          match e with
          | DException => Some (mkBridge (with_reader s (mkReader (r_parser r) (r_modem r) false)) [] (br_setup b) (br_outcomes b))
          | DBytes [] => Some b
          | DBytes chunk =>
              match sparse lib (r_parser r) chunk with
              | (p, Ok res) => Some (mkBridge (with_reader s (mkReader p (r_modem r) true)) (pr_msgs res) (br_setup b) (br_outcomes b))
              | (p, Err _) => Some (mkBridge (with_reader s (mkReader p (r_modem r) false)) [] (br_setup b) (br_outcomes b))
              end
          end
      | _, _ => None
      end
  | BHandle =>
      match br_pending b with
      | [] => None
      | x :: rest =>
          let m := dispatch (r_modem r) x in
          let calls := skipn (length (m_cb_calls (r_modem r))) (m_cb_calls m) in
          Some (mkBridge (with_reader s (mkReader (r_parser r) m (r_alive r))) rest (br_setup b)
                         (br_outcomes b ++ map (on_command_received (br_setup b)) calls))
      end
  | BMain =>
      match br_setup b with
      | ModemMade => match connect_begin rnd true s with
                     | (s, Returned _) => Some (mkBridge s (br_pending b) ModemConnected (br_outcomes b))
                     | _ => None
                     end
      | ModemConnected => Some (mkBridge s (br_pending b) ClientMade (br_outcomes b))
      | ClientMade => Some (mkBridge s (br_pending b) TopicKnown (br_outcomes b))
      | TopicKnown => None
      end
  end.

(** ** Statistics, modem2mqtt.py:56-57, 137-145.  The log line is the number of
    messages. *)
Record Stats := mkStats { bridge_count : Z; next_report : Z }.
Definition no_stats : Stats := mkStats 0 0.
Definition keep_stats (s : Stats) : Stats := mkStats (bridge_count s + 1) (next_report s).
(** [now] is [time.time()] in whole seconds *)
Definition report_stats (now : Z) (s : Stats) : Stats * list Z :=
  if next_report s <? now
  then (mkStats (if 0 <? bridge_count s then 0 else bridge_count s) (now + 15),
        if 0 <? bridge_count s then [bridge_count s] else [])
  else (s, []).
(** run(), modem2mqtt.py:123-135: wakes up at the times [wakes], the last time
    because of Ctrl-C.  [keep_stats] is called nowhere. *)
Fixpoint run_reports (s : Stats) (wakes : list Z) : list Z :=
  match wakes with
  | [] => []
  | now :: r => let (s, log) := report_stats now s in log ++ run_reports s r
  end.
