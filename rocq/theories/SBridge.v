(** The bridge to MQTT: schedules, and what is published. *)
From Verif Require Export SConnect MBridge.

Fixpoint bridge_run (lib : bool) (rnd : Z) (b : Bridge) (ls : list BLabel) : option Bridge :=
  match ls with
  | [] => Some b
  | l :: r => match bridge_step lib rnd b l with Some b => bridge_run lib rnd b r | None => None end
  end.

(** the bytes the device has delivered in a schedule *)
Definition bytes_read (ls : list BLabel) : list Z :=
  flat_map (fun l => match l with BDevice (DBytes c) => c | _ => [] end) ls.
Definition only_bytes (ls : list BLabel) : Prop :=
  forall e, In (BDevice e) ls -> event_bytes e.
Definition device_fails (ls : list BLabel) : Prop := In (BDevice DException) ls.
(** the number of messages the reader has handled, and of those before the
    [n]-th step of the main thread *)
Fixpoint handled (ls : list BLabel) : nat :=
  match ls with
  | [] => O
  | BHandle :: r => S (handled r)
  | _ :: r => handled r
  end.
Fixpoint handled_before (n : nat) (ls : list BLabel) : nat :=
  match ls with
  | [] => O
  | BHandle :: r => S (handled_before n r)
  | BDevice _ :: r => handled_before n r
  | BMain :: r => match n with S (S n) => handled_before (S n) r | _ => O end
  end.
(** message types that carry ALP: 3 and below *)
Definition alp (t : Z) : bool := t <=? 3.
Definition published (b : Bridge) : list (list Z) :=
  flat_map (fun o => match o with Published x => [x] | Failed _ => [] end) (br_outcomes b).
Definition kept (b : Bridge) : list Msg := session_inbox PUnsolicited (br_session b).
Definition reading (b : Bridge) : bool := alive (br_session b).
(** the constructor has run before anything is received *)
Definition set_up : list BLabel := [BMain; BMain; BMain].
(** the payloads of the ALP messages among [ms] *)
Definition alp_payloads (ms : list (Z * Msg)) : list (list Z) :=
  flat_map (fun tx => if alp (fst tx) then match snd tx with MRaw l => [l] | _ => [] end else []) ms.
(** the statistics if [keep_stats] were called for each message: a message is
    counted or the loop wakes up at the time given.  The log lines with their
    times. *)
Inductive StatEvent := Counted | Woken (now : Z).
Fixpoint stats_log (s : Stats) (es : list StatEvent) : list (Z * Z) * Stats :=
  match es with
  | [] => ([], s)
  | Counted :: r => stats_log (keep_stats s) r
  | Woken now :: r =>
      let (s1, l) := report_stats now s in
      let (log, s2) := stats_log s1 r in (map (fun n => (now, n)) l ++ log, s2)
  end.
Definition counted_in (es : list StatEvent) : Z := zlen (filter (fun e => match e with Counted => true | _ => false end) es).
Definition total (log : list (Z * Z)) : Z := fold_right (fun x n => snd x + n) 0 log.
(** the messages of one type among [ms] *)
Definition of_kind (t : Z) (ms : list (Z * Msg)) : list Msg := map snd (filter (fun tx => fst tx =? t) ms).
