(** The modem: destinations of messages, histories, undisturbed schedules. *)
From Verif Require Export SSerial MModem.

(** ** Where a message can end up *)
Inductive Place := PResult | PCallback | PUnsolicited | PRebootCallback | PReboots | PLog.

(** [x] is a command answering the tag the modem currently waits for *)
Definition answers (tag : option Z) (x : Msg) : Prop := exists c, x = MCmd c /\ c_tag c = tag.
Definition is_answer (m : Modem) (x : Msg) : Prop := m_skip m = false /\ answers (m_tag m) x.

(** [goes m t x p]: in state [m] the message [x] of type [t] belongs in [p] *)
Inductive goes (m : Modem) (t : Z) (x : Msg) : Place -> Prop :=
| goes_result : t <= 3 -> is_answer m x -> goes m t x PResult
| goes_callback : t <= 3 -> ~ is_answer m x -> m_has_cb m = true -> m_connected m = true ->
    goes m t x PCallback
| goes_unsolicited : t <= 3 -> ~ is_answer m x -> m_has_cb m = false \/ m_connected m = false ->
    goes m t x PUnsolicited
| goes_reboot_callback : t = 5 -> m_has_rbcb m = true -> goes m t x PRebootCallback
| goes_reboots : t = 5 -> m_has_rbcb m = false -> goes m t x PReboots
| goes_log : t = 4 -> goes m t x PLog.

(** the messages a place has received *)
Definition inbox (p : Place) (m : Modem) : list Msg :=
  match p with
  | PResult => nth (m_resp m) (m_heap m) []
  | PCallback => m_cb_calls m
  | PUnsolicited => m_unsol m
  | PRebootCallback => m_rb_calls m
  | PReboots => m_rebooted m
  | PLog => m_logged m
  end.

(** [sorted m p msgs sel]: [sel] are the messages of [msgs] that belong in [p],
    in the order of [msgs] *)
Inductive sorted (m : Modem) (p : Place) : list (Z * Msg) -> list Msg -> Prop :=
| sorted_nil : sorted m p [] []
| sorted_take t x ms sel : goes m t x p -> sorted m p ms sel -> sorted m p ((t, x) :: ms) (x :: sel)
| sorted_skip t x ms sel : ~ goes m t x p -> sorted m p ms sel -> sorted m p ((t, x) :: ms) sel.

(** ** Histories: the application and the reader take turns; [EConnected] is
    [connect()] setting the flag *)
Inductive Event := EMsg (t : Z) (x : Msg) | ECommand (tag : option Z) (timeout : Z) | EConnected.
Definition set_connected (m : Modem) : Modem :=
  mkModem (m_skip m) (m_has_cb m) (m_has_rbcb m) true (m_heap m) (m_resp m) (m_tag m) (m_completed m)
          (m_unsol m) (m_rebooted m) (m_cb_calls m) (m_rb_calls m) (m_logged m).
Definition after (m : Modem) (e : Event) : Modem :=
  match e with
  | EMsg t x => dispatch m (t, x)
  | ECommand tag timeout => exec_start m tag timeout
  | EConnected => set_connected m
  end.
Definition history (m : Modem) (h : list Event) : Modem := fold_left after h m.
Definition reached (m : Modem) : Prop :=
  exists skip cb rbcb h, m = history (new_modem skip cb rbcb) h.

(** the last command sent, if any: tag and timeout *)
Fixpoint last_command (h : list Event) : option (option Z * Z) :=
  match h with
  | [] => None
  | e :: r => match last_command r with
              | Some c => Some c
              | None => match e with ECommand tag timeout => Some (tag, timeout) | _ => None end
              end
  end.
(** the tag whose responses are being collected after a history *)
Definition collecting (h : list Event) : option Z :=
  match last_command h with
  | Some (tag, timeout) => if 0 <? timeout then tag else None
  | None => None
  end.

(** ** Answers among messages *)
Inductive answers_in (tag : option Z) : list (Z * Msg) -> list Msg -> Prop :=
| answers_nil : answers_in tag [] []
| answers_take t x ms sel : t <= 3 -> answers tag x -> answers_in tag ms sel ->
    answers_in tag ((t, x) :: ms) (x :: sel)
| answers_skip t x ms sel : 3 < t \/ ~ answers tag x -> answers_in tag ms sel ->
    answers_in tag ((t, x) :: ms) sel.
Definition some_completed (l : list Msg) : Prop := exists c, In (MCmd c) l /\ c_completed c = true.

(** ** Schedules *)
(** the application is between the first and the last assignment of its set-up *)
Definition resetting (a : APC) : bool :=
  match a with AResetList _ _ | AResetTag _ _ | AResetCompleted _ _ | ASetTag _ => true | _ => false end.
(** a schedule in which the reader handles no message during the set-up of
    [execute_command]: it is idle when the call starts and takes no message
    until the set-up is over; everything else interleaves freely *)
Definition undisturbed_label (w : World) (l : Label) : Prop :=
  match l with
  | LExec _ _ => w_r w = RIdle
  | LMsg _ _ => resetting (w_a w) = false
  | _ => True
  end.
Inductive undisturbed : World -> list Label -> World -> Prop :=
| undisturbed_nil w : undisturbed w [] w
| undisturbed_cons w l w1 ls w2 : undisturbed_label w l -> step w l = Some w1 -> undisturbed w1 ls w2 ->
    undisturbed w (l :: ls) w2.

(** messages taken by the reader *)
Fixpoint arrivals (ls : list Label) : list (Z * Msg) :=
  match ls with
  | [] => []
  | LMsg t x :: r => (t, x) :: arrivals r
  | _ :: r => arrivals r
  end.
Definition no_exec (ls : list Label) : Prop := forall tag sync, ~ In (LExec tag sync) ls.
Definition prefix {A} (a b : list A) : Prop := exists c, b = a ++ c.

(** ** The reader thread fed by the device *)
Definition read_chunks (lib : bool) (r : Reader) (chunks : list (list Z)) : Reader :=
  fold_left (reader_chunk lib) chunks r.
(** A frame sent by the modem to a bridge: counter, type, payload.  A reboot
    notification has one byte, the reason. *)
Definition bridge_frame (f : Z * Z * list Z) : list Z := let '(c, t, payload) := f in frame c t payload.
Definition bridge_ok (f : Z * Z * list Z) : Prop :=
  let '(c, t, payload) := f in
  is_byte c /\ is_byte t /\ is_payload payload /\ (t = 5 -> length payload = 1%nat).
(** the payloads of the frames whose type satisfies [sel] *)
Definition payloads (sel : Z -> bool) (fs : list (Z * Z * list Z)) : list (list Z) :=
  map snd (filter (fun f => sel (snd (fst f))) fs).
Definition reasons (fs : list (Z * Z * list Z)) : list Z := map (fun l => hd 0 l) (payloads (Z.eqb 5) fs).
(** [returned ls (tag, list, value)]: in the schedule [ls] there is a call of
    [execute_command] that gave back [value]: empty and a fresh list; or a
    synchronous one, and [value] is a completed run of the answers that arrived
    after the call began and before another one did *)
Definition returned (ls : list Label) (r : option Z * option nat * list Msg) : Prop :=
  let '(tag, obj, value) := r in
  (obj = None /\ value = [] /\ exists sync, In (LExec tag sync) ls)
  \/ exists before during later sel,
       ls = before ++ LExec tag true :: during ++ later /\ no_exec during
       /\ answers_in tag (arrivals during) sel /\ prefix value sel /\ some_completed value.

(** [x] arrived in the schedule [ls] and is untagged or carries the tag of some
    synchronous command issued in it *)
Definition known (ls : list Label) (x : Msg) : Prop :=
  exists c, x = MCmd c /\ (exists t, In (LMsg t x) ls /\ t <= 3)
    /\ (c_tag c = None \/ In (LExec (c_tag c) true) ls).

(** a bare response, for examples *)
Definition answer (tag : option Z) (completed : bool) : Command := mkCommand [] None false tag false completed None.

(** ** List objects *)
(** content of the list object [r] *)
Definition list_object (w : World) (r : nat) : list Msg := nth r (m_heap (w_m w)) [].
Definition exists_object (w : World) (r : nat) : Prop := (r < length (m_heap (w_m w)))%nat.
(** a newer list has replaced [r], and the reader is not about to append to it *)
Definition retired (w : World) (r : nat) : Prop :=
  r <> m_resp (w_m w) /\ forall x, w_r w <> RAppend r x.
(** the message the reader is handling, if any *)
Definition in_hand (w : World) : list Msg :=
  match w_r w with RTest _ x => [x] | RLoad x => [x] | RAppend _ x => [x] | _ => [] end.
(** order-preserving selection *)
Inductive subsequence {A} : list A -> list A -> Prop :=
| sub_nil : subsequence [] []
| sub_take x a b : subsequence a b -> subsequence (x :: a) (x :: b)
| sub_skip x a b : subsequence a b -> subsequence a (x :: b).
