(** A conversation: an application executes commands one after the other on one
    modem object; bytes in both directions. *)
From Verif Require Export SBuild SModem SConnect.

(** one call of [execute_command]: the command, its timeout, the messages the
    other side sends between the call and the next one, and how their bytes are
    cut into pieces by the serial port *)
Record Exchange := mkExchange
  { x_command : Command; x_timeout : Z; x_traffic : list Sent; x_chunks : list (list Z) }.
Definition exchange_ok (x : Exchange) : Prop :=
  command_wf (x_command x) /\ command_bytes (x_command x) <= 255 /\ 0 < x_timeout x
  /\ Forall (sent_ok false) (x_traffic x) /\ concat (x_chunks x) = wire (x_traffic x).

(** the calls in turn, and the value each returns *)
Definition exchange (lib : bool) (s : Session) (x : Exchange) : Session * res (list Msg) :=
  let (s1, r) := execute s (x_command x) (x_timeout x) in
  match r with
  | Err e => (s1, Err e)
  | Ok _ => let s2 := devices lib s1 (map DBytes (x_chunks x)) in (s2, Ok (execute_result s2))
  end.
Fixpoint converse (lib : bool) (s : Session) (xs : list Exchange) : Session * list (res (list Msg)) :=
  match xs with
  | [] => (s, [])
  | x :: r => let (s1, v) := exchange lib s x in let (s2, vs) := converse lib s1 r in (s2, v :: vs)
  end.

(** a modem object in use: reader running, nothing half received, not in bridge mode *)
Definition in_use (s : Session) : Prop :=
  alive s = true /\ sp_buf (r_parser (se_reader s)) = [] /\ sp_skip (r_parser (se_reader s)) = false
  /\ is_byte (sp_down (r_parser (se_reader s))) /\ is_byte (sp_up (r_parser (se_reader s)))
  /\ m_skip (r_modem (se_reader s)) = false.

(** ** What belongs to an exchange *)
Definition same_tag (a b : option Z) : bool :=
  match a, b with
  | Some x, Some y => x =? y
  | None, None => true
  | _, _ => false
  end.
(** a command of type at most 3 with the tag *)
Definition is_reply (tag : option Z) (tx : Z * Msg) : bool :=
  (fst tx <=? 3) && match snd tx with MCmd c => same_tag (c_tag c) tag | _ => false end.
Definition ends_execution (x : Msg) : bool := match x with MCmd c => c_completed c | _ => false end.
Definition pick (f : Z * Msg -> bool) (x : Exchange) : list Msg := map snd (filter f (delivered (x_traffic x))).
Definition replies (x : Exchange) : list Msg := pick (is_reply (c_tag (x_command x))) x.
Definition others (x : Exchange) : list Msg :=
  pick (fun tx => (fst tx <=? 3) && negb (is_reply (c_tag (x_command x)) tx)) x.
Definition of_type (t : Z) (x : Exchange) : list Msg := pick (fun tx => fst tx =? t) x.
(** what the call must return: all replies once one of them ends the execution,
    nothing otherwise *)
Definition expected (x : Exchange) : list Msg :=
  if existsb ends_execution (replies x) then replies x else [].

(** where messages that are no replies go *)
Definition to_callback (s : Session) : bool := m_has_cb (r_modem (se_reader s)) && connected s.
Definition to_reboot_callback (s : Session) : bool := m_has_rbcb (r_modem (se_reader s)).

(** ** Replies made with the library: tag_id not generated, a tag response added
    first, then other actions *)
Record Reply := mkReply { re_eop : bool; re_error : bool; re_actions : list Action }.
Definition tag_response (tag : Z) (r : Reply) : Action :=
  mkAction (TagRespAct (re_eop r) (re_error r)) (TagResponse (mkTag tag)).
Definition reply_calls (tag : Z) (r : Reply) : list Call :=
  AddAction (tag_response tag r) :: map AddAction (re_actions r).
(** [c] is such a reply *)
Definition reply_command (tag : Z) (r : Reply) (c : Command) : Prop :=
  exists rnd c0, mk_command rnd [] false None true = Ok c0 /\ fst (calls c0 (reply_calls tag r)) = c.
Definition reply_ok (tag : Z) (r : Reply) : Prop :=
  0 <= tag <= 255 /\ Forall action_wf (re_actions r) /\ forallb plain (re_actions r) = true
  /\ zlen (flat_map action_layout (re_actions r)) / 8 <= 253.
(** how the receiver sees it *)
Definition reply_seen (tag : Z) (r : Reply) : Command :=
  mkCommand (map action_received (re_actions r)) None false (Some tag) true (re_eop r) (Some (re_error r)).
