(** What calls of several threads and of callbacks may return, told from the
    sequence of observable events alone. *)
From Verif Require Export SReenter MBoth.

Definition starts_call (e : Event) : bool := match e with EvStart _ _ _ => true | _ => false end.
Definition same_caller (a b : Who) : bool :=
  match a, b with
  | TheCallback, TheCallback => true
  | TheThread i, TheThread j => Nat.eqb i j
  | _, _ => false
  end.
Definition by_caller (a : Who) (e : Event) : bool :=
  match e with EvStart b _ _ | EvReturn b _ _ _ => same_caller a b | EvMessage _ => false end.
Definition is_message (e : Event) : bool := match e with EvMessage _ => true | _ => false end.

Definition no_start (l : list Event) : Prop := Forall (fun e => starts_call e = false) l.
(** a caller neither starts nor ends a call *)
Definition silent (a : Who) (l : list Event) : Prop := Forall (fun e => by_caller a e = false) l.
Definition no_message (l : list Event) : Prop := Forall (fun e => is_message e = false) l.

(** the tag under which responses to a call are collected: none when the call
    does not wait *)
Definition wanted_tag (c : Command) (timeout : Z) : option Z := if 0 <? timeout then c_tag c else None.
(** a message counts as a response to a call: a decoded command of a response
    type with that tag *)
Definition answers_call (skip : bool) (c : Command) (timeout : Z) (tx : Z * Msg) : bool :=
  match snd tx with
  | MCmd d => negb skip && (fst tx <=? 3)
              && match wanted_tag c timeout, c_tag d with
                 | Some a, Some b => a =? b
                 | None, None => true
                 | _, _ => false
                 end
  | _ => false
  end.
Fixpoint responses (skip : bool) (c : Command) (timeout : Z) (l : list Event) : list Msg :=
  match l with
  | [] => []
  | EvMessage tx :: r => if answers_call skip c timeout tx then snd tx :: responses skip c timeout r else responses skip c timeout r
  | _ :: r => responses skip c timeout r
  end.
(** says that the command is completely executed *)
Definition final (x : Msg) : bool := match x with MCmd d => c_completed d | _ => false end.
(** what a call gets: all responses if the final one has come, else nothing *)
Definition collected (skip : bool) (c : Command) (timeout : Z) (l : list Event) : list Msg :=
  let rs := responses skip c timeout l in if existsb final rs then rs else [].

(** the accepted calls in order, in the form [outgoing] takes *)
Definition calls_made (l : list Event) : list (Command * Z * res (list Msg)) :=
  flat_map (fun e => match e with EvStart _ c t => [(c, t, Ok [])] | _ => [] end) l.
(** no frame can be built for the command *)
Definition refused (c : Command) (e : exn) : Prop :=
  forall p, is_byte (sp_up p) -> snd (build_serial_frame p (command_ser c)) = Err e.
Definition skips (s : Session) : bool := m_skip (r_modem (se_reader s)).
