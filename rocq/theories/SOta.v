(** Writing a file to a node in pieces. *)
From Verif Require Export SSerial SConnect MOta.

(** a node storing [data] at [offset] in a file *)
Definition write_at (offset : Z) (data file : list Z) : list Z :=
  firstn (Z.to_nat offset) file ++ data ++ skipn (Z.to_nat offset + length data) file.
(** what a node that receives [c] does to its file [id] *)
Definition node_write (id : Z) (file : list Z) (a : Action) : list Z :=
  match a_op a with
  | WriteFileData d => if off_id (d_offset d) =? id
                       then write_at (len_value (off_offset (d_offset d))) (d_data d) file else file
  | _ => file
  end.
Definition node_receives (id : Z) (file : list Z) (c : Command) : list Z :=
  fold_left (node_write id) (c_actions c) file.

(** a call of [execute_command] whose result contains a response with its tag
    that reports completion without error *)
Definition confirmed (call : Command * list Msg) : Prop :=
  exists a, In (MCmd a) (snd call) /\ c_tag a = c_tag (fst call) /\ c_completed a = true /\ c_error a <> Some true.
(** one after the other the receiver gets these commands *)
Definition received_over (lib : bool) (bytes : list Z) (cmds : list Command) : Prop :=
  forall q chunks, sp_skip q = false -> sp_buf q = [] -> concat chunks = bytes -> chunks <> [] ->
  exists q', feeds lib q chunks q' (map (fun c => (1, MCmd c)) cmds) [] /\ sp_buf q' = [].
(** a modem that can be used synchronously *)
Definition usable_session (s : Session) : Prop :=
  is_byte (sp_up (r_parser (se_reader s))) /\ m_skip (r_modem (se_reader s)) = false.
(** a run of the script: the modem before it, the image, the rounds *)
Definition ota_run (lib : bool) (s : Session) (file : list Z) (rounds : list (Z * list DeviceEvent))
  (s' : Session) (log : list (Command * list Msg)) (st : OtaState) : Prop :=
  usable_session s /\ Forall is_byte file /\ Forall (fun r => 0 <= fst r <= 255) rounds
  /\ ota lib s file 0 rounds = (s', log, st).
Definition commands_of (log : list (Command * list Msg)) : list Command := map (fun x => command_received (fst x)) log.
