(** One modem object over time: the device, commands, connect(). *)
From Verif Require Export SModem SFiles MConnect.

(** ** Life of a session *)
Definition devices (lib : bool) (s : Session) (es : list DeviceEvent) : Session := fold_left (device lib) es s.
Inductive Act := ADevice (e : DeviceEvent) | AExecute (c : Command) (timeout : Z).
Definition act (lib : bool) (s : Session) (a : Act) : Session :=
  match a with ADevice e => device lib s e | AExecute c timeout => fst (execute s c timeout) end.
Definition acts (lib : bool) (s : Session) (l : list Act) : Session := fold_left (act lib) l s.
Definition alive (s : Session) : bool := r_alive (se_reader s).
Definition session_inbox (p : Place) (s : Session) : list Msg := inbox p (r_modem (se_reader s)).

(** the reader thread survives [es]: the device never raises and no [parse] does *)
Definition chunks_of (es : list DeviceEvent) : list (list Z) :=
  flat_map (fun e => match e with DBytes [] => [] | DBytes c => [c] | DException => [] end) es.
Definition survives (lib : bool) (p : SParser) (es : list DeviceEvent) : Prop :=
  ~ In DException es /\ exists p' ms errs, feeds lib p (chunks_of es) p' ms errs.

(** ** What connect() looks at: the files returned in a command *)
Definition returned_files (c : Command) : list (Z * list Z) :=
  flat_map (fun a => match a_kind a, a_op a with
                     | Regular _ _, ReturnFileData d _ => [(off_id (d_offset d), d_data d)]
                     | _, _ => []
                     end) (c_actions c).
(** content of the last returned file with identifier [i] *)
Fixpoint latest (i : Z) (files : list (Z * list Z)) : option (list Z) :=
  match files with
  | [] => None
  | (j, d) :: r => match latest i r with
                   | Some x => Some x
                   | None => if j =? i then Some d else None
                   end
  end.
Definition big_endian (l : list Z) : Z := fold_left (fun a b => 256 * a + b) l 0.
Definition is_firmware (d : list Z) (f : FirmwareVersionFile) : Prop :=
  exists s, fw_parse (stream_of d) = Ok (f, s).
(** a file connect() can use: the UID (file 0) has 8 bytes, the firmware version
    (file 2) can be parsed; other files are ignored *)
Definition usable (f : Z * list Z) : Prop :=
  let (i, d) := f in
  (i = 0 -> length d = 8%nat /\ Forall is_byte d) /\ (i = 2 -> exists v, is_firmware d v).
(** what is known afterwards, given what was known [before] *)
Definition learns_uid (before : option Z) (files : list (Z * list Z)) (now : option Z) : Prop :=
  match latest 0 files with Some d => now = Some (big_endian d) | None => now = before end.
Definition learns_fw (before : option FirmwareVersionFile) (files : list (Z * list Z))
  (now : option FirmwareVersionFile) : Prop :=
  match latest 2 files with Some d => exists f, now = Some f /\ is_firmware d f | None => now = before end.
Definition known_both (s : Session) : Prop := se_uid s <> None /\ se_fw s <> None.
Definition connected (s : Session) : bool := m_connected (r_modem (se_reader s)).

(** ** Bytes *)
(** the request with tag [tag]: tag request, read 8 bytes of file 0, read 17
    bytes of file 2 *)
Definition connect_request (tag : Z) : list Z := [180; tag; 1; 0; 0; 8; 1; 2; 0; 17].
(** a modem's answer: tag response (end of packet), both files *)
Definition fw_bytes (f : FirmwareVersionFile) : list Z :=
  [fw_major f; fw_minor f; fw_fs_major f; fw_fs_minor f] ++ padded 6 (fw_app f) ++ padded 7 (fw_git f).
Definition connect_answer (tag : Z) (uid : list Z) (f : FirmwareVersionFile) : list Z :=
  [163; tag; 32; 0; 0; 8] ++ uid ++ [32; 2; 0; 17] ++ fw_bytes f.

(** a session that can be used: reader running, nothing half received, not in
    bridge mode, not connected *)
Definition ready (s : Session) : Prop :=
  alive s = true /\ sp_buf (r_parser (se_reader s)) = [] /\ sp_skip (r_parser (se_reader s)) = false
  /\ is_byte (sp_down (r_parser (se_reader s))) /\ is_byte (sp_up (r_parser (se_reader s)))
  /\ m_skip (r_modem (se_reader s)) = false /\ connected s = false.
(** traffic without a command carrying the tag *)
Definition unrelated (tag : Z) (tr : list Sent) : Prop := Forall (fun x => ~ answers (Some tag) (s_msg x)) tr.
(** the device delivers bytes, or raises *)
Definition event_bytes (e : DeviceEvent) : Prop := match e with DBytes c => Forall is_byte c | DException => True end.
