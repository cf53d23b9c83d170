(** modem/modem.py: one [Modem] object with its parser, its reader thread, the
    bytes written to the device, and [connect()] *)
From Verif Require Import MBase MSp MOperands MSysFiles MAlp MSerial MModem.

(** modem.py:52-86.  [se_uid] is the number the attribute [uid] shows in
    hexadecimal ([None] before it is known); [se_sent] are the bytes written to
    the device so far. *)
Record Session := mkSession
  { se_reader : Reader; se_uid : option Z; se_fw : option FirmwareVersionFile; se_sent : list Z }.
Definition new_session (skip cb rbcb : bool) : Session :=
  mkSession (mkReader (new_parser skip) (new_modem skip cb rbcb) true) None None [].

(** What the device does to the reader thread, modem.py:204-214: deliver bytes,
    or raise [SerialException].  The handler calls [self._connect_serial_modem],
    which does not exist: [AttributeError], not caught, the thread ends. *)
Inductive DeviceEvent := DBytes (chunk : list Z) | DException.
Definition device (lib : bool) (s : Session) (e : DeviceEvent) : Session :=
  let r := se_reader s in
  mkSession (match e with
             | DBytes chunk => reader_chunk lib r chunk
             | DException => mkReader (r_parser r) (r_modem r) false
             end) (se_uid s) (se_fw s) (se_sent s).

(** [execute_command] up to the waiting loop, modem.py:145-161: the frame is
    built first, so an exception there leaves everything as it was *)
Definition execute (s : Session) (c : Command) (timeout : Z) : Session * res unit :=
  let r := se_reader s in
  let (p, f) := build_serial_frame (r_parser r) (command_ser c) in
  match f with
  | Err e => (s, Err e)
  | Ok bytes =>
      (mkSession (mkReader p (exec_start (r_modem r) (c_tag c) timeout) (r_alive r))
                 (se_uid s) (se_fw s) (se_sent s ++ bytes), Ok tt)
  end.
(** the value [execute_command] returns when the waiting loop ends now *)
Definition execute_result (s : Session) : list Msg := exec_result (r_modem (se_reader s)).

(** ** connect(), modem.py:89-139 *)

(** the command, modem.py:97-107; [rnd] is the random tag *)
Definition connect_command (rnd : Z) : res Command :=
  let fw := F_Fw (mkFw 0 0 0 0 [] []) in
  let! c := create_read_sys rnd (F_Uid (mkUid 0)) IF_HOST None in
  let! o := sys_offset fw in
  let! n := file_length fw in
  let! d := mk_data_request n o in
  let! a := mk_action (Regular false false) (ReadFileData d) in
  Ok (add_action c a).

(** one round of the loop modem.py:121-126: uid and firmware version, and the
    exception if one is raised; [struct.unpack] needs exactly 8 bytes *)
Definition connect_action (st : option Z * option FirmwareVersionFile) (a : Action)
  : (option Z * option FirmwareVersionFile) * option exn :=
  match a_kind a, a_op a with
  | Regular _ _, ReturnFileData d _ =>
      let i := off_id (d_offset d) in
      if i =? 0 then
        if Nat.eqb (length (d_data d)) 8
        then ((Some (bits_val (bytes_bits (d_data d))), snd st), None)
        else (st, Some StructError)
      else if i =? 2 then
        match fw_parse (stream_of (d_data d)) with
        | Ok (f, _) => ((fst st, Some f), None)
        | Err e => (st, Some e)
        end
      else (st, None)
  | _, _ => (st, None)
  end.
Fixpoint connect_actions (st : option Z * option FirmwareVersionFile) (l : list Action)
  : (option Z * option FirmwareVersionFile) * option exn :=
  match l with
  | [] => (st, None)
  | a :: r => match connect_action st a with
              | (st, None) => connect_actions st r
              | (st, Some e) => (st, Some e)
              end
  end.

Definition with_connected (s : Session) (uid : option Z) (fw : option FirmwareVersionFile)
  (connected : bool) : Session :=
  let r := se_reader s in let m := r_modem r in
  mkSession (mkReader (r_parser r)
               (mkModem (m_skip m) (m_has_cb m) (m_has_rbcb m) connected (m_heap m) (m_resp m) (m_tag m)
                        (m_completed m) (m_unsol m) (m_rebooted m) (m_cb_calls m) (m_rb_calls m) (m_logged m))
               (r_alive r)) uid fw (se_sent s).

(** where a call of [connect] stands: returned a value ([None] for Python's
    [None]), raised, or waiting for the answer (at most 10 s) *)
Inductive Progress := Returned (v : option bool) | Raised (e : exn) | Waiting.

(** modem.py:90-113 *)
Definition connect_begin (rnd : Z) (check_alive : bool) (s : Session) : Session * Progress :=
  let m := r_modem (se_reader s) in
  if m_connected m then (s, Returned None)
  else if negb check_alive then (with_connected s (se_uid s) (se_fw s) true, Returned (Some true))
  else match connect_command rnd with
       | Err e => (s, Raised e)
       | Ok c =>
           if m_skip m then
             match execute (with_connected s (se_uid s) (se_fw s) true) c 0 with
             | (s', Ok _) => (s', Returned (Some true))
             | (s', Err e) => (s', Raised e)
             end
           else match execute s c 10 with
                | (s', Ok _) => (s', Waiting)
                | (s', Err e) => (s', Raised e)
                end
       end.

(** modem.py:113-139, when the waiting loop ends: only the first response is
    looked at; [firmware_version] objects and non-empty strings are true *)
Definition connect_end (s : Session) : Session * Progress :=
  match execute_result s with
  | [] => (s, Returned (Some false))
  | MCmd c :: _ =>
      let '((uid, fw), e) := connect_actions (se_uid s, se_fw s) (c_actions c) in
      let m := r_modem (se_reader s) in
      match e with
      | Some e => (with_connected s uid fw (m_connected m), Raised e)
      | None =>
          let connected := match uid, fw with Some _, Some _ => true | _, _ => m_connected m end in
          (with_connected s uid fw connected, Returned (Some connected))
      end
  | _ :: _ => (s, Raised AttributeError)
  end.
