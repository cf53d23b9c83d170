(** examples/write_update.py and engineering_mode.py with their callbacks, which
    leave the reader thread by an exception *)
From Verif Require Import MBase MOperands MAlp MSerial MModem MConnect MCallback MOta MPrograms.

(** received_command_callback, engineering_mode.py:53-56, write_update.py:53-56
    (and change_access_profile.py:46-49, interface_configuration.py:48-51,
    read_phy_status.py:38-41): [sys.exit(0)] in the reader thread raises
    [SystemExit], which ends that thread and nothing else.  rebooted_callback,
    engineering_mode.py:58-61, write_update.py:58-61, does not raise. *)
Definition exit_callbacks : Callbacks := mkCallbacks (fun _ x => msg_completed x) (fun _ _ => false).

(** as [device] with callbacks that can raise, modem.py:204-244 *)
Definition device_cb (lib : bool) (cbs : Callbacks) (s : Session) (e : DeviceEvent) : Session :=
  let r := se_reader s in
  mkSession (match e with
             | DBytes chunk => reader_chunk_cb lib cbs r chunk
             | DException => mkReader (r_parser r) (r_modem r) false
             end) (se_uid s) (se_fw s) (se_sent s).

(** the loop write_update.py:87-113, as [ota] with these callbacks *)
Fixpoint update_loop (lib : bool) (cbs : Callbacks) (s : Session) (rest : list Z) (offset : Z)
  (rounds : list (Z * list DeviceEvent)) : Session * list (Command * list Msg) * OtaState :=
  match rest, rounds with
  | [], _ => (s, [], OtaDone)
  | _, [] => (s, [], OtaRunning)
  | _, (rnd, es) :: rounds =>
      match ota_command rnd offset (firstn 239 rest) with
      | Err e => (s, [], OtaRaised e)
      | Ok c =>
          match execute s c 10 with
          | (s, Err e) => (s, [], OtaRaised e)
          | (s, Ok _) =>
              let s := fold_left (device_cb lib cbs) es s in
              let answers := execute_result s in
              if existsb answer_good answers
              then match update_loop lib cbs s (skipn 239 rest) (offset + 239) rounds with
                   | (s', log, st) => (s', (c, answers) :: log, st)
                   end
              else (s, [(c, answers)], OtaFailed)
          end
      end
  end.
(** write_update.py:73-113 from the write to file 199 on, whose result is not
    looked at; [s] is the modem after [connect()], [rnd] and [es] are the tag of
    this write and what the device does during it *)
Definition update_program (lib : bool) (cbs : Callbacks) (s : Session) (image : list Z) (rnd : Z) (es : list DeviceEvent)
  (rounds : list (Z * list DeviceEvent)) : Session * list (Command * list Msg) * OtaState :=
  match create_write rnd 199 [0] 0 IF_HOST None with
  | Err e => (s, [], OtaRaised e)
  | Ok c =>
      match execute s c 10 with
      | (s, Err e) => (s, [], OtaRaised e)
      | (s, Ok _) => update_loop lib cbs (fold_left (device_cb lib cbs) es s) image 0 rounds
      end
  end.

(** the loop engineering_mode.py:161-173, as [engineering] with these callbacks *)
Fixpoint mode_loop (lib : bool) (cbs : Callbacks) (s : Session) (c : Command) (rounds : list (list DeviceEvent))
  : Session * list (Command * list Msg) * EngState :=
  match rounds with
  | [] => (s, [], EngRunning)
  | es :: rounds =>
      match execute s c 10 with
      | (s, Err e) => (s, [], EngRaised e)
      | (s, Ok _) =>
          let s := fold_left (device_cb lib cbs) es s in
          let answers := execute_result s in
          match look_at_answers answers false with
          | Err e => (s, [(c, answers)], EngRaised e)
          | Ok true => (s, [(c, answers)], EngDone)
          | Ok false => match mode_loop lib cbs s c rounds with
                        | (s', log, st) => (s', (c, answers) :: log, st)
                        end
          end
      end
  end.
(** engineering_mode.py:175-178: having set a mode other than OFF the program
    waits until [stop] is set, which rebooted_callback does *)
Definition may_stop (s : Session) : bool :=
  match m_rb_calls (r_modem (se_reader s)) with [] => false | _ => true end.
