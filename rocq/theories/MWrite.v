(** modem/modem.py: [execute_command] and [connect] on a device whose [write] or
    [flush] raises *)
From Verif Require Import MBase MAlp MSerial MModem MConnect.

(** [self.dev.write(data)] and [self.dev.flush()], modem.py:158-160: both return,
    or one of them raises [serial.SerialException] when the device has taken the
    first [k] bytes (all of them if [flush] raises).  The [with] statement
    releases the lock in both cases. *)
Inductive Outcome := Written | Failed (k : nat).
Definition taken (o : Outcome) (data : list Z) : list Z :=
  match o with Written => data | Failed k => firstn k data end.

(** what a call of [execute_command] did: it reached its waiting loop (or
    returned, without timeout), it raised before the write, it raised in the write *)
Inductive CallResult := Waits | Refused (e : exn) | DeviceError.

(** [execute_command] up to the waiting loop, modem.py:145-163: everything but the
    write is done before the write *)
Definition execute_out (s : Session) (c : Command) (timeout : Z) (o : Outcome) : Session * CallResult :=
  let r := se_reader s in
  let (p, f) := build_serial_frame (r_parser r) (command_ser c) in
  match f with
  | Err e => (s, Refused e)
  | Ok data =>
      (mkSession (mkReader p (exec_start (r_modem r) (c_tag c) timeout) (r_alive r))
                 (se_uid s) (se_fw s) (se_sent s ++ taken o data),
       match o with Written => Waits | Failed _ => DeviceError end)
  end.

(** [connect], modem.py:89-113, up to the waiting loop: it returned, raised, raised
    in the write, or waits.  In skip mode [connected] is set before the write. *)
Inductive ConnectResult := CReturned (v : option bool) | CRaised (e : exn) | CDeviceError | CWaits.
Definition connect_out (rnd : Z) (check_alive : bool) (s : Session) (o : Outcome) : Session * ConnectResult :=
  let m := r_modem (se_reader s) in
  if m_connected m then (s, CReturned None)
  else if negb check_alive then (with_connected s (se_uid s) (se_fw s) true, CReturned (Some true))
  else match connect_command rnd with
       | Err e => (s, CRaised e)
       | Ok c =>
           if m_skip m then
             match execute_out (with_connected s (se_uid s) (se_fw s) true) c 0 o with
             | (s', Waits) => (s', CReturned (Some true))
             | (s', Refused e) => (s', CRaised e)
             | (s', DeviceError) => (s', CDeviceError)
             end
           else match execute_out s c 10 o with
                | (s', Waits) => (s', CWaits)
                | (s', Refused e) => (s', CRaised e)
                | (s', DeviceError) => (s', CDeviceError)
                end
       end.

(** What happens to one [Modem] object, in order: the device delivers something,
    [execute_command] is called, [connect] is called, the waiting loop of [connect]
    ends. *)
Inductive WEvent :=
| WDevice (e : DeviceEvent)
| WCall (c : Command) (timeout : Z) (o : Outcome)
| WConnect (rnd : Z) (check_alive : bool) (o : Outcome)
| WConnectEnd.
Definition wstep (lib : bool) (s : Session) (e : WEvent) : Session :=
  match e with
  | WDevice e => device lib s e
  | WCall c t o => fst (execute_out s c t o)
  | WConnect rnd b o => fst (connect_out rnd b s o)
  | WConnectEnd => fst (connect_end s)
  end.
Definition wrun (lib : bool) (s : Session) (l : list WEvent) : Session := fold_left (wstep lib) l s.
