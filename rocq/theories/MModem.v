(** modem/modem.py *)
From Verif Require Import MBase MAlp MSerial.

(** ** State of a [Modem], modem.py:52-72.  List objects that
    [_sync_execution_response_cmds] has ever referred to live in [m_heap];
    [m_resp] is the index of the current one, so that a list returned earlier
    stays observable.  [m_cb_calls], [m_rb_calls] and [m_logged] record the
    calls of the two callbacks and the "logging:" lines. *)
Record Modem := mkModem
  { m_skip : bool; m_has_cb : bool; m_has_rbcb : bool; m_connected : bool;
    m_heap : list (list Msg); m_resp : nat; m_tag : option Z; m_completed : bool;
    m_unsol : list Msg; m_rebooted : list Msg;
    m_cb_calls : list Msg; m_rb_calls : list Msg; m_logged : list Msg }.

Definition new_modem (skip cb rbcb : bool) : Modem :=
  mkModem skip cb rbcb false [[]] 0 None false [] [] [] [] [].

(** [self._sync_execution_tag_id == cmd.tag_id]; [None == None] is true *)
Definition tag_eqb (a b : option Z) : bool :=
  match a, b with
  | None, None => true
  | Some x, Some y => x =? y
  | _, _ => false
  end.

(** the condition of modem.py:221; only commands have a [tag_id] attribute *)
Definition is_response (m : Modem) (t : Z) (x : Msg) : bool :=
  match x with
  | MCmd c => negb (m_skip m) && tag_eqb (m_tag m) (c_tag c) && (t <=? 3)
  | _ => false
  end.

(** [heap[r].append(x)] *)
Fixpoint heap_append (h : list (list Msg)) (r : nat) (x : Msg) : list (list Msg) :=
  match h, r with
  | [], _ => []
  | l :: h', O => (l ++ [x]) :: h'
  | l :: h', S r' => l :: heap_append h' r' x
  end.

Definition set_sync (m : Modem) (h : list (list Msg)) (r : nat) (t : option Z) (c : bool) : Modem :=
  mkModem (m_skip m) (m_has_cb m) (m_has_rbcb m) (m_connected m) h r t c
          (m_unsol m) (m_rebooted m) (m_cb_calls m) (m_rb_calls m) (m_logged m).
Definition set_out (m : Modem) (u rb cb rbc lg : list Msg) : Modem :=
  mkModem (m_skip m) (m_has_cb m) (m_has_rbcb m) (m_connected m) (m_heap m) (m_resp m) (m_tag m)
          (m_completed m) u rb cb rbc lg.

(** [cmd.execution_completed], only evaluated for commands *)
Definition msg_completed (x : Msg) : bool :=
  match x with MCmd c => c_completed c | _ => false end.

(** the [elif] chain modem.py:230-241: no use of the synchronous state *)
Definition dispatch_other (m : Modem) (t : Z) (x : Msg) : Modem :=
  let same u rb cb rbc lg := set_out m u rb cb rbc lg in
  if m_has_cb m && m_connected m && (t <=? 3)
  then same (m_unsol m) (m_rebooted m) (m_cb_calls m ++ [x]) (m_rb_calls m) (m_logged m)
  else if t =? 5 then
    if m_has_rbcb m
    then same (m_unsol m) (m_rebooted m) (m_cb_calls m) (m_rb_calls m ++ [x]) (m_logged m)
    else same (m_unsol m) (m_rebooted m ++ [x]) (m_cb_calls m) (m_rb_calls m) (m_logged m)
  else if t =? 4
  then same (m_unsol m) (m_rebooted m) (m_cb_calls m) (m_rb_calls m) (m_logged m ++ [x])
  else if t <=? 3
  then same (m_unsol m ++ [x]) (m_rebooted m) (m_cb_calls m) (m_rb_calls m) (m_logged m)
  else m.

(** one round of the loop modem.py:220-242, executed without interruption *)
Definition dispatch (m : Modem) (tx : Z * Msg) : Modem :=
  let (t, x) := tx in
  if is_response m t x
  then set_sync m (heap_append (m_heap m) (m_resp m) x) (m_resp m) (m_tag m)
                (if msg_completed x then true else m_completed m)
  else dispatch_other m t x.

(** ** The reader thread without a concurrent [execute_command]: modem.py:204-244.
    Every chunk the device delivers is parsed and the messages dispatched.  An
    exception of [parse] is not caught: the thread ends. *)
Record Reader := mkReader { r_parser : SParser; r_modem : Modem; r_alive : bool }.
Definition reader_chunk (lib : bool) (r : Reader) (chunk : list Z) : Reader :=
  if r_alive r then
    match chunk with
    | [] => r
    | _ => match sparse lib (r_parser r) chunk with
           | (p, Ok res) => mkReader p (fold_left dispatch (pr_msgs res) (r_modem r)) true
           | (p, Err _) => mkReader p (r_modem r) false
           end
    end
  else r.

(** ** [execute_command] called while no message is being handled:
    modem.py:145-175 up to the write *)
Definition exec_start (m : Modem) (tag : option Z) (timeout : Z) : Modem :=
  let timeout := if m_skip m then 0 else timeout in
  set_sync m (m_heap m ++ [[]]) (length (m_heap m)) (if 0 <? timeout then tag else None) false.
(** the value returned at the end of the waiting loop, modem.py:171-175 *)
Definition exec_result (m : Modem) : list Msg :=
  if m_completed m then nth (m_resp m) (m_heap m) [] else [].

(** ** Both threads: small steps.  Each step is one access to shared
    attributes. *)

(** program counter of the reader: idle, about to test the tag, about to load
    the list attribute, about to append to the loaded list, about to look at
    [execution_completed] / set the flag *)
Inductive RPC :=
| RIdle
| RTest (t : Z) (x : Msg)
| RLoad (x : Msg)
| RAppend (r : nat) (x : Msg)
| RDone (x : Msg).

(** program counter of the application thread inside [execute_command]:
    modem.py:152, 153, 154, 157, 159 (write), 168 (wait), 171 (test), 175
    (return the list object) *)
Inductive APC :=
| AIdle
| AResetList (tag : option Z) (sync : bool)
| AResetTag (tag : option Z) (sync : bool)
| AResetCompleted (tag : option Z) (sync : bool)
| ASetTag (tag : option Z)
| AWrite (tag : option Z) (sync : bool)
| AWait (tag : option Z)
| ATest (tag : option Z)
| AReturn (tag : option Z).

(** what a finished [execute_command] gave back: [None] is a fresh empty list,
    [Some r] the list object [r] *)
Record World := mkWorld
  { w_m : Modem; w_r : RPC; w_a : APC; w_rets : list (option Z * option nat * list Msg) }.

(** scheduler choices *)
Inductive Label :=
| LMsg (t : Z) (x : Msg)            (* reader takes the next decoded message *)
| LReader                           (* reader performs its next step *)
| LExec (tag : option Z) (sync : bool) (* application calls execute_command *)
| LApp                              (* application performs its next step *)
| LGiveUp.                          (* the waiting loop ends (time is up or completed seen) *)

Definition step (w : World) (l : Label) : option World :=
  let m := w_m w in
  match l with
  | LMsg t x =>
      match w_r w with RIdle => Some (mkWorld m (RTest t x) (w_a w) (w_rets w)) | _ => None end
  | LReader =>
      match w_r w with
      | RIdle => None
      | RTest t x =>
          if is_response m t x then Some (mkWorld m (RLoad x) (w_a w) (w_rets w))
          else Some (mkWorld (dispatch_other m t x) RIdle (w_a w) (w_rets w))
      | RLoad x => Some (mkWorld m (RAppend (m_resp m) x) (w_a w) (w_rets w))
      | RAppend r x =>
          Some (mkWorld (set_sync m (heap_append (m_heap m) r x) (m_resp m) (m_tag m) (m_completed m))
                        (RDone x) (w_a w) (w_rets w))
      | RDone x =>
          Some (mkWorld (if msg_completed x
                         then set_sync m (m_heap m) (m_resp m) (m_tag m) true else m)
                        RIdle (w_a w) (w_rets w))
      end
  | LExec tag sync =>
      match w_a w with
      | AIdle => Some (mkWorld m (w_r w) (AResetList tag (sync && negb (m_skip m))) (w_rets w))
      | _ => None
      end
  | LApp =>
      match w_a w with
      | AIdle => None
      | AResetList tag sync =>
          Some (mkWorld (set_sync m (m_heap m ++ [[]]) (length (m_heap m)) (m_tag m) (m_completed m))
                        (w_r w) (AResetTag tag sync) (w_rets w))
      | AResetTag tag sync =>
          Some (mkWorld (set_sync m (m_heap m) (m_resp m) None (m_completed m))
                        (w_r w) (AResetCompleted tag sync) (w_rets w))
      | AResetCompleted tag sync =>
          Some (mkWorld (set_sync m (m_heap m) (m_resp m) (m_tag m) false)
                        (w_r w) (if sync then ASetTag tag else AWrite tag false) (w_rets w))
      | ASetTag tag =>
          Some (mkWorld (set_sync m (m_heap m) (m_resp m) tag (m_completed m))
                        (w_r w) (AWrite tag true) (w_rets w))
      | AWrite tag sync =>
          if sync then Some (mkWorld m (w_r w) (AWait tag) (w_rets w))
          else Some (mkWorld m (w_r w) AIdle (w_rets w ++ [(tag, None, [])]))
      | AWait tag => if m_completed m then Some (mkWorld m (w_r w) (ATest tag) (w_rets w)) else Some w
      | ATest tag =>
          if m_completed m then Some (mkWorld m (w_r w) (AReturn tag) (w_rets w))
          else Some (mkWorld m (w_r w) AIdle (w_rets w ++ [(tag, None, [])]))
      | AReturn tag =>
          Some (mkWorld m (w_r w) AIdle
                        (w_rets w ++ [(tag, Some (m_resp m), nth (m_resp m) (m_heap m) [])]))
      end
  | LGiveUp =>
      match w_a w with
      | AWait tag => Some (mkWorld m (w_r w) (ATest tag) (w_rets w))
      | _ => None
      end
  end.

Fixpoint run (w : World) (ls : list Label) : option World :=
  match ls with
  | [] => Some w
  | l :: r => match step w l with Some w' => run w' r | None => None end
  end.

Definition new_world (cb rbcb : bool) : World := mkWorld (new_modem false cb rbcb) RIdle AIdle [].
