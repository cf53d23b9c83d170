(** Several application threads calling [execute_command] of one [Modem],
    modem.py:145-175, beside its reader thread.  The steps of one call are those
    of [MModem.step]; with several threads the assertion of modem.py:156 can
    fail, so it is a step of its own here.  Building the frame and writing it
    under the lock is [MThreads]; the write is one step here. *)
From Verif Require Import MBase MAlp MSerial MModem MThreads.

(** where a thread stands: inside [execute_command] as in [MModem], or about to
    evaluate [assert self._sync_execution_tag_id is None], modem.py:156 *)
Inductive MPC := Running (a : APC) | Asserting (tag : option Z).
(** how a call ended: [AssertionError]; or a result, which is a fresh empty list
    ([None]) or the list object [r] with its content at that moment *)
Inductive Outcome := Raised | Returned (obj : option nat) (value : list Msg).
(** the modem, the reader, the threads, and the calls that have ended: thread,
    tag, outcome *)
Record MWorld := mkMW
  { mw_m : Modem; mw_r : RPC; mw_t : list MPC; mw_log : list (nat * option Z * Outcome) }.

Inductive MLabel :=
| MArrive (t : Z) (x : Msg)       (* the reader takes the next decoded message *)
| MReader                         (* the reader performs its next step *)
| MCall (i : nat) (tag : option Z) (sync : bool) (* thread [i] calls [execute_command] *)
| MThread (i : nat)               (* thread [i] performs its next step *)
| MTimeout (i : nat).             (* its waiting loop ends, modem.py:168 *)

(** a step of the reader, modem.py:220-242 *)
Definition reader_step (w : MWorld) (l : Label) : option MWorld :=
  match step (mkWorld (mw_m w) (mw_r w) AIdle []) l with
  | Some w' => Some (mkMW (w_m w') (w_r w') (mw_t w) (mw_log w))
  | None => None
  end.
(** a step of thread [i] inside a call, modem.py:145-175 without line 156 *)
Definition call_step (w : MWorld) (i : nat) (a : APC) (l : Label) : option MWorld :=
  match step (mkWorld (mw_m w) (mw_r w) a []) l with
  | Some w' => Some (mkMW (w_m w') (w_r w') (set_nth i (Running (w_a w')) (mw_t w))
                          (mw_log w ++ map (fun r => (i, fst (fst r), Returned (snd (fst r)) (snd r))) (w_rets w')))
  | None => None
  end.
Definition mstep (w : MWorld) (l : MLabel) : option MWorld :=
  let m := mw_m w in
  match l with
  | MArrive t x => reader_step w (LMsg t x)
  | MReader => reader_step w LReader
  | MCall i tag sync =>
      match nth_error (mw_t w) i with Some (Running a) => call_step w i a (LExec tag sync) | _ => None end
  | MTimeout i =>
      match nth_error (mw_t w) i with Some (Running a) => call_step w i a LGiveUp | _ => None end
  | MThread i =>
      match nth_error (mw_t w) i with
      | None => None
      | Some (Asserting tag) =>                            (* modem.py:156 *)
          match m_tag m with
          | None => Some (mkMW m (mw_r w) (set_nth i (Running (ASetTag tag)) (mw_t w)) (mw_log w))
          | Some _ => Some (mkMW m (mw_r w) (set_nth i (Running AIdle) (mw_t w)) (mw_log w ++ [(i, tag, Raised)]))
          end
      | Some (Running (AResetCompleted tag true)) =>       (* modem.py:154-155 *)
          Some (mkMW (set_sync m (m_heap m) (m_resp m) (m_tag m) false) (mw_r w)
                     (set_nth i (Asserting tag) (mw_t w)) (mw_log w))
      | Some (Running a) => call_step w i a LApp
      end
  end.
Fixpoint mrun (w : MWorld) (ls : list MLabel) : option MWorld :=
  match ls with
  | [] => Some w
  | l :: r => match mstep w l with Some w' => mrun w' r | None => None end
  end.
(** [n] threads, none in a call; [connected] is the flag [connect] sets *)
Definition new_mworld (cb rbcb connected : bool) (n : nat) : MWorld :=
  let m := new_modem false cb rbcb in
  mkMW (mkModem false cb rbcb connected (m_heap m) (m_resp m) (m_tag m) (m_completed m) [] [] [] [] [])
       RIdle (repeat (Running AIdle) n) [].
