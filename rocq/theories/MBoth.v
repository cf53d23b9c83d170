(** modem/modem.py: application threads that call [execute_command] while the
    callbacks, in the reader thread, call it too.  The reader thread is that of
    MReenter; all threads share the one modem object.

    Simplification: the part of a call before its waiting loop (modem.py:146-162)
    and the handling of one message (221-242) are each one step; what happens when
    they are interrupted is the subject of MModem and MThreads. *)
From Verif Require Import MBase MAlp MSerial MModem MConnect MReenter.

(** An application thread: the calls it makes, each depending on what the calls
    before returned or raised *)
Inductive AProg :=
| ADone
| AExec (c : Command) (timeout : Z) (k : res (list Msg) -> AProg).

(** where a thread stands: between calls, or in the loop modem.py:168-169 *)
Inductive AAt :=
| ARun (p : AProg)
| AWait (c : Command) (timeout : Z) (k : res (list Msg) -> AProg).

Record BWorld := mkBWorld { bw_reader : RWorld; bw_threads : list AAt }.
Definition the_session (w : BWorld) : Session := rw_session (bw_reader w).

(** What can be observed: a call of [execute_command] got its frame built and
    sent (151-161); a message is handled (220-242); a call returns or raises. *)
Inductive Who := TheCallback | TheThread (i : nat).
Inductive Event :=
| EvStart (who : Who) (c : Command) (timeout : Z)
| EvMessage (tx : Z * Msg)
| EvReturn (who : Who) (c : Command) (timeout : Z) (r : res (list Msg)).

(** The reader thread takes a step; a thread goes on; the waiting loop of a
    thread ends because the time is over. *)
Inductive BLabel := BReader (l : RLabel) | BThread (i : nat) | BOver (i : nat).

(** the beginning of a call, modem.py:145-164, as seen from outside *)
Definition call_events (s : Session) (who : Who) (c : Command) (t : Z) : list Event :=
  match snd (execute s c t) with
  | Ok _ => EvStart who c t :: (if waits_not s t then [EvReturn who c t (Ok [])] else [])
  | Err e => [EvReturn who c t (Err e)]
  end.

(** what a step of the reader thread shows *)
Definition reader_events (w : RWorld) (l : RLabel) : list Event :=
  let s := rw_session w in
  match l, rw_at w with
  | RArrive _, _ => []
  | _, InWait c t _ _ => [EvReturn TheCallback c t (Ok (execute_result s))]      (* 168-175 *)
  | RGo, Handling (tx :: _) => [EvMessage tx]                                    (* 220 *)
  | RGo, InCallback (Exec c t _) _ => call_events s TheCallback c t
  | _, _ => []
  end.

Definition with_session (w : RWorld) (s : Session) : RWorld :=
  mkRWorld s (rw_active w) (rw_input w) (rw_at w) (rw_results w).

Fixpoint set_thread (l : list AAt) (i : nat) (x : AAt) : list AAt :=
  match l, i with
  | [], _ => []
  | _ :: r, O => x :: r
  | a :: r, S j => a :: set_thread r j x
  end.

Definition bstep (lib : bool) (h : Handlers) (w : BWorld) (l : BLabel) : option (BWorld * list Event) :=
  let s := the_session w in
  match l with
  | BReader rl =>
      match rstep lib h (bw_reader w) rl with
      | Some r => Some (mkBWorld r (bw_threads w), reader_events (bw_reader w) rl)
      | None => None
      end
  | BThread i =>
      match nth_error (bw_threads w) i with
      | Some (ARun (AExec c t k)) =>
          let (s', r) := execute s c t in
          let next := match r with
                      | Ok _ => if waits_not s t then ARun (k (Ok [])) else AWait c t k
                      | Err e => ARun (k (Err e))
                      end in
          Some (mkBWorld (with_session (bw_reader w) s') (set_thread (bw_threads w) i next),
                call_events s (TheThread i) c t)
      | Some (AWait c t k) =>
          if m_completed (r_modem (se_reader s))
          then let v := Ok (execute_result s) in
               Some (mkBWorld (bw_reader w) (set_thread (bw_threads w) i (ARun (k v))),
                     [EvReturn (TheThread i) c t v])
          else None
      | _ => None
      end
  | BOver i =>
      match nth_error (bw_threads w) i with
      | Some (AWait c t k) =>
          let v := Ok (execute_result s) in
          Some (mkBWorld (bw_reader w) (set_thread (bw_threads w) i (ARun (k v))),
                [EvReturn (TheThread i) c t v])
      | _ => None
      end
  end.

Fixpoint brun (lib : bool) (h : Handlers) (w : BWorld) (ls : list BLabel) : option (BWorld * list Event) :=
  match ls with
  | [] => Some (w, [])
  | l :: r =>
      match bstep lib h w l with
      | Some (w', es) => match brun lib h w' r with Some (w'', es') => Some (w'', es ++ es') | None => None end
      | None => None
      end
  end.

(** the reader thread is reading, the threads are about to run their programs *)
Definition at_work (s : Session) (ps : list AProg) : BWorld := mkBWorld (reading_world s) (map ARun ps).
