(** Several reader threads of one [Modem] (each [start_reading] adds one, see
    [MReaders] and [MDeliver]) handle messages, modem.py:220-242, while several
    application threads are inside [execute_command], modem.py:145-175.  The steps of
    each thread are those of [MSync], for which there is one reader: a reader has its
    own place in the loop, the attributes of the modem are shared.  Which messages a
    reader takes is not restricted here.  Callbacks are one step and return. *)
From Verif Require Import MBase MAlp MSerial MModem MThreads MSync.

Record Crowd := mkCrowd
  { cr_m : Modem; cr_r : list RPC; cr_t : list MPC; cr_log : list (nat * option Z * Outcome) }.
Inductive CrowdLabel :=
| NArrive (j : nat) (t : Z) (x : Msg)  (* reader [j] takes its next message *)
| NReader (j : nat)                    (* reader [j] performs its next step *)
| NCall (i : nat) (tag : option Z) (sync : bool) (* thread [i] calls [execute_command] *)
| NThread (i : nat)                    (* thread [i] performs its next step *)
| NTimeout (i : nat).                  (* its waiting loop ends, modem.py:168 *)

(** a step of reader [j] *)
Definition crowd_reader (w : Crowd) (j : nat) (l : MLabel) : option Crowd :=
  match nth_error (cr_r w) j with
  | None => None
  | Some r =>
      match mstep (mkMW (cr_m w) r (cr_t w) (cr_log w)) l with
      | Some v => Some (mkCrowd (mw_m v) (set_nth j (mw_r v) (cr_r w)) (mw_t v) (mw_log v))
      | None => None
      end
  end.
(** a step of an application thread; it does not look at a reader's place *)
Definition crowd_thread (w : Crowd) (l : MLabel) : option Crowd :=
  match mstep (mkMW (cr_m w) RIdle (cr_t w) (cr_log w)) l with
  | Some v => Some (mkCrowd (mw_m v) (cr_r w) (mw_t v) (mw_log v))
  | None => None
  end.
Definition crowd_step (w : Crowd) (l : CrowdLabel) : option Crowd :=
  match l with
  | NArrive j t x => crowd_reader w j (MArrive t x)
  | NReader j => crowd_reader w j MReader
  | NCall i tag sync => crowd_thread w (MCall i tag sync)
  | NThread i => crowd_thread w (MThread i)
  | NTimeout i => crowd_thread w (MTimeout i)
  end.
Fixpoint crowd_run (w : Crowd) (ls : list CrowdLabel) : option Crowd :=
  match ls with
  | [] => Some w
  | l :: r => match crowd_step w l with Some w' => crowd_run w' r | None => None end
  end.
(** [k] readers without a message, [n] threads, none in a call *)
Definition new_crowd (cb rbcb connected : bool) (k n : nat) : Crowd :=
  let w := new_mworld cb rbcb connected n in mkCrowd (mw_m w) (repeat RIdle k) (mw_t w) (mw_log w).
