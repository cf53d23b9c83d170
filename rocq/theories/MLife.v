(** modem/modem.py: starting and stopping the reader thread.  [start_reading]
    (178-182), [stop_reading] (184-187) and the loop of [_read_async] (204-214,
    244) as steps of several threads.  What the loop does with the bytes it got
    (215-242) is [reader_chunk] of [MModem], here one step.

    Of pyserial ([dev]) the following is assumed: [read()] waits for one byte;
    [cancel_read()] makes the [read()] in progress, or else the next one, return
    no bytes, and does so before looking at the input; on a closed port [read()]
    raises [SerialException] and [cancel_read()] does nothing. *)
From Verif Require Import MBase MSerial MModem.

(** where a reader thread stands *)
Inductive RThread :=
| RTop              (* modem.py:204: about to look at [_read_async_active] *)
| RInRead           (* 206: in [dev.read()] *)
| RGot (b : Z)      (* 213: the byte was returned *)
| REnded.           (* the function returned or an exception left it *)
(** where the application thread stands: between two calls, in [stop_reading]
    before line 186 and before line 187, in [start_reading] before line 180 *)
Inductive RApp := RFree | RCancel | RJoin | RStart.

(** the modem with its device.  [lf_threads] are the threads created so far;
    [read_thread] is the last one.  [lf_input] are the bytes received but not
    read, [lf_cancelled] is a cancellation that no [read()] has seen yet. *)
Record Life := mkLife
  { lf_parser : SParser; lf_modem : Modem; lf_active : bool;
    lf_input : list Z; lf_cancelled : bool; lf_open : bool;
    lf_threads : list RThread; lf_app : RApp }.

(** after the constructor, modem.py:52-86 *)
Definition new_life (skip cb rbcb : bool) : Life :=
  mkLife (new_parser skip) (new_modem skip cb rbcb) true [] false true [RTop] RFree.

(** what can happen: a byte arrives; reader thread [i] goes on; the [read()] of
    thread [i] raises; the application calls [stop_reading] or [start_reading];
    it goes on in that call *)
Inductive LifeLabel := LArrive (b : Z) | LReader (i : nat) | LFails (i : nat) | LStop | LStart | LGoOn.

Fixpoint set_thread (i : nat) (t : RThread) (l : list RThread) : list RThread :=
  match l, i with
  | [], _ => []
  | _ :: r, O => t :: r
  | x :: r, S i => x :: set_thread i t r
  end.

Definition life_step (lib : bool) (w : Life) (l : LifeLabel) : option Life :=
  let '(mkLife p m a inp c o ts ap) := w in
  match l with
  | LArrive b => if o then Some (mkLife p m a (inp ++ [b]) c o ts ap) else None
  | LReader i =>
      match nth_error ts i with
      | Some RTop =>
          Some (mkLife p m a inp c o (set_thread i (if a then RInRead else REnded) ts) ap)
      | Some RInRead =>
          (* 207-211: [_connect_serial_modem] does not exist, the thread ends *)
          if negb o then Some (mkLife p m a inp c o (set_thread i REnded ts) ap)
          else if c then Some (mkLife p m a inp false o (set_thread i RTop ts) ap)
          else match inp with
               | [] => None
               | b :: r => Some (mkLife p m a r c o (set_thread i (RGot b) ts) ap)
               end
      | Some (RGot b) =>
          let r := reader_chunk lib (mkReader p m true) [b] in
          Some (mkLife (r_parser r) (r_modem r) a inp c o
                       (set_thread i (if r_alive r then RTop else REnded) ts) ap)
      | _ => None
      end
  | LFails i =>
      (* 207-211: the port is closed, then as above *)
      match nth_error ts i with
      | Some RInRead => if o then Some (mkLife p m a inp c false (set_thread i REnded ts) ap) else None
      | _ => None
      end
  | LStop => match ap with RFree => Some (mkLife p m false inp c o ts RCancel) | _ => None end
  | LStart => match ap with RFree => Some (mkLife p m true inp c o ts RStart) | _ => None end
  | LGoOn =>
      match ap with
      | RFree => None
      | RCancel => Some (mkLife p m a inp (if o then true else c) o ts RJoin)
      | RJoin => match last ts REnded with
                 | REnded => Some (mkLife p m a inp c o ts RFree)
                 | _ => None
                 end
      | RStart => Some (mkLife p m a inp c o (ts ++ [RTop]) RFree)
      end
  end.
Fixpoint life_run (lib : bool) (w : Life) (ls : list LifeLabel) : option Life :=
  match ls with
  | [] => Some w
  | l :: r => match life_step lib w l with Some w' => life_run lib w' r | None => None end
  end.
