(** modem/modem.py: any number of reader threads.  [start_reading] (178-182) and
    [stop_reading] (184-187) called by any thread, also by a callback that runs in
    a reader thread, and the loop of [_read_async] (204-214, 244), in steps of one
    access to a shared attribute.  [MLife] has one application thread and takes
    what the loop does with a byte (215-242) as one step; here that is left open:
    it takes any time, other threads run meanwhile, it makes any calls, and it
    ends or raises.  So nothing is said here about the contents of the messages.

    Of pyserial ([dev]) the same is assumed as in [MLife]: [read()] waits for one
    byte; [cancel_read()] makes one [read()] in progress, or else the next one,
    return no bytes; on a closed port [read()] raises and [cancel_read()] does
    nothing; a [read()] may raise at any time.  Of [threading]: [join()] of a
    thread not started and of the own thread raises, [start()] of a thread already
    started raises. *)
From Verif Require Import MBase.

(** where a thread stands in a call of [stop_reading] or [start_reading]: in none;
    before line 186; before line 187; in the [join()] of thread [j] in line 187;
    before line 180; before line 182 *)
Inductive Call := CNone | CCancel | CLook | CJoin (j : nat) | CCreate | CBegin.
(** where a reader thread stands *)
Inductive KThread :=
| KNew              (* modem.py:180: created, not started *)
| KTop              (* 204: about to look at [_read_async_active] *)
| KRead             (* 206: in [dev.read()] *)
| KGot (b : Z)      (* 213: the byte was returned *)
| KBusy (c : Call)  (* 215-242: handed over to the parser, in its messages' callbacks *)
| KEnded.           (* the function returned or an exception left it *)

(** the modem with its device.  [k_last] is the number of the thread in
    [read_thread], [k_apps] are the threads of the application. *)
Record Port := mkPort
  { k_active : bool; k_input : list Z; k_cancelled : bool; k_open : bool;
    k_threads : list KThread; k_last : nat; k_apps : list Call }.
(** after the constructor, modem.py:52-87, with [n] threads of the application *)
Definition new_port (n : nat) : Port := mkPort true [] false true [KTop] 0 (repeat CNone n).

(** a thread: number [i] of the application, or reader [i] *)
Inductive Who := App (i : nat) | Reader (i : nat).
(** what can happen: a byte arrives; reader [i] goes on in its loop; reader [i] is
    done with its byte, [ok] telling whether no exception was raised; the [read()]
    of reader [i] raises; a thread calls [stop_reading] or [start_reading]; it goes
    on in that call *)
Inductive PortLabel :=
| KArrive (b : Z) | KLoop (i : nat) | KDone (i : nat) (ok : bool) | KFails (i : nat)
| KStop (x : Who) | KStart (x : Who) | KGoOn (x : Who).

Fixpoint set_nth {A} (i : nat) (y : A) (l : list A) : list A :=
  match l, i with
  | [], _ => []
  | _ :: r, O => y :: r
  | x :: r, S i => x :: set_nth i y r
  end.
(** the call a thread is in; none if it is a reader that is not in a callback *)
Definition the_call (w : Port) (x : Who) : option Call :=
  match x with
  | App i => nth_error (k_apps w) i
  | Reader i => match nth_error (k_threads w) i with Some (KBusy c) => Some c | _ => None end
  end.
Definition set_call (x : Who) (c : Call) (w : Port) : Port :=
  let '(mkPort a inp cn o ts l aps) := w in
  match x with
  | App i => mkPort a inp cn o ts l (set_nth i c aps)
  | Reader i => mkPort a inp cn o (set_nth i (KBusy c) ts) l aps
  end.
Definition set_reader (i : nat) (t : KThread) (w : Port) : Port :=
  let '(mkPort a inp cn o ts l aps) := w in mkPort a inp cn o (set_nth i t ts) l aps.
Definition set_active (b : bool) (w : Port) : Port :=
  let '(mkPort a inp cn o ts l aps) := w in mkPort b inp cn o ts l aps.
Definition set_input (inp : list Z) (w : Port) : Port :=
  let '(mkPort a _ cn o ts l aps) := w in mkPort a inp cn o ts l aps.
Definition set_cancelled (b : bool) (w : Port) : Port :=
  let '(mkPort a inp _ o ts l aps) := w in mkPort a inp b o ts l aps.
Definition close_port (w : Port) : Port :=
  let '(mkPort a inp cn _ ts l aps) := w in mkPort a inp cn false ts l aps.
(** modem.py:180: a new thread, kept in [read_thread] *)
Definition create (w : Port) : Port :=
  let '(mkPort a inp cn o ts _ aps) := w in mkPort a inp cn o (ts ++ [KNew]) (length ts) aps.

Definition port_step (w : Port) (l : PortLabel) : option Port :=
  match l with
  | KArrive b => if k_open w then Some (set_input (k_input w ++ [b]) w) else None
  | KLoop i =>
      match nth_error (k_threads w) i with
      | Some KTop => Some (set_reader i (if k_active w then KRead else KEnded) w)
      | Some KRead =>
          (* 207-211: [_connect_serial_modem] does not exist, the thread ends *)
          if negb (k_open w) then Some (set_reader i KEnded w)
          else if k_cancelled w then Some (set_reader i KTop (set_cancelled false w))
          else match k_input w with
               | [] => None
               | b :: r => Some (set_reader i (KGot b) (set_input r w))
               end
      | Some (KGot _) => Some (set_reader i (KBusy CNone) w)
      | _ => None
      end
  | KDone i ok =>
      match nth_error (k_threads w) i with
      | Some (KBusy CNone) => Some (set_reader i (if ok then KTop else KEnded) w)
      | _ => None
      end
  | KFails i =>
      (* 207-211: the port is closed, then as above *)
      match nth_error (k_threads w) i with
      | Some KRead => if k_open w then Some (set_reader i KEnded (close_port w)) else None
      | _ => None
      end
  | KStop x => match the_call w x with
               | Some CNone => Some (set_call x CCancel (set_active false w))
               | _ => None
               end
  | KStart x => match the_call w x with
                | Some CNone => Some (set_call x CCreate (set_active true w))
                | _ => None
                end
  | KGoOn x =>
      match the_call w x with
      | Some CCancel => Some (set_call x CLook (set_cancelled (if k_open w then true else k_cancelled w) w))
      | Some CLook => Some (set_call x (CJoin (k_last w)) w)
      | Some (CJoin j) =>
          match nth_error (k_threads w) j with
          | None | Some KNew | Some KEnded => Some (set_call x CNone w)
          | Some _ => match x with
                      | Reader i => if Nat.eqb i j then Some (set_call x CNone w) else None
                      | App _ => None
                      end
          end
      | Some CCreate => Some (set_call x CBegin (create w))
      | Some CBegin =>
          Some (set_call x CNone
                  match nth_error (k_threads w) (k_last w) with
                  | Some KNew => set_reader (k_last w) KTop w
                  | _ => w
                  end)
      | _ => None
      end
  end.
Fixpoint port_run (w : Port) (ls : list PortLabel) : option Port :=
  match ls with
  | [] => Some w
  | l :: r => match port_step w l with Some w' => port_run w' r | None => None end
  end.
