(** Stopping and starting the reader thread: what to expect. *)
From Verif Require Export SConnect MLife.

(** the bytes that arrived at the port *)
Definition arrived (ls : list LifeLabel) : list Z :=
  flat_map (fun l => match l with LArrive b => [b] | _ => [] end) ls.
(** the calls of [stop_reading] ([true]) and [start_reading] ([false]) *)
Definition stops_and_starts (ls : list LifeLabel) : list bool :=
  flat_map (fun l => match l with LStop => [true] | LStart => [false] | _ => [] end) ls.
(** the constructor starts the reader: afterwards stop, start, stop, ... *)
Fixpoint in_turns (running : bool) (l : list bool) : Prop :=
  match l with
  | [] => True
  | stop :: r => stop = running /\ in_turns (negb running) r
  end.
Definition disciplined (ls : list LifeLabel) : Prop := in_turns true (stops_and_starts ls).
(** whether the last of the calls was [start_reading], or none was made *)
Definition told_to_read (ls : list LifeLabel) : bool := negb (last (stops_and_starts ls) false).

(** the byte a reader thread has taken from the port and not yet handled *)
Definition in_its_hands (w : Life) : list Z :=
  flat_map (fun t => match t with RGot b => [b] | _ => [] end) (lf_threads w).
Definition running (t : RThread) : bool := match t with REnded => false | _ => true end.
Definition readers (w : Life) : nat := length (filter running (lf_threads w)).
(** the same modem, never stopped, after reading [bytes] one by one *)
Definition undisturbed (lib skip cb rbcb : bool) (bytes : list Z) : Session :=
  devices lib (new_session skip cb rbcb) (map (fun b => DBytes [b]) bytes).
(** steps of the program itself, as opposed to those of the device and to new
    calls *)
Definition internal (l : LifeLabel) : Prop := match l with LReader _ | LGoOn => True | _ => False end.
Definition resting (lib : bool) (w : Life) : Prop := forall l, internal l -> life_step lib w l = None.
(** the messages kept for, or given to, the application *)
Definition life_inbox (p : Place) (w : Life) : list Msg := inbox p (lf_modem w).
(** the reader's state, for reading on from [w] *)
Definition reading_on (lib : bool) (w : Life) (bytes : list Z) : Reader :=
  fold_left (fun r b => reader_chunk lib r [b]) bytes (mkReader (lf_parser w) (lf_modem w) true).

(** ** Schedules with two reader threads *)
(** thread [i], at the top of its loop, reads and handles the arriving byte *)
Definition reads_one (i : nat) (b : Z) : list LifeLabel := [LReader i; LArrive b; LReader i; LReader i].
(** a response of the modem: the file 0x40 holds the byte 7 *)
Definition some_answer : list Z := frame 1 1 [32; 64; 0; 1; 7].
