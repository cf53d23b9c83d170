(** modem/modem.py with serial_modem_interface/parser.py: the reader threads of
    [MReaders] with the Parser they share, [MInside].  Reader [i] is thread [i] of
    the Parser.  The step of [MReaders] that hands a byte over (modem.py:215) begins
    a call of [parse]; until that call has returned or raised the reader makes no
    other step.  If it raised, the reader ends without calling anything (there is
    no handler around line 215).

    What follows the call (216-242) is left open as in [MReaders]; callbacks
    are taken to be possible also when no message was returned. *)
From Verif Require Import MBase MSerial MReaders MInside.

Record Station := mkStation { st_port : Port; st_in : Inside }.
(** after the constructor, modem.py:52-87, with the Parser [p], [n] threads of the
    application and room for [m] readers (any bound on their number) *)
Definition station_of (p : SParser) (n m : nat) : Station := mkStation (new_port n) (inside_of p m).
(** a step outside [parse]; reader [i] goes on in [parse] *)
Inductive StationLabel := TPort (l : PortLabel) | TParse (i : nat).

(** the reader that makes the step *)
Definition acting (l : PortLabel) : option nat :=
  match l with
  | KLoop i | KDone i _ | KFails i | KStop (Reader i) | KStart (Reader i) | KGoOn (Reader i) => Some i
  | _ => None
  end.
(** the last call of [parse] by thread [i] raised *)
Definition raised (v : Inside) (i : nat) : bool :=
  match fold_left (fun o x => if Nat.eqb (fst x) i then Some (snd x) else o) (in_results v) None with
  | Some (Err _) => true
  | _ => false
  end.
(** whether the Parser lets the step happen: its reader is in no call of [parse]
    (215); after a call that raised it can only end *)
Definition may (v : Inside) (l : PortLabel) : bool :=
  match acting l with
  | None => true
  | Some i => match nth_error (in_places v) i with
              | Some PIdle => match l with
                              | KDone _ true | KStop _ | KStart _ => negb (raised v i)
                              | _ => true
                              end
              | _ => false
              end
  end.
(** modem.py:215: the reader that calls [parse], and the byte *)
Definition calls (w : Port) (l : PortLabel) : option (nat * Z) :=
  match l with
  | KLoop i => match nth_error (k_threads w) i with Some (KGot b) => Some (i, b) | _ => None end
  | _ => None
  end.
Definition station_step (lib : bool) (s : Station) (x : StationLabel) : option Station :=
  let '(mkStation w v) := s in
  match x with
  | TParse i => match inside_step lib v (IGo i) with Some v' => Some (mkStation w v') | None => None end
  | TPort l =>
      if may v l then
        match port_step w l with
        | None => None
        | Some w' => match calls w l with
                     | None => Some (mkStation w' v)
                     | Some (i, b) => match inside_step lib v (ICall i [b]) with
                                      | Some v' => Some (mkStation w' v')
                                      | None => None
                                      end
                     end
        end
      else None
  end.
Fixpoint station_run (lib : bool) (s : Station) (ls : list StationLabel) : option Station :=
  match ls with
  | [] => Some s
  | x :: r => match station_step lib s x with Some s' => station_run lib s' r | None => None end
  end.
