(** The modem's readers and their Parser: what to expect. *)
From Verif Require Export SReaders SInside MStation.

(** the steps outside [parse], and those of the Parser's threads *)
Definition port_labels (ls : list StationLabel) : list PortLabel :=
  flat_map (fun x => match x with TPort l => [l] | TParse _ => [] end) ls.
Fixpoint parser_labels (w : Port) (ls : list StationLabel) : list InLabel :=
  match ls with
  | [] => []
  | TParse i :: r => IGo i :: parser_labels w r
  | TPort l :: r => match calls w l with Some (i, b) => [ICall i [b]] | None => [] end
                    ++ match port_step w l with Some w' => parser_labels w' r | None => [] end
  end.
(** one thread gives the bytes to [parse], one by one: the Parser and the results *)
Fixpoint fed (lib : bool) (p : SParser) (bytes : list Z) : SParser * list (res PResult) :=
  match bytes with
  | [] => (p, [])
  | b :: r => let (p1, x) := sparse lib p [b] in let (p2, xs) := fed lib p1 r in (p2, x :: xs)
  end.
(** the results of the calls of [parse], by whatever reader *)
Definition results (s : Station) : list (res PResult) := map snd (in_results (st_in s)).
(** never two readers at once *)
Definition alone (lib : bool) (s : Station) (ls : list StationLabel) : Prop :=
  forall pre post v, ls = pre ++ post -> station_run lib s pre = Some v -> (live (st_port v) <= 1)%nat.
(** [start_reading] is called only when no reader is there and nobody else is
    starting one *)
Definition one_at_a_time (lib : bool) (s : Station) (ls : list StationLabel) : Prop :=
  forall pre x post v, ls = pre ++ TPort (KStart x) :: post -> station_run lib s pre = Some v ->
  live (st_port v) = 0%nat /\ ~ starting (st_port v).
(** the calls of [stop_reading] and [start_reading] *)
Definition the_calls (ls : list StationLabel) : list PortLabel :=
  filter (fun l => match l with KStop _ | KStart _ => true | _ => false end) (port_labels ls).
(** they are made by one thread of the application in turn, [stop_reading] first *)
Fixpoint in_alternation (stop : bool) (ls : list PortLabel) : Prop :=
  match ls with
  | [] => True
  | l :: r => l = (if stop then KStop (App 0) else KStart (App 0)) /\ in_alternation (negb stop) r
  end.
(** steps of the program itself *)
Definition program_step (x : StationLabel) : Prop := match x with TPort l => own_step l | TParse _ => True end.
Definition station_rests (lib : bool) (s : Station) : Prop := forall x, program_step x -> station_step lib s x = None.
(** an endless schedule: its first [k] labels *)
Definition first_steps (f : nat -> StationLabel) (k : nat) : list StationLabel := map f (seq 0 k).
(** reader [i] takes the arriving byte [b], hands it over, makes [k] steps in
    [parse] and has nothing to deliver *)
Definition one_byte (i : nat) (b : Z) (k : nat) : list StationLabel :=
  map TPort (takes i b ++ [KLoop i]) ++ repeat (TParse i) k ++ [TPort (KDone i true)].
(** the results of the calls of [parse] by reader [i] *)
Definition results_of (i : nat) (s : Station) : list (res PResult) :=
  map snd (filter (fun x => Nat.eqb (fst x) i) (in_results (st_in s))).
