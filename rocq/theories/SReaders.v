(** Any number of reader threads: what to expect. *)
From Coq Require Export Permutation.
From Verif Require Export MBase MReaders.

(** the bytes that arrived at the port *)
Definition came (ls : list PortLabel) : list Z :=
  flat_map (fun l => match l with KArrive b => [b] | _ => [] end) ls.
(** the calls of [start_reading], by anyone *)
Definition is_start (l : PortLabel) : bool := match l with KStart _ => true | _ => false end.
Definition starts (ls : list PortLabel) : nat := length (filter is_start ls).
(** the byte handed over to the parser by the step [l], and by the steps [ls] *)
Definition handed_by (w : Port) (l : PortLabel) : list Z :=
  match l with
  | KLoop i => match nth_error (k_threads w) i with Some (KGot b) => [b] | _ => [] end
  | _ => []
  end.
Fixpoint handed (w : Port) (ls : list PortLabel) : list Z :=
  match ls with
  | [] => []
  | l :: r => handed_by w l ++ match port_step w l with Some w' => handed w' r | None => [] end
  end.
(** the bytes the readers have taken from the port and not yet handed over *)
Definition held (w : Port) : list Z :=
  flat_map (fun t => match t with KGot b => [b] | _ => [] end) (k_threads w).
(** the readers in [read()] or with a byte from it *)
Definition reading (t : KThread) : bool := match t with KRead | KGot _ => true | _ => false end.
Definition in_read (w : Port) : nat := length (filter reading (k_threads w)).
(** the readers not yet ended *)
Definition alive_reader (t : KThread) : bool := match t with KNew | KEnded => false | _ => true end.
Definition live (w : Port) : nat := length (filter alive_reader (k_threads w)).
(** steps of the program itself *)
Definition own_step (l : PortLabel) : Prop :=
  match l with KLoop _ | KDone _ _ | KGoOn _ => True | _ => False end.
Definition at_rest (w : Port) : Prop := forall l, own_step l -> port_step w l = None.
(** [bytes] picked from [all] by number *)
Definition picked (all bytes : list Z) (numbers : list nat) : Prop :=
  Forall2 (fun k b => nth_error all k = Some b) numbers bytes.

(** ** Schedules *)
(** [n] more readers, started by a thread of the application *)
Definition start_more (n : nat) : list PortLabel :=
  concat (repeat [KStart (App 0); KGoOn (App 0); KGoOn (App 0)] n).
(** reader [i], at the top of its loop, takes the arriving byte *)
Definition takes (i : nat) (b : Z) : list PortLabel := [KLoop i; KArrive b; KLoop i].
(** and hands it over, without messages *)
Definition hands (i : nat) : list PortLabel := [KLoop i; KDone i true].
(** a thread is in a call of [start_reading] that has not returned *)
Definition starting (w : Port) : Prop := exists x, the_call w x = Some CCreate \/ the_call w x = Some CBegin.
