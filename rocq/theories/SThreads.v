(** What several threads may expect of the wire. *)
From Verif Require Export SSerial MThreads.

(** a transmission: thread, counter used, ALP bytes *)
Definition Transmission : Type := nat * Z * list Z.
Definition tr_thread (x : Transmission) : nat := fst (fst x).
Definition tr_counter (x : Transmission) : Z := snd (fst x).
Definition tr_alp (x : Transmission) : list Z := snd x.
Definition tr_frame (x : Transmission) : list Z := frame (tr_counter x) 1 (tr_alp x).
Definition transmission_ok (x : Transmission) : Prop := is_byte (tr_counter x) /\ is_payload (tr_alp x).
(** what thread [i] transmitted *)
Definition of_thread (i : nat) (l : list Transmission) : list (list Z) :=
  map tr_alp (filter (fun x => Nat.eqb (tr_thread x) i) l).
(** the calls of a thread that returned normally *)
Definition returned_normally (t : Thread) : list (list Z) :=
  flat_map (fun e => match e with (Ok alp, None) => [alp] | _ => [] end) (t_log t).
(** the command a thread is working on *)
Definition current (t : Thread) : list (res (list Z)) :=
  match t_pc t with
  | TIdle => []
  | TBuild a | TLoad a _ | TStore a _ _ | TCheck a _ | TReset a _ | TLock a _ | TWrite a _ => [Ok a]
  end.
Definition all_done (s : Shared) : Prop :=
  Forall (fun t => t_pc t = TIdle /\ t_todo t = []) (sh_threads s).
(** ALP data is bytes *)
Definition program_bytes (p : list (res (list Z))) : Prop :=
  Forall (fun a => match a with Ok alp => Forall is_byte alp | Err _ => True end) p.
(** the thread [t] holds the lock and has written [part] of its frame *)
Definition writing (t : Thread) (part : list Z) : Prop :=
  exists c alp rest, t_pc t = TWrite alp rest /\ part ++ rest = frame c 1 alp.
(** the threads named in [order] come one after the other, each for one call;
    the calls in this order *)
Fixpoint in_turn {A} (programs : list (list A)) (order : list nat) : option (list A) :=
  match order with
  | [] => Some []
  | i :: r => match nth_error programs i with
              | Some (a :: p) => match in_turn (set_nth i p programs) r with Some l => Some (a :: l) | None => None end
              | _ => None
              end
  end.
