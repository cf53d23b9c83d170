(** modem/modem.py:215-242: what the reader threads of [MStation] do with the
    messages that [parse] returned.  The loop over [cmds] (221) takes one message
    after the other.  Where a message goes (222-241: kept as a response, given to a
    callback, logged, or put into a list) is left open here, see [MModem]; it takes
    any time, other threads run meanwhile.  A callback may call [start_reading] and
    [stop_reading], and it may raise.  There is no handler: the exception ends the
    thread, and the messages that were still to come are forgotten with [cmds].

    The entries for the log (216-219) are left out. *)
From Verif Require Import MBase MAlp MSerial MReaders MInside MStation.

(** a message with its type, and the number of the reader it was returned to *)
Definition Item : Type := nat * (Z * Msg).
(** [d_todo]: the rest of [cmds] of the readers that are in the loop of 221;
    [d_done]: the messages taken, in order; [d_lost]: those forgotten;
    [d_busy]: the readers that have taken a message of their [cmds] *)
Record Delivery := mkDelivery
  { d_st : Station; d_todo : list Item; d_done : list Item; d_lost : list Item; d_busy : list nat }.
Definition delivery_of (p : SParser) (n m : nat) : Delivery := mkDelivery (station_of p n m) [] [] [] [].
(** a step of [MStation]; reader [i] takes its next message (221) *)
Inductive DeliveryLabel := DStation (x : StationLabel) | DNext (i : nat).

Definition mine (i : nat) (l : list Item) : list Item := filter (fun x => Nat.eqb (fst x) i) l.
Definition not_mine (i : nat) (l : list Item) : list Item := filter (fun x => negb (Nat.eqb (fst x) i)) l.
(** the first message of reader [i], and the others *)
Fixpoint take_first (i : nat) (l : list Item) : option (Item * list Item) :=
  match l with
  | [] => None
  | x :: r => if Nat.eqb (fst x) i then Some (x, r)
              else match take_first i r with Some (y, r') => Some (y, x :: r') | None => None end
  end.
(** the messages in results of [parse] *)
Definition items (rs : list (nat * res PResult)) : list Item :=
  flat_map (fun x => match snd x with Ok r => map (pair (fst x)) (pr_msgs r) | Err _ => [] end) rs.
(** the step fits the loop of 221: the reader goes back to its [while] (204) when
    no message is left; an exception comes out of [parse] or of the handling of a
    message; only callbacks call [start_reading] and [stop_reading] in a reader *)
Definition fits (d : Delivery) (x : StationLabel) : bool :=
  let busy i := existsb (Nat.eqb i) (d_busy d) in
  match x with
  | TPort (KDone i true) => match mine i (d_todo d) with [] => true | _ => false end
  | TPort (KDone i false) => busy i || raised (st_in (d_st d)) i
  | TPort (KStop (Reader i)) | TPort (KStart (Reader i)) => busy i
  | _ => true
  end.
Definition delivery_step (lib : bool) (d : Delivery) (y : DeliveryLabel) : option Delivery :=
  let '(mkDelivery s todo done lost busy) := d in
  match y with
  | DNext i =>
      match nth_error (k_threads (st_port s)) i, nth_error (in_places (st_in s)) i with
      | Some (KBusy CNone), Some PIdle =>
          match take_first i todo with
          | Some (x, rest) => Some (mkDelivery s rest (done ++ [x]) lost (i :: busy))
          | None => None
          end
      | _, _ => None
      end
  | DStation x =>
      if fits d x then
        match station_step lib s x with
        | None => None
        | Some s' =>
            match x with
            | TPort (KDone i _) =>
                Some (mkDelivery s' (not_mine i todo) done (lost ++ mine i todo) (filter (fun k => negb (Nat.eqb k i)) busy))
            | TPort _ => Some (mkDelivery s' todo done lost busy)
            | TParse _ =>
                Some (mkDelivery s' (todo ++ items (skipn (length (in_results (st_in s))) (in_results (st_in s')))) done lost busy)
            end
        end
      else None
  end.
Fixpoint delivery_run (lib : bool) (d : Delivery) (ls : list DeliveryLabel) : option Delivery :=
  match ls with
  | [] => Some d
  | y :: r => match delivery_step lib d y with Some d' => delivery_run lib d' r | None => None end
  end.
