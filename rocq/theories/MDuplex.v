(** Two [Parser] objects (serial_modem_interface/parser.py:44-150), one at each end
    of a serial line; each of them builds frames and parses what comes in. *)
From Verif Require Import MBase MSerial.

(** the two objects, the bytes under way in each direction, the messages returned by
    [parse] at each end, and all errors reported *)
Record Pair := mkPair
  { p_a : SParser; p_b : SParser; p_ab : list Z; p_ba : list Z;
    p_got_a : list (Z * Msg); p_got_b : list (Z * Msg); p_errors : list PErr }.
(** an end calls [build_serial_frame] with a command (the result of
    [bytearray(command)]) and puts the frame on the line, or takes up to [n] bytes
    off the line and calls [parse] with them *)
Inductive Move := ASends (ser : res (list Z)) | BSends (ser : res (list Z)) | AReads (n : nat) | BReads (n : nat).
(** [None]: [parse] raised.  A refused command leaves everything as it was. *)
Definition move (lib : bool) (w : Pair) (mv : Move) : option Pair :=
  match mv with
  | ASends ser =>
      let (a, f) := build_serial_frame (p_a w) ser in
      Some (mkPair a (p_b w) (p_ab w ++ match f with Ok d => d | Err _ => [] end) (p_ba w) (p_got_a w) (p_got_b w) (p_errors w))
  | BSends ser =>
      let (b, f) := build_serial_frame (p_b w) ser in
      Some (mkPair (p_a w) b (p_ab w) (p_ba w ++ match f with Ok d => d | Err _ => [] end) (p_got_a w) (p_got_b w) (p_errors w))
  | AReads n =>
      match sparse lib (p_a w) (firstn n (p_ba w)) with
      | (a, Ok r) => Some (mkPair a (p_b w) (p_ab w) (skipn n (p_ba w)) (p_got_a w ++ pr_msgs r) (p_got_b w) (p_errors w ++ pr_errors r))
      | (_, Err _) => None
      end
  | BReads n =>
      match sparse lib (p_b w) (firstn n (p_ab w)) with
      | (b, Ok r) => Some (mkPair (p_a w) b (skipn n (p_ab w)) (p_ba w) (p_got_a w) (p_got_b w ++ pr_msgs r) (p_errors w ++ pr_errors r))
      | (_, Err _) => None
      end
  end.
Fixpoint moves (lib : bool) (w : Pair) (l : list Move) : option Pair :=
  match l with
  | [] => Some w
  | mv :: r => match move lib w mv with Some w' => moves lib w' r | None => None end
  end.
Definition idle_pair (a b : SParser) : Pair := mkPair a b [] [] [] [] [].
