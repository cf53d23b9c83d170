(** Polling the modem for unsolicited responses and reboot notifications. *)
From Coq Require Import List. Import ListNotations.
From Verif Require Export MSerial MMailbox SModem.

(** the messages that arrived in a schedule *)
Fixpoint box_arrivals (ls : list BoxLabel) : list Msg :=
  match ls with
  | [] => []
  | BArrive x :: r => x :: box_arrivals r
  | _ :: r => box_arrivals r
  end.
(** the message the reader thread holds *)
Definition held (b : Box) : list Msg :=
  match bx_reader b with BIdle => [] | BLoad x => [x] | BAppend _ x => [x] end.
(** content of a list object *)
Definition box_list (b : Box) (r : nat) : list Msg := nth r (bx_lists b) [].
Definition box_has (b : Box) (r : nat) : Prop := (r < length (bx_lists b))%nat.
(** what get_..._received() would give now *)
Definition waiting (b : Box) : list Msg := box_list b (current b).

(** Rounds of polling, the application doing [a], [b], [c] in turn with reader
    steps anywhere in between.  [read_clear]: get, look, clear.  [swap_read]:
    get, clear, look. *)
Definition reader_label (l : BoxLabel) : Prop := match l with BArrive _ | BReader => True | _ => False end.
Definition reader_only (ls : list BoxLabel) : Prop := Forall reader_label ls.
Inductive polls (a b c : BoxLabel) : list BoxLabel -> Prop :=
| polls_nil ls : reader_only ls -> polls a b c ls
| polls_round r1 r2 r3 ls : reader_only r1 -> reader_only r2 -> reader_only r3 -> polls a b c ls ->
    polls a b c (r1 ++ a :: r2 ++ b :: r3 ++ c :: ls).
Definition read_clear : list BoxLabel -> Prop := polls BGet BLook BClear.
Definition swap_read : list BoxLabel -> Prop := polls BGet BClear BLook.

(** polling with get, look, clear, where the reader handles no message from
    the look to the clear *)
Inductive careful : Box -> list BoxLabel -> Prop :=
| careful_end b ls : reader_only ls -> careful b ls
| careful_round b r1 r2 b1 b2 ls : reader_only r1 -> reader_only r2 ->
    box_run b (r1 ++ BGet :: r2) = Some b1 -> bx_reader b1 = BIdle ->
    box_run b1 [BLook; BClear] = Some b2 -> careful b2 ls ->
    careful b ((r1 ++ BGet :: r2) ++ [BLook; BClear] ++ ls).
(** polling with get, clear, look, where the reader is done with the message it
    was handling, if any, some time after the clear and before the look *)
Inductive patient : Box -> list BoxLabel -> Prop :=
| patient_end b ls : reader_only ls -> patient b ls
| patient_round b r1 r2 r3 r4 b1 b2 ls : reader_only r1 -> reader_only r2 -> reader_only r3 -> reader_only r4 ->
    box_run b (r1 ++ BGet :: r2 ++ BClear :: r3) = Some b1 -> bx_reader b1 = BIdle ->
    box_run b1 (r4 ++ [BLook]) = Some b2 -> patient b2 ls ->
    patient b ((r1 ++ BGet :: r2 ++ BClear :: r3) ++ (r4 ++ [BLook]) ++ ls).
Definition looks (ls : list BoxLabel) : nat :=
  length (filter (fun l => match l with BLook => true | _ => false end) ls).
