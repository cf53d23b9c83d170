(** modem.py:189-199, 236, 241: the lists of unsolicited responses and reboot
    notifications, filled by the reader thread and polled by the application. *)
From Coq Require Import List. Import ListNotations.
From Verif Require Import MSerial.

(** All list objects that [_unsolicited_responses_received] (or, alike,
    [_rebooted_received]) has ever referred to, oldest first; the attribute
    refers to the last one.  [bx_reader]: the message the reader thread is
    about to append, and the list object it has loaded, if it got that far.
    [bx_app]: the list object the application got and has not cleared yet.
    [bx_seen]: what the application has looked at. *)
Inductive BoxReader := BIdle | BLoad (x : Msg) | BAppend (r : nat) (x : Msg).
Record Box := mkBox
  { bx_lists : list (list Msg); bx_reader : BoxReader; bx_got : option nat; bx_seen : list Msg }.

(** modem.py:66-67 *)
Definition new_box : Box := mkBox [[]] BIdle None [].

(** [lists[r].append(x)] *)
Fixpoint append_to (h : list (list Msg)) (r : nat) (x : Msg) : list (list Msg) :=
  match h, r with
  | [], _ => []
  | l :: h', O => (l ++ [x]) :: h'
  | l :: h', S r' => l :: append_to h' r' x
  end.

(** the list object the attribute refers to *)
Definition current (b : Box) : nat := pred (length (bx_lists b)).

(** scheduler choices *)
Inductive BoxLabel :=
| BArrive (x : Msg)   (* the reader reaches modem.py:236/241 with [x] *)
| BReader             (* next step of the reader: load the attribute; append *)
| BGet                (* get_..._received(), modem.py:189-190, 195-196 *)
| BLook               (* the application goes through the list it got *)
| BClear.             (* clear_..._received(), modem.py:192-193, 198-199 *)

Definition box_step (b : Box) (l : BoxLabel) : option Box :=
  match l with
  | BArrive x =>
      match bx_reader b with
      | BIdle => Some (mkBox (bx_lists b) (BLoad x) (bx_got b) (bx_seen b)) | _ => None end
  | BReader =>
      match bx_reader b with
      | BIdle => None
      | BLoad x => Some (mkBox (bx_lists b) (BAppend (current b) x) (bx_got b) (bx_seen b))
      | BAppend r x => Some (mkBox (append_to (bx_lists b) r x) BIdle (bx_got b) (bx_seen b))
      end
  | BGet => Some (mkBox (bx_lists b) (bx_reader b) (Some (current b)) (bx_seen b))
  | BLook =>
      match bx_got b with
      | Some r => Some (mkBox (bx_lists b) (bx_reader b) (bx_got b) (bx_seen b ++ nth r (bx_lists b) []))
      | None => None
      end
  | BClear => Some (mkBox (bx_lists b ++ [[]]) (bx_reader b) (bx_got b) (bx_seen b))
  end.
Fixpoint box_run (b : Box) (ls : list BoxLabel) : option Box :=
  match ls with
  | [] => Some b
  | l :: r => match box_step b l with Some b' => box_run b' r | None => None end
  end.
