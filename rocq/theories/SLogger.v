(** What the logging program should log. *)
From Coq Require Import Ascii String.
From Verif Require Export MAsDict MPrint SModem SConnect SPrint MLogger.

(** the command carries the tag *)
Definition tagged (own : Z) (c : Command) : bool := match c_tag c with Some z => z =? own | None => false end.
(** reboots always; commands (message types 0 to 3) only while the modem is
    connected, and not those with the tag connect() used *)
Definition own_line (own : Z) (up : bool) (tx : Z * Msg) : list Line :=
  match snd tx with
  | MInt z => [Rebooted z]
  | MCmd c => if up && (fst tx <=? 3) && negb (tagged own c) then [Message (text_or_nothing (o_command c))] else []
  | MRaw _ => []
  end.
Definition only_reboots (tx : Z * Msg) : list Line := match snd tx with MInt z => [Rebooted z] | _ => [] end.
(** the frames that are complete within the first [n] bytes of the traffic *)
Fixpoint whole (tr : list Sent) (n : nat) : list Sent :=
  match tr with
  | [] => []
  | x :: r => if Nat.leb (length (sent_frame x)) n then x :: whole r (n - length (sent_frame x)) else []
  end.
Definition number_of_bytes (chunks : list (list Z)) : nat := length (concat chunks).
(** a command that ends the execution of the request connect() sent *)
Definition ends_request (own : Z) (x : Sent) : Prop :=
  s_type x <= 3 /\ exists c, s_msg x = MCmd c /\ c_tag c = Some own /\ c_completed c = true.
(** lines for reboots only, resp. for everything [own_line] asks for *)
Definition reboots (tr : list Sent) : list Line := flat_map only_reboots (SSerial.delivered tr).
Definition lines (own : Z) (up : bool) (tr : list Sent) : list Line := flat_map (own_line own up) (SSerial.delivered tr).
(** ** Any bytes *)
Definition is_message (l : Line) : bool := match l with Message _ => true | Rebooted _ => false end.
(** the calls of the two callbacks between two states of a modem *)
Definition new_commands (s s2 : Session) : list Msg :=
  skipn (length (m_cb_calls (r_modem (se_reader s)))) (m_cb_calls (r_modem (se_reader s2))).
Definition new_reboots (s s2 : Session) : list Msg :=
  skipn (length (m_rb_calls (r_modem (se_reader s)))) (m_rb_calls (r_modem (se_reader s2))).
