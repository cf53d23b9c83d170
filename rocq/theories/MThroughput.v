(** examples/throughput_test.py: sending, receiving and the verdict *)
From Verif Require Import MBase MSp MOperands MAlp MSerial MModem MConnect.

(** the command, throughput_test.py:198-203; the payload is [range(n)] *)
Definition throughput_command (rnd : Z) (n : nat) (conf : Configuration) : res Command :=
  create_return rnd 64 (map Z.of_nat (seq 0 n)) 0 None IF_D7ASP (Some (CfgD7 conf)).
(** the sending loop, lines 207-210; the list has one element per message, what
    the device does meanwhile.  The answers are not looked at. *)
Fixpoint transmit (lib : bool) (s : Session) (c : Command) (rounds : list (list DeviceEvent)) : Session * res unit :=
  match rounds with
  | [] => (s, Ok tt)
  | es :: rounds =>
      match execute s c 100 with
      | (s, Err e) => (s, Err e)
      | (s, Ok _) => transmit lib (fold_left (device lib) es s) c rounds
      end
  end.

(** receiver_cmd_callback, lines 246-252.  [received] are the commands in the
    dictionary [received_commands], in the order of arrival: the keys (the
    senders) are only used to print the result and for the order in which the
    commands are looked at. *)
Definition on_command (received : list Command) (c : Command) : res (list Command) :=
  match c_status c with
  | None => Ok received
  | Some a =>
      match a_op a with
      | InterfaceStatus o => match iso_status o with Some _ => Ok (received ++ [c]) | None => Err AttributeError end
      | _ => Err AttributeError
      end
  end.

(** the loop, lines 222-227: [its] is one element per turn for which there is
    time, the commands that are filed during its [time.sleep(2)].  Result: the
    commands filed, and [total_recv]. *)
Fixpoint waiting (count : Z) (its : list (list Command)) (received : list Command) (total : Z) : list Command * Z :=
  if total <? count then
    match its with
    | [] => (received, total)
    | new :: its => waiting count its (received ++ new) (zlen received)
    end
  else (received, total).

(** [cmd.actions[0].operand.data], line 233: which operands have the attribute *)
Definition operand_data (o : Operation) : option (list Z) :=
  match o with WriteFileData d | ReturnFileData d _ => Some (d_data d) | _ => None end.
(** lines 230-235.  [type(cmd.actions[0].op)] is [int] and never [ReturnFileData].
    [None]: an [IndexError] or [AttributeError]. *)
Fixpoint payload_errors (payload : list Z) (cmds : list Command) (errors : bool) : option bool :=
  match cmds with
  | [] => Some errors
  | c :: r =>
      match c_actions c with
      | [] => None
      | a :: _ =>
          match operand_data (a_op a) with
          | None => None
          | Some d => payload_errors payload r (if list_eq_dec Z.eq_dec d payload then errors else true)
          end
      end
  end.
Inductive Verdict := VerdictOK | VerdictNOK | VerdictRaised.
(** wait_for_receiver, lines 218-244 *)
Definition wait_for_receiver (count : Z) (payload : list Z) (received : list Command) (its : list (list Command)) : Verdict :=
  let (all, total) := waiting count its received 0 in
  match payload_errors payload all false with
  | None => VerdictRaised
  | Some errors => if negb errors && (total =? count) then VerdictOK else VerdictNOK
  end.
