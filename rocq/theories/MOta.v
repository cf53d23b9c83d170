(** examples/write_update.py: writing a firmware image to file 200 of a node *)
From Verif Require Import MBase MOperands MAlp MSerial MModem MConnect.

(** the command of one round, write_update.py:80,90-99; [rnd] is the random tag *)
Definition ota_command (rnd offset : Z) (bytes : list Z) : res Command :=
  let! c := mk_command rnd [] true None true in
  let! l := mk_length offset in
  let! o := mk_offset 200 l in
  let! d := mk_data bytes o in
  let! a := mk_action (Regular false false) (WriteFileData d) in
  Ok (add_action c a).

(** write_update.py:103-106.  [completed_with_error] is set whenever
    [execution_completed] is (both come from the tag response). *)
Definition answer_good (m : Msg) : bool :=
  match m with
  | MCmd c => c_completed c && match c_error c with Some true => false | _ => true end
  | _ => false
  end.

(** how the script stands: all written, "write failed", an exception, or about
    to start the next round *)
Inductive OtaState := OtaDone | OtaFailed | OtaRaised (e : exn) | OtaRunning.

(** The loop write_update.py:87-113; [rest] is the unread part of the file,
    [offset] the variable [length].  A round is the random tag of its command
    and what the device does until [execute_command] returns.  The result also
    lists the calls of [execute_command] that returned, with their results.
    The write to file 199 before the loop (line 77) and the printing are left
    out. *)
Fixpoint ota (lib : bool) (s : Session) (rest : list Z) (offset : Z) (rounds : list (Z * list DeviceEvent))
  : Session * list (Command * list Msg) * OtaState :=
  match rest, rounds with
  | [], _ => (s, [], OtaDone)
  | _, [] => (s, [], OtaRunning)
  | _, (rnd, es) :: rounds =>
      match ota_command rnd offset (firstn 239 rest) with
      | Err e => (s, [], OtaRaised e)
      | Ok c =>
          match execute s c 10 with
          | (s, Err e) => (s, [], OtaRaised e)
          | (s, Ok _) =>
              let s := fold_left (device lib) es s in
              let answers := execute_result s in
              if existsb answer_good answers
              then match ota lib s (skipn 239 rest) (offset + 239) rounds with
                   | (s', log, st) => (s', (c, answers) :: log, st)
                   end
              else (s, [(c, answers)], OtaFailed)
          end
      end
  end.
