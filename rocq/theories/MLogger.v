(** examples/unsolicited_response_logger.py *)
From Coq Require Import Ascii String.
From Verif Require Import MBase MAlp MAsDict MPrint MSerial MModem MConnect.

(** What the two callbacks log, lines 43-47: the text of the command, the reason of
    the reboot.  [logging.info(cmd)] calls [str(cmd)] inside [Handler.emit], which
    catches every exception: then nothing is logged and the callback returns
    normally.  Other lines (of the modem object itself) are left out. *)
Inductive Line := Message (t : Text) | Rebooted (reason : Z).
(** received_command_callback; without [skip_alp_parsing] every message that reaches
    it is a command (parser.py:112-116) *)
Definition message_line (x : Msg) : list Line :=
  match x with
  | MCmd c => match str (o_command c) with Ok t => [Message t] | Err _ => [] end
  | _ => []
  end.
(** rebooted_callback; the argument is an integer (parser.py:106-107) *)
Definition reboot_line (x : Msg) : list Line := match x with MInt z => [Rebooted z] | _ => [] end.

(** the modem object and the log.  One message, modem.py:220-242: a callback is
    called at most once, [m_cb_calls] and [m_rb_calls] record the calls *)
Definition logger_message (st : Modem * list Line) (tx : Z * Msg) : Modem * list Line :=
  let (m, log) := st in
  let m' := dispatch m tx in
  (m', (log ++ flat_map message_line (skipn (length (m_cb_calls m)) (m_cb_calls m'))
            ++ flat_map reboot_line (skipn (length (m_rb_calls m)) (m_rb_calls m')))%list).
(** the reader thread gets bytes, modem.py:204-244; as [reader_chunk] with the log *)
Definition logger_chunk (lib : bool) (g : Session * list Line) (chunk : list Z) : Session * list Line :=
  let (s, log) := g in
  let r := se_reader s in
  if r_alive r then
    match chunk with
    | [] => g
    | _ => match sparse lib (r_parser r) chunk with
           | (p, Ok res) =>
               let (m, log) := fold_left logger_message (pr_msgs res) (r_modem r, log) in
               (mkSession (mkReader p m true) (se_uid s) (se_fw s) (se_sent s), log)
           | (p, Err _) => (mkSession (mkReader p (r_modem r) false) (se_uid s) (se_fw s) (se_sent s), log)
           end
    end
  else g.
Definition logger_chunks (lib : bool) (g : Session * list Line) (chunks : list (list Z)) : Session * list Line :=
  fold_left (logger_chunk lib) chunks g.

(** the program, lines 58-66: [before], [during] and [after] are what the device
    delivers before, during and after [modem.connect()]; an exception of [connect]
    ends the program.  The result of [connect] is not looked at. *)
Definition logger_program (lib : bool) (rnd : Z) (before during after : list (list Z)) : (Session * list Line) * Progress :=
  let (s, log) := logger_chunks lib (new_session false true true, []) before in
  match connect_begin rnd true s with
  | (s, Waiting) =>
      let (s, log) := logger_chunks lib (s, log) during in
      match connect_end s with
      | (s, Raised e) => ((s, log), Raised e)
      | (s, p) => (logger_chunks lib (s, log) after, p)
      end
  | (s, p) => ((s, log), p)
  end.
