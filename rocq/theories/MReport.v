(** d7a/serial_modem_interface/parser.py: the rounds of the receive loop, the
    error reports with their text, and what modem/modem.py logs of them.  The
    loops themselves are MSerial's [parse_one] and [parse_buffer]; here each
    round leaves a record.  C88 contains the proof that both agree. *)
From Verif Require Import MBase MCrc MAlp MSerial.
Open Scope list_scope.
Open Scope Z_scope.

(** what a round made of the buffer: a message of [bytes] bytes; an error after
    which [skipped] bytes were dropped; nothing, because bytes are missing; an
    exception that leaves [parse] *)
Inductive Outcome :=
| Got (message_type : Z) (m : Msg) (bytes : nat)
| Bad (e : exn) (skipped : Z)
| Waits
| Leaves (e : exn).
(** a round: the buffer, which is copied into a bit stream (parser.py:103), the
    payload of which the CRC is computed (167-168) if it gets that far, and the
    outcome *)
Record Round := mkRound { ro_buffer : list Z; ro_crc : option (list Z); ro_out : Outcome }.

(** one round of the loop parser.py:101-130 *)
Definition one_round (lib : bool) (p : SParser) : SParser * Round :=
  let buf := sp_buf p in
  let crc := match header_fields (zlen buf) (stream_of buf) with
             | Ok ((_, _, _, _, _, payload), _) => Some payload
             | Err _ => None
             end in
  let (p', hdr) := parse_header p (stream_of buf) in
  let r := match hdr with
           | Err e => Err e
           | Ok ((cmd_len, mt), s) =>
               let! (m, s') := parse_body (sp_skip p) mt cmd_len s in Ok (mt, m, pos s')
           end in
  match r with
  | Ok (mt, m, bits_parsed) =>
      let n := Nat.div bits_parsed 8 in
      (set_buf p' (skipn n buf), mkRound buf crc (Got mt m n))
  | Err e =>
      if is_read_error lib e then (p', mkRound buf crc Waits)
      else if no_args e then (p', mkRound buf crc (Leaves IndexError))
      else let (b, n) := skip_bad buf in (set_buf p' b, mkRound buf crc (Bad e n))
  end.
Definition goes_on (o : Outcome) : bool :=
  match o with Got _ _ _ | Bad _ _ => true | Waits | Leaves _ => false end.
(** the two loops, parser.py:83-89 and 101: rounds until the buffer is empty or
    a round does not go on *)
Fixpoint rounds (fuel : nat) (lib : bool) (p : SParser) : SParser * list Round :=
  match fuel with
  | O => (p, [])
  | S f =>
      match sp_buf p with
      | [] => (p, [])
      | _ => let (q, r) := one_round lib p in
             if goes_on (ro_out r) then let (q', rs) := rounds f lib q in (q', r :: rs) else (q, [r])
      end
  end.
(** the rounds of a call of [parse], parser.py:57-59 *)
Definition parse_rounds (lib : bool) (p : SParser) (msg : list Z) : SParser * list Round :=
  let p := set_buf p (sp_buf p ++ msg) in rounds (length (sp_buf p)) lib p.

(** [" ".join(map(lambda b: format(b, "02x"), buffer))], parser.py:127 *)
Definition hex_char (n : Z) : Z := if n <? 10 then 48 + n else 87 + n.
Fixpoint hex_text (bs : list Z) : list Z :=
  match bs with
  | [] => []
  | [b] => [hex_char (b / 16); hex_char (b mod 16)]
  | b :: r => hex_char (b / 16) :: hex_char (b mod 16) :: 32 :: hex_text r
  end.

(** an entry of info["errors"], parser.py:125-130: the exception instead of its
    text, the text of the buffer before anything is dropped, the number of
    bytes dropped; the bit position is left out *)
Record Report := mkReport { rp_exn : exn; rp_text : list Z; rp_skipped : Z }.
Definition report (r : Round) : list Report :=
  match ro_out r with Bad e n => [mkReport e (hex_text (ro_buffer r)) n] | _ => [] end.
(** the entries [parse] returns; a call that raises returns none *)
Definition reports (lib : bool) (p : SParser) (msg : list Z) : list Report :=
  match snd (sparse lib p msg) with
  | Ok _ => flat_map report (snd (parse_rounds lib p msg))
  | Err _ => []
  end.
(** modem.py:216-218: the text is replaced by that of what was just read *)
Definition modem_reports (lib : bool) (p : SParser) (data_received : list Z) : list Report :=
  map (fun e => mkReport (rp_exn e) (hex_text data_received) (rp_skipped e)) (reports lib p data_received).
(** the "Parser error" lines of the reader, modem.py:204-218, while bytes arrive:
    [dev.read()] returns one byte; an exception of [parse] ends the thread *)
Fixpoint modem_log (lib : bool) (p : SParser) (bytes : list Z) : list Report :=
  match bytes with
  | [] => []
  | b :: r => modem_reports lib p [b] ++
              match sparse lib p [b] with (q, Ok _) => modem_log lib q r | (_, Err _) => [] end
  end.
