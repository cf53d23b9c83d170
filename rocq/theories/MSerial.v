(** d7a/serial_modem_interface/parser.py *)
From Verif Require Import MBase MCrc MAlp.

(** What bitstring's [read("bool")] raises at the end of the stream is
    library behaviour we cannot look up here (see [BoolEof] in MBase.v).  [lib]
    says whether that exception is a bitstring [ReadError]; all results are
    proved for both values. *)
Definition is_read_error (lib : bool) (e : exn) : bool :=
  match e with ReadError => true | BoolEof => lib | _ => false end.

(** exceptions raised with an empty [args]: [e.args[0]] is an [IndexError] *)
Definition no_args (e : exn) : bool :=
  match e with AssertNoMsg => true | NotImplementedError => true | _ => false end.

(** Parser.__init__, parser.py:46-51 *)
Record SParser := mkSP
  { sp_buf : list Z; sp_skip : bool; sp_up : Z; sp_down : Z; sp_errs : Z }.
Definition new_parser (skip : bool) : SParser := mkSP [] skip 0 0 0.

Definition set_buf (p : SParser) (b : list Z) : SParser :=
  mkSP b (sp_skip p) (sp_up p) (sp_down p) (sp_errs p).

(** build_serial_frame, parser.py:63-74.  [ser] is the result of
    [bytearray(command)].  [bytearray.append] raises [ValueError] outside
    0..255; nothing of the object changes when an exception is raised. *)
Definition build_serial_frame (p : SParser) (ser : res (list Z)) : SParser * res (list Z) :=
  let r :=
    let! alp := ser in
    let! c := yield1 (sp_up p) in
    let! t := yield1 1 in
    let! l := yield1 (zlen alp) in
    let (c1, c2) := calculate_crc alp in
    Ok ([192; 0] ++ c ++ t ++ l ++ [c1; c2] ++ alp) in
  match r with
  | Err e => (p, Err e)
  | Ok f => let up := sp_up p + 1 in
            (mkSP (sp_buf p) (sp_skip p) (if 255 <? up then 0 else up) (sp_down p) (sp_errs p), Ok f)
  end.

(** A decoded message: REBOOTED reason, raw payload, or command *)
Inductive Msg := MInt (z : Z) | MRaw (l : list Z) | MCmd (c : Command).

(** the fields of a header and the payload it announces, parser.py:154-167:
    counter, message type, length, crc1, crc2, payload.  [buflen] is
    [len(self.buffer)]; [peeklist] reads without advancing. *)
Definition header_fields (buflen : Z) : P (Z * Z * Z * Z * Z * list Z) :=
  do b <- read_uint 8;
  if negb (b =? 192) then raise ParseError else
  do version <- read_uint 8;
  if negb (version =? 0) then raise ParseError else
  do counter <- read_uint 8;
  do message_type <- read_uint 8;
  do cmd_len <- read_uint 8;
  do crc1 <- read_uint 8;
  do crc2 <- read_uint 8;
  do bp <- bytepos;
  if buflen - bp <? cmd_len then raise ReadError else
  fun s => match read_bytes cmd_len s with
           | Ok (payload, _) => Ok ((counter, message_type, cmd_len, crc1, crc2, payload), s)
           | Err e => Err e
           end.

(** the down counter, parser.py:169-175 *)
Definition bump (p : SParser) (counter : Z) : SParser :=
  let down := sp_down p + 1 in
  let down := if 255 <? down then 0 else down in
  if negb (counter =? down)
  then mkSP (sp_buf p) (sp_skip p) (sp_up p) counter (sp_errs p + 1)
  else mkSP (sp_buf p) (sp_skip p) (sp_up p) down (sp_errs p).

(** parse_serial_interface_header, parser.py:153-179 *)
Definition parse_header (p : SParser) (s : stream) : SParser * res ((Z * Z) * stream) :=
  match header_fields (zlen (sp_buf p)) s with
  | Err e => (p, Err e)
  | Ok ((counter, message_type, cmd_len, crc1, crc2, payload), s') =>
      let (h, l) := calculate_crc payload in
      (bump p counter,
       if negb (h =? crc1) || negb (l =? crc2) then Err ParseError
       else Ok ((cmd_len, message_type), s'))
  end.

(** [s.length]: length of the whole stream in bits *)
Definition stream_length (s : stream) : Z := Z.of_nat (pos s) + zlen (bits s).

(** body of a message, parser.py:105-116.  [s.length < cmd_length] compares
    bits with bytes. *)
Definition parse_body (skip : bool) (message_type cmd_len : Z) : P Msg :=
  if message_type =? 5 then do z <- read_uint 8; ret (MInt z)
  else if message_type =? 4 then do l <- read_bytes cmd_len; ret (MRaw l)
  else if skip then
    fun s => if stream_length s <? cmd_len then Err ReadError
             else (do l <- read_bytes cmd_len; ret (MRaw l)) s
  else do c <- alp_parse cmd_len; ret (MCmd c).

(** skip_bad_buffer_content, parser.py:138-150: new buffer and return value.
    [buffer.index] raising [ValueError] means no 0xC0 is left. *)
Fixpoint find_c0 (l : list Z) (i : Z) : option (list Z * Z) :=
  match l with
  | [] => None
  | b :: r => if b =? 192 then Some (l, i) else find_c0 r (i + 1)
  end.
Definition skip_bad (buf : list Z) : list Z * Z :=
  match buf with
  | [] => ([], 0)
  | _ :: r => match find_c0 r 0 with
              | Some (l, i) => (l, i + 1)
              | None => ([], zlen r + 1)
              end
  end.

(** An entry of info["errors"]: kind of exception and the "skipped" count; the
    human readable fields "buffer" and "pos" are left out. *)
Record PErr := mkPErr { pe_exn : exn; pe_skipped : Z }.

(** parse_one_command_from_buffer, parser.py:95-136.  Result: new state and
    either the raised exception or (message, bits parsed, errors).  The fuel is
    consumed by each retry; every retry removes at least one byte. *)
Fixpoint parse_one (fuel : nat) (lib : bool) (p : SParser) (errors : list PErr)
  : SParser * res (option (Z * Msg) * Z * list PErr) :=
  match fuel with
  | O => (p, Err OutOfFuel)
  | S f =>
      match sp_buf p with
      | [] => (p, Ok (None, 0, errors))
      | _ =>
          let (p', hdr) := parse_header p (stream_of (sp_buf p)) in
          let r := match hdr with
                   | Err e => Err e
                   | Ok ((cmd_len, mt), s) =>
                       let! (m, s') := parse_body (sp_skip p) mt cmd_len s in Ok (mt, m, pos s')
                   end in
          match r with
          | Ok (mt, m, bits_parsed) =>
              (set_buf p' (skipn (Nat.div bits_parsed 8) (sp_buf p')),
               Ok (Some (mt, m), Z.of_nat bits_parsed, errors))
          | Err e =>
              if is_read_error lib e then (p', Ok (None, 0, errors))
              else if no_args e then (p', Err IndexError)
              else let (b, n) := skip_bad (sp_buf p') in
                   parse_one f lib (set_buf p' b) (errors ++ [mkPErr e n])
          end
      end
  end.

(** Result of a [parse] call: message types and messages (one list of pairs;
    in Python two lists of equal length), bits parsed, bits left in the buffer,
    errors *)
Record PResult := mkPR
  { pr_msgs : list (Z * Msg); pr_parsed : Z; pr_left : Z; pr_errors : list PErr }.

(** parse_buffer, parser.py:77-93.  On an exception the decoded messages are
    lost: only the state survives. *)
Fixpoint parse_buffer (fuel : nat) (lib : bool) (p : SParser) (msgs : list (Z * Msg)) (parsed : Z)
  (errors : list PErr) : SParser * res PResult :=
  match fuel with
  | O => (p, Err OutOfFuel)
  | S f =>
      let (p', r) := parse_one (S (length (sp_buf p))) lib p [] in
      match r with
      | Err e => (p', Err e)
      | Ok (None, _, errs) =>
          (p', Ok (mkPR msgs parsed (8 * zlen (sp_buf p')) (errors ++ errs)))
      | Ok (Some m, n, errs) =>
          parse_buffer f lib p' (msgs ++ [m]) (parsed + n) (errors ++ errs)
      end
  end.

(** Parser.parse, parser.py:57-59 *)
Definition sparse (lib : bool) (p : SParser) (msg : list Z) : SParser * res PResult :=
  let p := set_buf p (sp_buf p ++ msg) in
  parse_buffer (S (length (sp_buf p))) lib p [] 0 [].
