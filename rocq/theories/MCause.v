(** d7a/serial_modem_interface/parser.py: the "error" and "pos" of an error
    entry, for the errors the header raises.  The rounds of the receive loop
    are those of MReport. *)
From Coq Require Import String.
From Verif Require Import MBase MCrc MAlp MSerial MPhy MReport.
Open Scope list_scope.
Open Scope Z_scope.

(** [e.args[0]] and [s.pos] of an exception of parse_serial_interface_header
    other than [ReadError], parser.py:153-179; [peeklist] (167) does not move.
    [None] if it raises none. *)
Definition header_raises (buf : list Z) : option (string * nat) :=
  match read_uint 8 (stream_of buf) with
  | Err _ => None
  | Ok (b, s) =>
      if negb (b =? 192) then Some ("expected 0xC0, found " ++ dec_str b, pos s)%string
      else
      match read_uint 8 s with
      | Err _ => None
      | Ok (version, s) =>
          if negb (version =? 0) then Some ("Expected version 0, found " ++ dec_str version, pos s)%string
          else
          match header_fields (zlen buf) (stream_of buf) with
          | Err _ => None
          | Ok ((_, _, _, crc1, crc2, payload), s) =>
              let (h, l) := calculate_crc payload in
              if negb (h =? crc1) || negb (l =? crc2)
              then Some ("CRC is incorrect found " ++ dec_str crc1 ++ " " ++ dec_str crc2
                         ++ " and expected " ++ dec_str h ++ " " ++ dec_str l, pos s)%string
              else None
          end
      end
  end.

(** an entry of info["errors"], parser.py:125-130: "error" and "pos" if the
    header raised it (those of an error of the ALP parser are in MWhere), and
    the rest *)
Record Entry := mkEntry { en_header : option (string * nat); en_report : Report }.
Definition entry (r : Round) : list Entry := map (mkEntry (header_raises (ro_buffer r))) (report r).
(** the entries a call of [parse] returns *)
Definition entries (lib : bool) (p : SParser) (msg : list Z) : list Entry :=
  match snd (sparse lib p msg) with
  | Ok _ => flat_map entry (snd (parse_rounds lib p msg))
  | Err _ => []
  end.
(** what modem.py:216-218 logs: only "buffer" is replaced *)
Definition modem_entries (lib : bool) (p : SParser) (data_received : list Z) : list Entry :=
  map (fun e => let r := en_report e in
                mkEntry (en_header e) (mkReport (rp_exn r) (hex_text data_received) (rp_skipped r)))
      (entries lib p data_received).
