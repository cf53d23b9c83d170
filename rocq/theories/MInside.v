(** d7a/serial_modem_interface/parser.py: several threads inside [parse] of one
    [Parser] at the same time, in steps of one access to [self.buffer] or to the
    bytearray it refers to.  A bytearray is an index into a store, because
    [self.buffer] is replaced by a new one (54, 143, 149) while another thread may
    still hold the old one.

    Simplifications: the counters (169-175) are updated in one step together with
    what follows up to line 118, which uses local data only; the text of an error
    (126) is left out; [len(self.buffer)] in line 165 is evaluated also when an
    earlier line of the header raises, which has no effect. *)
From Verif Require Import MBase MCrc MAlp MSerial.

(** local data of a call: [cmds] with [message_types], [parsed], [errors] of
    parse_buffer (78-81) and [errors] of parse_one_command_from_buffer (97) *)
Record Locals := mkLocals { lo_msgs : list (Z * Msg); lo_parsed : Z; lo_errors : list PErr; lo_new : list PErr }.
Definition no_locals : Locals := mkLocals [] 0 [] [].
Definition add_error (e : PErr) (l : Locals) : Locals :=
  mkLocals (lo_msgs l) (lo_parsed l) (lo_errors l) (lo_new l ++ [e]).

(** what [self.buffer] is loaded for *)
Inductive Use :=
| UExtend (msg : list Z)                (* 58: self.buffer.extend(msg) *)
| UTest                                 (* 101: len(self.buffer) > 0 *)
| UStream                               (* 103: ConstBitStream(bytes=self.buffer) *)
| UHeader (s : list Z)                  (* 165: len(self.buffer), with the stream [s] *)
| UShift (t : Z) (m : Msg) (n : nat)    (* 54: self.buffer[start:] *)
| UPop (e : exn)                        (* 141: self.buffer.pop(0) *)
| UIndex (e : exn)                      (* 142: self.buffer.index(0xC0) *)
| USlice (e : exn) (i : Z)              (* 143: self.buffer[pos:] *)
| ULeft (e : exn)                       (* 148: len(self.buffer) + 1 *)
| UInfo (got : option (Z * Msg * nat)). (* 133: len(self.buffer) * 8 *)
(** what a thread does after it has stored a new bytearray: the message (120) or the error (144, 150) *)
Inductive Next := NMessage (t : Z) (m : Msg) (n : nat) | NError (e : PErr).
(** where a thread stands: in no call; before loading [self.buffer]; with the
    bytearray loaded; before storing a new one *)
Inductive Place :=
| PIdle
| PLoad (u : Use) (l : Locals)
| PHave (u : Use) (r : nat) (l : Locals)
| PStore (b : list Z) (x : Next) (l : Locals).

(** the Parser and its threads; [in_results]: what the calls returned or raised,
    with the number of the thread *)
Record Inside := mkInside
  { in_store : list (list Z); in_cur : nat; in_skip : bool; in_up : Z; in_down : Z; in_errs : Z;
    in_places : list Place; in_results : list (nat * res PResult) }.
(** a Parser at rest, with [n] threads *)
Definition inside_of (p : SParser) (n : nat) : Inside :=
  mkInside [sp_buf p] 0 (sp_skip p) (sp_up p) (sp_down p) (sp_errs p) (repeat PIdle n) [].

Fixpoint put {A} (i : nat) (y : A) (l : list A) : list A :=
  match l, i with
  | [], _ => []
  | _ :: r, O => y :: r
  | x :: r, S i => x :: put i y r
  end.
Definition put_place (i : nat) (x : Place) (w : Inside) : Inside :=
  let '(mkInside st c sk u d e ps rs) := w in mkInside st c sk u d e (put i x ps) rs.
Definition put_bytes (r : nat) (b : list Z) (w : Inside) : Inside :=
  let '(mkInside st c sk u d e ps rs) := w in mkInside (put r b st) c sk u d e ps rs.
(** a new bytearray becomes [self.buffer] *)
Definition new_bytes (b : list Z) (w : Inside) : Inside :=
  let '(mkInside st c sk u d e ps rs) := w in mkInside (st ++ [b]) (length st) sk u d e ps rs.
(** the counters, parser.py:169-175 *)
Definition count (counter : Z) (w : Inside) : Inside :=
  let '(mkInside st c sk u d e ps rs) := w in
  let q := bump (mkSP [] sk u d e) counter in mkInside st c sk u (sp_down q) (sp_errs q) ps rs.
(** the call of thread [i] returns or raises *)
Definition finish (i : nat) (r : res PResult) (w : Inside) : Inside :=
  let '(mkInside st c sk u d e ps rs) := w in mkInside st c sk u d e (put i PIdle ps) (rs ++ [(i, r)]).

(** the handlers of lines 121-129 *)
Definition handle (lib : bool) (i : nat) (e : exn) (l : Locals) (w : Inside) : Inside :=
  if is_read_error lib e then put_place i (PLoad (UInfo None) l) w
  else if no_args e then finish i (Err IndexError) w
  else put_place i (PLoad (UPop e) l) w.

(** thread [i] uses the bytearray [r], which holds [b] *)
Definition use (lib : bool) (i : nat) (u : Use) (r : nat) (b : list Z) (l : Locals) (w : Inside) : Inside :=
  let go u := put_place i (PLoad u l) w in
  match u with
  | UExtend msg => put_place i (PLoad UTest l) (put_bytes r (b ++ msg) w)
  | UTest => go (match b with [] => UInfo None | _ => UStream end)
  | UStream => go (UHeader b)
  | UHeader s =>
      match header_fields (zlen b) (stream_of s) with
      | Err e => handle lib i e l w
      | Ok ((counter, t, cmd_len, crc1, crc2, payload), s') =>
          let w := count counter w in
          let (h, o) := calculate_crc payload in
          match (if negb (h =? crc1) || negb (o =? crc2) then Err ParseError
                 else let! (m, s2) := parse_body (in_skip w) t cmd_len s' in Ok (m, pos s2)) with
          | Err e => handle lib i e l w
          | Ok (m, n) => put_place i (PLoad (UShift t m n) l) w
          end
      end
  | UShift t m n => put_place i (PStore (skipn (Nat.div n 8) b) (NMessage t m n) l) w
  | UPop e => match b with
              | [] => put_place i (PLoad UTest (add_error (mkPErr e 0) l)) w
              | _ :: rest => put_place i (PLoad (UIndex e) l) (put_bytes r rest w)
              end
  | UIndex e => go (match find_c0 b 0 with Some (_, k) => USlice e k | None => ULeft e end)
  | USlice e k => put_place i (PStore (skipn (Z.to_nat k) b) (NError (mkPErr e (k + 1))) l) w
  | ULeft e => put_place i (PStore [] (NError (mkPErr e (zlen b + 1))) l) w
  | UInfo None =>
      finish i (Ok (mkPR (lo_msgs l) (lo_parsed l) (8 * zlen b) (lo_errors l ++ lo_new l))) w
  | UInfo (Some (t, m, n)) =>
      put_place i (PLoad UTest (mkLocals (lo_msgs l ++ [(t, m)]) (lo_parsed l + Z.of_nat n) (lo_errors l ++ lo_new l) [])) w
  end.

(** thread [i] calls [parse(msg)]; thread [i] goes on *)
Inductive InLabel := ICall (i : nat) (msg : list Z) | IGo (i : nat).
Definition inside_step (lib : bool) (w : Inside) (x : InLabel) : option Inside :=
  match x with
  | ICall i msg => match nth_error (in_places w) i with
                   | Some PIdle => Some (put_place i (PLoad (UExtend msg) no_locals) w)
                   | _ => None
                   end
  | IGo i => match nth_error (in_places w) i with
             | Some (PLoad u l) => Some (put_place i (PHave u (in_cur w) l) w)
             | Some (PHave u r l) => match nth_error (in_store w) r with
                                     | Some b => Some (use lib i u r b l w)
                                     | None => None
                                     end
             | Some (PStore b (NMessage t m n) l) => Some (put_place i (PLoad (UInfo (Some (t, m, n))) l) (new_bytes b w))
             | Some (PStore b (NError e) l) => Some (put_place i (PLoad UTest (add_error e l)) (new_bytes b w))
             | _ => None
             end
  end.
Fixpoint inside_run (lib : bool) (w : Inside) (ls : list InLabel) : option Inside :=
  match ls with
  | [] => Some w
  | x :: r => match inside_step lib w x with Some w' => inside_run lib w' r | None => None end
  end.
