(** d7a/d7atp, d7a/d7anp, d7a/dll frames and the DLL parser *)
From Verif Require Import MBase MCt MSp MAlp MSerial.

(** ** D7ATP control, d7atp/control.py:26-46 *)
Record TpControl := mkTpControl
  { tc_start : bool; tc_tl : bool; tc_te : bool; tc_ack_req : bool; tc_ack_nv : bool;
    tc_ack_rec : bool; tc_agc : bool }.
(** d7atp/control.py:48-67 *)
Definition tpc_parse : P TpControl :=
  do a <- read_bool; do _ <- read_bool; do tl <- read_bool; do te <- read_bool;
  do ar <- read_bool; do nv <- read_bool; do rc <- read_bool; do agc <- read_bool;
  ret (mkTpControl a tl te ar nv rc agc).
(** d7atp/control.py:69-78 *)
Definition tpc_ser (c : TpControl) : res (list Z) :=
  let fl (b : bool) (n byte : Z) := if b then Z.lor byte (Z.shiftl 1 n) else byte in
  yield1 (fl (tc_ack_rec c) 1 (fl (tc_ack_nv c) 2 (fl (tc_ack_req c) 3 (fl (tc_te c) 4
           (fl (tc_tl c) 5 (fl (tc_start c) 7 0))))) + b2z (tc_agc c)).

(** ** D7ATP frame, d7atp/frame.py:31-58; [ack_template] is always [None] for a
    frame that gets past the assertions *)
Record TpFrame := mkTpFrame
  { tf_control : TpControl; tf_dialog : Z; tf_trans : Z; tf_agc : Z;
    tf_tl : option CT; tf_te : option CT; tf_tc : option CT;
    tf_ack : option (Z * Z); tf_cmd : Command }.
Definition mk_tp_frame (c : TpControl) (d t : Z) (cmd : Command) (agc : option Z)
  (tl te tc : option CT) (ack : option (Z * Z)) : res TpFrame :=
  let agc := match agc with None => 10 | Some x => x end in
  validated (in_range 0 255 d && in_range 0 255 t && in_range 0 31 agc)
            (mkTpFrame c d t agc tl te tc ack cmd).
(** [assert cond, "message"] *)
Definition assert_msg (b : bool) : P unit := if b then ret tt else raise AssertMsg.
(** a field present only if its flag is set *)
Definition optional {A} (b : bool) (p : P A) : P (option A) :=
  if b then do x <- p; ret (Some x) else ret None.
(** d7atp/frame.py:60-122 *)
Definition tp_parse (payload_length : Z) : P TpFrame :=
  do c <- tpc_parse;
  do d <- read_uint 8;
  do t <- read_uint 8;
  let n := payload_length - 1 - 1 - 1 in
  do agc <- optional (tc_agc c) (read_uint 8);
  let n := if tc_agc c then n - 1 else n in
  do tl <- optional (tc_tl c) ct_parse;
  let n := if tc_tl c then n - 1 else n in
  do te <- optional (tc_te c) ct_parse;
  let n := if tc_te c then n - 1 else n in
  do tc <- optional (tc_ack_req c && tc_start c) ct_parse;
  let n := if tc_ack_req c && tc_start c then n - 1 else n in
  do ack <- (if tc_ack_nv c then
               do a <- read_uint 8;
               do b <- read_uint 8;
               do _ <- assert_msg (a =? t);
               do _ <- assert_msg (b =? t);
               ret (Some (a, b))
             else ret None);
  let n := if tc_ack_nv c then n - 1 - 1 else n in
  do _ <- assert_msg (negb (tc_ack_rec c));
  do _ <- assert_msg (negb (tc_ack_nv c));
  do cmd <- alp_parse n;
  lift (mk_tp_frame c d t cmd agc tl te tc ack).
(** d7atp/frame.py:124-140: [yield self.tl] yields a [CT] object, which
    [bytearray] refuses with [TypeError] (also when it is [None]); a [None]
    [ack_template] cannot be iterated.  [tc] is not serialized. *)
Definition tp_ser (f : TpFrame) : res (list Z) :=
  let c := tf_control f in
  tpc_ser c +++ yield1 (tf_dialog f) +++ yield1 (tf_trans f)
  +++ (if tc_agc c then yield1 (tf_agc f) else Ok [])
  +++ (if tc_tl c then Err TypeError else Ok [])
  +++ (if tc_te c then Err TypeError else Ok [])
  +++ (if tc_ack_nv c then
         match tf_ack f with Some (a, b) => yields [a; b] | None => Err TypeError end
       else Ok [])
  +++ command_ser (tf_cmd f).

(** ** D7ANP control, d7anp/control.py:26-41 *)
Record NpControl := mkNpControl
  { nc_no_origin : bool; nc_hopping : bool; nc_id_type : IdType; nc_nls : NlsMethod }.
(** d7anp/control.py:43-50; keyword arguments are evaluated left to right *)
Definition npc_parse : P NpControl :=
  do o <- read_bool;
  do h <- read_bool;
  do v <- read_uint 2; do t <- lift (idtype_of v);
  do v <- read_uint 4; do m <- lift (nls_of v);
  ret (mkNpControl o h t m).
(** d7anp/control.py:52-58: [self.has_multi_hop] does not exist *)
Definition npc_ser (c : NpControl) : res (list Z) := Err AttributeError.

(** ** D7ANP frame, d7anp/frame.py:29-43 *)
Record NpFrame := mkNpFrame
  { nf_control : NpControl; nf_class : Z; nf_origin : list Z; nf_tp : TpFrame }.
Definition mk_np_frame (c : NpControl) (cl : Z) (o : list Z) (t : TpFrame) : res NpFrame :=
  validated (is_BYTE cl && forallb is_BYTE o) (mkNpFrame c cl o t).
(** d7anp/frame.py:45-70 *)
Definition np_parse (payload_length : Z) : P NpFrame :=
  do c <- npc_parse;
  let n := payload_length - 1 in
  do cl <- read_uint 8;
  let n := n - 1 in
  do _ <- assert_msg (negb (nc_hopping c));
  do _ <- assert_msg (match nc_nls c with NLS_NONE => true | _ => false end);
  do o <- (if negb (nc_no_origin c) then
             match nc_id_type c with
             | VID => read_bytes 2
             | UID => read_bytes 8
             | _ => raise AssertNoMsg
             end
           else ret []);
  let n := if negb (nc_no_origin c) then
             match nc_id_type c with VID => n - 2 | UID => n - 8 | _ => n end
           else n in
  do t <- tp_parse n;
  lift (mk_np_frame c cl o t).
(** d7anp/frame.py:72-76 *)
Definition np_ser (f : NpFrame) : res (list Z) :=
  npc_ser (nf_control f) +++ yield1 (nf_class f) +++ yields (nf_origin f) +++ tp_ser (nf_tp f).

(** ** Foreground frame, dll/foreground_frame_control.py:27-52 and
    dll/foreground_frame.py:32-95 *)
Record FgControl := mkFgControl { fc_id_type : IdType; fc_eirp : Z }.
Definition mk_fgc (t : IdType) (e : Z) : res FgControl :=
  validated (in_range 0 63 e) (mkFgControl t e).
Definition fgc_parse : P FgControl :=
  do v <- read_uint 2; do t <- lift (idtype_of v);
  do e <- read_uint 6;
  lift (mk_fgc t e).
Definition fgc_ser (c : FgControl) : res (list Z) :=
  yield1 (Z.lor 0 (Z.shiftl (idtype_value (fc_id_type c)) 6) + fc_eirp c).

(** [Types.BITS(16)] has the (exact) float maximum 65535 *)
Record FgFrame := mkFgFrame
  { ff_length : Z; ff_subnet : Z; ff_control : FgControl; ff_target : list Z;
    ff_np : NpFrame; ff_crc : Z }.
Definition mk_fg_frame (l s : Z) (c : FgControl) (t : list Z) (n : NpFrame) (crc : Z) : res FgFrame :=
  validated (is_BYTE l && is_BYTE s && forallb is_BYTE t && in_range 0 65535 crc)
            (mkFgFrame l s c t n crc).
Definition fg_parse : P FgFrame :=
  do l <- read_int 8;
  do s <- read_int 8;
  do c <- fgc_parse;
  let n := l - 4 in
  do t <- (match fc_id_type c with VID => read_bytes 2 | UID => read_bytes 8 | _ => ret [] end);
  let n := match fc_id_type c with VID => n - 2 | UID => n - 8 | _ => n end in
  do f <- np_parse n;
  do crc <- read_uint 16;
  lift (mk_fg_frame l s c t f crc).
Definition fg_ser (f : FgFrame) : res (list Z) :=
  yield1 (ff_length f) +++ yield1 (ff_subnet f) +++ fgc_ser (ff_control f)
  +++ yields (ff_target f) +++ np_ser (ff_np f) +++ yield1 (ff_crc f).

(** ** Background frame, dll/background_frame_control.py:27-52 and
    dll/background_frame.py:32-79 *)
Record BgControl := mkBgControl { bc_id_type : IdType; bc_tag : Z }.
Definition mk_bgc (t : IdType) (g : Z) : res BgControl :=
  validated (in_range 0 63 g) (mkBgControl t g).
Definition bgc_parse : P BgControl :=
  do v <- read_uint 2; do t <- lift (idtype_of v);
  do g <- read_uint 6;
  lift (mk_bgc t g).
Definition bgc_ser (c : BgControl) : res (list Z) :=
  yield1 (Z.lor 0 (Z.shiftl (idtype_value (bc_id_type c)) 6) + bc_tag c).
Record BgFrame := mkBgFrame { bf_subnet : Z; bf_control : BgControl; bf_payload : Z; bf_crc : Z }.
Definition mk_bg_frame (s : Z) (c : BgControl) (p crc : Z) : res BgFrame :=
  validated (is_BYTE s && in_range 0 65535 p && in_range 0 65535 crc) (mkBgFrame s c p crc).
Definition bg_parse : P BgFrame :=
  do s <- read_int 8;
  do c <- bgc_parse;
  do p <- read_uint 16;
  do crc <- read_uint 16;
  lift (mk_bg_frame s c p crc).
(** [for byte in self.payload]: iterating an integer is a [TypeError] *)
Definition bg_ser (f : BgFrame) : res (list Z) :=
  yield1 (bf_subnet f) +++ bgc_ser (bf_control f) +++ (Err TypeError) +++ yield1 (bf_crc f).

(** ** The DLL parser, dll/parser.py:37-98 *)
Inductive DFrame := DFg (f : FgFrame) | DBg (f : BgFrame).
Definition dframe_parse (foreground : bool) : P DFrame :=
  if foreground then do f <- fg_parse; ret (DFg f) else do f <- bg_parse; ret (DBg f).

(** parse + parse_buffer + parse_one_frame_from_buffer, dll/parser.py:43-98.
    The [ParseError] of the handler at line 85 is the one of line 31, which
    nothing raises, so every exception other than [ReadError] leaves the method
    and the loop runs at most once.  Result: new buffer and either the
    exception or (the one frame or [None], bits parsed, bits left). *)
Definition dll_parse (lib foreground : bool) (buf frame : list Z)
  : list Z * res (option DFrame * Z * Z) :=
  let buf := buf ++ frame in
  match buf with
  | [] => (buf, Ok (None, 0, 0))
  | _ =>
      match dframe_parse foreground (stream_of buf) with
      | Ok (f, s) => let rest := skipn (Nat.div (pos s) 8) buf in
                     (rest, Ok (Some f, Z.of_nat (pos s), 8 * zlen rest))
      | Err e => if is_read_error lib e then (buf, Ok (None, 0, 8 * zlen buf))
                 else (buf, Err e)
      end
  end.
