(** d7a/alp/parser.py and the classes it uses once more: where the bit stream
    stands, and what [e.args[0]] is, when parsing a payload raises.  The
    parsers are those of MAlp, MOperands, MFs, MSp, MPhy and MCt; C103 contains
    the proof that both agree. *)
From Coq Require Import String.
From Verif Require Import MBase MCrc MCt MPhy MSp MFs MOperands MAlp MSerial MReport MCause.
Close Scope string_scope.
Open Scope list_scope.
Open Scope Z_scope.

(** [Failed e text p]: [e] is raised when [s.pos] is [p]; [text] is
    [e.args[0]] if that is a text and the model knows it *)
Inductive Out (A : Type) : Type :=
| Done (a : A) (s : stream)
| Failed (e : exn) (text : option string) (p : nat).
Arguments Done {A} a s.
Arguments Failed {A} e text p.
Definition W (A : Type) : Type := stream -> Out A.
Definition wret {A} (a : A) : W A := fun s => Done a s.
Definition wraise {A} (e : exn) (text : option string) : W A := fun s => Failed e text (pos s).
Definition wbind {A B} (w : W A) (f : A -> W B) : W B :=
  fun s => match w s with Done a s' => f a s' | Failed e t p => Failed e t p end.
(** a constructor: cerberus makes the argument of its [ValueError] *)
Definition wlift {A} (r : res A) : W A :=
  fun s => match r with Ok a => Done a s | Err e => Failed e None (pos s) end.
Notation "'go' x '<-' p ';' k" := (wbind p (fun x => k))
  (at level 200, x pattern, p at level 100, k at level 200, right associativity).
(** the reads of MBase; one that lacks bits does not move *)
Definition wread {A} (p : P A) : W A :=
  fun s => match p s with Ok (a, s') => Done a s' | Err e => Failed e None (pos s) end.
Definition wuint (n : nat) : W Z := wread (read_uint n).
Definition wpad (n : nat) : W unit := wread (read_pad n).
Definition wbool : W bool := wread read_bool.
(** [Class(s.read("uint:n"))], enum: "… is not a valid …" *)
Definition wenum {A} (n : nat) (class : string) (of : Z -> res A) : W A :=
  go v <- wuint n;
  match of v with
  | Ok a => wret a
  | Err e => wraise e (Some (dec_str v ++ " is not a valid " ++ class)%string)
  end.

(** length.py:41-45, offset.py:44-48, alp/parser.py:115-118, 141-145 *)
Definition length_w : W Length :=
  go size <- wuint 2;
  go v <- wuint (Z.to_nat (6 + size * 8));
  wlift (mk_length v).
Definition offset_w : W Offset :=
  go i <- wuint 8; go o <- length_w; wlift (mk_offset i o).
Definition data_w : W Data :=
  go o <- offset_w; go l <- length_w;
  go bs <- wread (read_bytes (len_value l));
  wlift (mk_data bs o).
Definition dr_w : W DataRequest :=
  go o <- offset_w; go l <- length_w; wlift (mk_data_request (len_value l) o).
(** file_permissions.py:52-64, file_properties.py:57-63, fs/file_header.py:50-58,
    operands/file_header.py:44-48 *)
Definition perm_w : W FilePermissions :=
  go a <- wbool; go b <- wbool; go c <- wbool; go d <- wbool;
  go e <- wbool; go f <- wbool; go g <- wbool; go h <- wbool;
  wret (mkPerm a b c d e f g h).
Definition prop_w : W FileProperties :=
  go e <- wbool;
  go c <- wenum 3 "ActionCondition" actcond_of;
  go _ <- wuint 2;
  go s <- wenum 2 "StorageClass" storage_of;
  wret (mkProp e c s).
Definition fh_w : W FileHeader :=
  go p <- perm_w; go q <- prop_w;
  go a <- wuint 8; go i <- wuint 8; go s <- wuint 32; go l <- wuint 32;
  wlift (mk_fh p q a i s l).
Definition fho_w : W FileHeaderOp :=
  go i <- wuint 8; go h <- fh_w; wlift (mk_fho i h).
(** query.py:62-66, 98-109 *)
Definition arith_w : W ArithParams :=
  go s <- wbool; go c <- wenum 3 "ArithComparisonType" comp_of; wret (mkArith s c).
Definition query_w : W Query :=
  go t <- wenum 3 "QueryType" qtype_of;
  go _ <- (match t with Q_COMP_VALUE => wret tt | _ => wraise AssertNoMsg None end);
  go m <- wbool;
  go _ <- (if m then wraise AssertNoMsg None else wret tt);
  go p <- arith_w;
  go l <- length_w;
  go bs <- wread (read_bytes (len_value l));
  go o <- offset_w;
  wlift (mk_query t m p l bs o).
(** lorawan_interface_configuration_abp.py:74-91, …_otaa.py:66-79 *)
Definition abp_w : W LoraABP :=
  go _ <- wpad 5; go adr <- wbool; go ack <- wbool; go _ <- wpad 1;
  go port <- wuint 8; go rate <- wuint 8; go dev <- wuint 32; go netw <- wuint 32;
  wret (mkABP adr ack port rate dev netw).
Definition otaa_w : W LoraOTAA :=
  go _ <- wpad 5; go adr <- wbool; go ack <- wbool; go _ <- wpad 1;
  go port <- wuint 8; go rate <- wuint 8;
  wret (mkOTAA adr ack port rate).
(** ct.py:67-71, addressee.py:119-130, qos.py:65-71, configuration.py:58-64 *)
Definition ct_w : W CT := go e <- wuint 3; go m <- wuint 5; wlift (mk_ct e m).
Definition addr_w : W Addressee :=
  go _ <- wpad 2;
  go t <- wenum 2 "IdType" idtype_of;
  go m <- wenum 4 "NlsMethod" nls_of;
  go cl <- wuint 8;
  let l := addr_id_length t in
  go i <- (if Nat.ltb 0 l then go v <- wuint (l * 8); wret (IdInt v) else wret IdNone);
  go i <- (match t, i with
           | NBID, IdInt v => go c <- wlift (ct_compress v true);
                              wret (match c with Some c => IdCT c | None => IdNone end)
           | _, _ => wret i
           end);
  wlift (mk_addr cl t i m).
Definition qos_w : W QoS :=
  go st <- wbool; go rec <- wbool;
  go retry <- wenum 3 "RetryMode" retry_of;
  go resp <- wenum 3 "ResponseMode" resp_of;
  wret (mkQoS resp retry st rec).
Definition conf_w : W Configuration :=
  go q <- qos_w; go d <- ct_w; go a <- addr_w; wret (mkConf q d a).
(** channel_header.py:102-108, channel_id.py:47-51, status.py:88-108 *)
Definition ch_w : W ChannelHeader :=
  go _ <- wuint 1;
  go band <- wenum 3 "ChannelBand" band_of;
  go cl <- wenum 2 "ChannelClass" class_of;
  go cod <- wenum 2 "ChannelCoding" coding_of;
  wret (mkCH cod cl band).
Definition cid_w : W ChannelID :=
  go h <- ch_w; go i <- wuint 16; wlift (mk_channel_id h i).
Definition status_w : W Status :=
  go cid <- cid_w;
  go rx <- wread (read_int 8); go lb <- wuint 8; go trx <- wuint 8;
  go nls <- wbool; go missed <- wbool; go retry <- wbool; go unicast <- wbool;
  go _ <- wpad 4;
  go fifo <- wuint 8; go seq <- wuint 8; go rto <- ct_w; go a <- addr_w;
  wlift (mk_status cid rx lb trx nls missed retry unicast fifo seq rto a).

(** alp/parser.py:147-165, 208-221; for the host interface [Action.op]
    (action.py:45-46) is read of [None] *)
Definition status_action_w (b7 b6 : bool) : W (option Action) :=
  if b7 then wraise ParseError (Some "Status Operand extension 2 and 3 is RFU"%string)
  else if b6 then
    go i <- wuint 8;
    go len <- wuint 8;
    if i =? 0 then wraise AttributeError (Some "'NoneType' object has no attribute 'op'"%string)
    else if i =? 215 then
      go st <- (if 0 <? len then go s <- status_w; wret (Some s) else wret None);
      go o <- wlift (mk_iso 215 st);
      go a <- wlift (mk_action (StatusAct 1) (InterfaceStatus o));
      wret (Some a)
    else if i =? 1 then
      go o <- wlift (mk_iso 1 None);
      go a <- wlift (mk_action (StatusAct 1) (InterfaceStatus o));
      wret (Some a)
    else wraise ParseError
           (Some ("Received ALP Interface status for interface " ++ dec_str i ++ " which is not implemented")%string)
  else wret None.
(** alp/parser.py:189-207 *)
Definition forward_action_w (b7 b6 : bool) : W (option Action) :=
  if b7 then wraise ParseError (Some "bit 7 is RFU"%string)
  else
    go t <- wenum 8 "InterfaceType" iftype_of;
    go conf <- (match t with
                | IF_D7ASP => go c <- conf_w; wret (Some (CfgD7 c))
                | IF_SERIAL => wret None
                | IF_ABP => go c <- abp_w; wret (Some (CfgABP c))
                | IF_OTAA => go c <- otaa_w; wret (Some (CfgOTAA c))
                | IF_HOST => wraise AssertNoMsg None
                end);
    go a <- wlift (mk_action (FwdAct b6) (Forward (mkIC t conf)));
    wret (Some a).
(** alp/parser.py:178-187, 167-176, 103-139 *)
Definition indirect_forward_action_w (b7 b6 : bool) : W (option Action) :=
  go i <- wuint 8;
  go conf <- (if b7 then go a <- addr_w; wret (Some a) else wret None);
  go o <- wlift (mk_indirect i conf);
  go a <- wlift (mk_action (IndFwdAct b7 b6) (IndirectForward o));
  wret (Some a).
Definition tag_request_action_w (b7 b6 : bool) : W (option Action) :=
  if b6 then wraise ParseError (Some "bit 6 is RFU"%string)
  else
    go t <- wuint 8; go t <- wlift (mk_tag t);
    go a <- wlift (mk_action (TagReqAct b7) (TagRequest t));
    wret (Some a).
Definition tag_response_action_w (b7 b6 : bool) : W (option Action) :=
  go t <- wuint 8; go t <- wlift (mk_tag t);
  go a <- wlift (mk_action (TagRespAct b7 b6) (TagResponse t));
  wret (Some a).
Definition regular_w {A} (b7 b6 : bool) (w : W A) (op : A -> Operation) : W (option Action) :=
  go x <- w; go a <- wlift (mk_action (Regular b7 b6) (op x)); wret (Some a).
(** parse_alp_action, alp/parser.py:81-101 *)
Definition action_w : W (option Action) :=
  go b7 <- wbool; go b6 <- wbool; go op <- wuint 6;
  if op =? 1 then regular_w b7 b6 dr_w ReadFileData
  else if op =? 4 then regular_w b7 b6 data_w WriteFileData
  else if op =? 9 then regular_w b7 b6 query_w BreakQuery
  else if op =? 17 then regular_w b7 b6 fho_w CreateNewFile
  else if op =? 32 then regular_w b7 b6 data_w mk_return_file_data
  else if op =? 33 then regular_w b7 b6 fho_w ReturnFileHeader
  else if op =? 34 then status_action_w b7 b6
  else if op =? 35 then tag_response_action_w b7 b6
  else if op =? 50 then forward_action_w b7 b6
  else if op =? 51 then indirect_forward_action_w b7 b6
  else if op =? 52 then tag_request_action_w b7 b6
  else wraise ParseError (Some ("alp_action " ++ dec_str op ++ " is not implemented")%string).
(** alp/parser.py:71-76 *)
Fixpoint actions_w (fuel : nat) (parsed cmd_length : Z) : W (list (option Action)) :=
  match fuel with
  | O => wraise OutOfFuel None
  | S f =>
      if parsed <? cmd_length then
        go start <- wread bytepos;
        go a <- action_w;
        go stop <- wread bytepos;
        go l <- actions_w f (parsed + (stop - start)) cmd_length;
        wret (a :: l)
      else wret []
  end.
(** the text of the exception in the loop command.py:73-88 *)
Fixpoint command_text (l : list (option Action)) (c : Command) : option string :=
  match l with
  | [] => None
  | None :: r => command_text r c
  | Some a :: r =>
      match add_init c a with
      | Ok c' => command_text r c'
      | Err ParseError =>
          match a_kind a with
          | StatusAct 1 => Some "An ALP command can contain one and only one Interface Status action"
          | TagReqAct _ => Some "An ALP command can contain one and only one Tag Request Action"
          | TagRespAct _ _ => Some "An ALP command can contain one and only one Tag Response Action"
          | _ => None
          end%string
      | Err _ => None
      end
  end.
(** Parser.parse, alp/parser.py:68-79 *)
Definition alp_where (cmd_length : Z) : W Command := fun s =>
  (go l <- (if cmd_length =? 0 then wret [] else actions_w (S (List.length (bits s))) 0 cmd_length);
   match mk_command 0 l false None true with
   | Ok c => wret c
   | Err e => wraise e (command_text l (mkCommand [] None false None true false None))
   end) s.

(** "error" and "pos" of the entry for a payload that is refused,
    serial_modem_interface/parser.py:104-130, 153-179: the header took 56 bits *)
Definition payload_raises (buf : list Z) : option (option string * nat) :=
  match header_fields (zlen buf) (stream_of buf) with
  | Ok ((_, _, cmd_len, _, _, _), s) =>
      match alp_where cmd_len s with
      | Failed _ t p => Some (t, p)
      | Done _ _ => None
      end
  | Err _ => None
  end.
(** "error" and "pos" of the entries of a round *)
Definition error_and_pos (r : Round) : list (option string * nat) :=
  map (fun _ => match header_raises (ro_buffer r) with
                | Some (t, p) => (Some t, p)
                | None => match payload_raises (ro_buffer r) with Some x => x | None => (None, O) end
                end) (report r).
