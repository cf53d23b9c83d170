(** d7a/alp: operations, actions, Command and the ALP parser *)
From Verif Require Import MBase MCt MPhy MSp MFs MProfile MOperands MSysFiles.

(** ** Operations, d7a/alp/operations/*.py.  Each constructor carries the
    operand [Operation.__init__] requires (operation.py:35-46).
    [ReturnFileData] also carries [file_data_parsed] (responses.py:38-60). *)
Inductive Operation :=
| NoOperation
| ReadFileData (o : DataRequest)
| ReadFileHeader (o : FileId)
| WriteFileData (o : Data)
| WriteFileHeader (o : FileHeaderOp)
| BreakQuery (o : Query)
| CreateNewFile (o : FileHeaderOp)
| ReturnFileData (o : Data) (parsed : option SysFile)
| ReturnFileHeader (o : FileHeaderOp)
| InterfaceStatus (o : IfStatusOp)
| TagResponse (o : TagId)
| Forward (o : InterfaceConfiguration)
| IndirectForward (o : IndirectOp)
| TagRequest (o : TagId).

(** the [op] attributes: nop.py:32, requests.py:31,38, write_operations.py:30,37,
    break_query.py:30, file_management.py:30, responses.py:42,65, status.py:30,
    tag_response.py:30, forward.py:30, indirect_forward.py:30, tag_request.py:30 *)
Definition op_code (o : Operation) : Z :=
  match o with
  | NoOperation => 0 | ReadFileData _ => 1 | ReadFileHeader _ => 2 | WriteFileData _ => 4
  | WriteFileHeader _ => 6 | BreakQuery _ => 9 | CreateNewFile _ => 17 | ReturnFileData _ _ => 32
  | ReturnFileHeader _ => 33 | InterfaceStatus _ => 34 | TagResponse _ => 35 | Forward _ => 50
  | IndirectForward _ => 51 | TagRequest _ => 52
  end.

(** Operation.__iter__, operation.py:48-50: [if self.operand:] is false for
    [None] and for a [Data] of length 0 ([Data.__len__], file.py:52-53); no
    other operand class defines a truth value *)
Definition op_ser (o : Operation) : res (list Z) :=
  match o with
  | NoOperation => Ok []
  | ReadFileData x => dr_ser x
  | ReadFileHeader x => fid_ser x
  | WriteFileData x => if data_len x =? 0 then Ok [] else data_ser x
  | WriteFileHeader x => fho_ser x
  | BreakQuery x => query_ser x
  | CreateNewFile x => fho_ser x
  | ReturnFileData x _ => if data_len x =? 0 then Ok [] else data_ser x
  | ReturnFileHeader x => fho_ser x
  | InterfaceStatus x => iso_ser x
  | TagResponse x => tag_ser x
  | Forward x => ic_ser x
  | IndirectForward x => indirect_ser x
  | TagRequest x => tag_ser x
  end.

(** ReturnFileData.try_parse_system_file, responses.py:47-60: every exception
    of the parse is swallowed; the operand's offset is ignored *)
Definition try_parse_system_file (d : Data) : option SysFile :=
  match system_file (off_id (d_offset d)) with
  | None => None
  | Some entry =>
      match file_length entry with
      | Err _ => None
      | Ok l =>
          if len_value (d_length d) <=? l then
            match file_parse entry (stream_of (d_data d)) with
            | Ok (f, _) => Some f
            | Err _ => None
            end
          else None
      end
  end.

(** ReturnFileData.__init__, responses.py:39-45 *)
Definition mk_return_file_data (d : Data) : Operation :=
  ReturnFileData d (try_parse_system_file d).

(** ** Actions: the six [Action] subclasses with their own attributes *)
Inductive ActKind :=
| Regular (group resp : bool)            (* regular_action.py:41-44 *)
| FwdAct (resp : bool)                   (* forward_action.py:39-41 *)
| IndFwdAct (overload resp : bool)       (* indirect_forward_action.py:40-43 *)
| StatusAct (ext : Z)                    (* status_action.py:48-51 *)
| TagReqAct (respond : bool)             (* tag_request_action.py:37-39 *)
| TagRespAct (eop error : bool).         (* tag_response_action.py:38-41 *)
Record Action := mkAction { a_kind : ActKind; a_op : Operation }.

(** Constructor validation: the schemas of the six classes.  All operations
    have [op] below 64, and the classes other than the two forward ones accept
    any operation. *)
Definition mk_action (k : ActKind) (o : Operation) : res Action :=
  validated (match k, o with
             | FwdAct _, Forward _ => true
             | FwdAct _, _ => false
             | IndFwdAct _ _, IndirectForward _ => true
             | IndFwdAct _ _, _ => false
             | StatusAct e, _ => (e =? 0) || (e =? 1)
             | _, _ => true
             end) (mkAction k o).

(** the two flag bits of the first byte: [if flag: byte |= 1 << n] *)
Definition flag7 (b : bool) (byte : Z) : Z := if b then Z.lor byte (Z.shiftl 1 7) else byte.
Definition flag6 (b : bool) (byte : Z) : Z := if b then Z.lor byte (Z.shiftl 1 6) else byte.

(** [__iter__] of the six classes: regular_action.py:46-53,
    forward_action.py:43-50 (reads [self.group], which does not exist),
    indirect_forward_action.py:45-52, status_action.py:53-59,
    tag_request_action.py:41-47, tag_response_action.py:43-50 *)
Definition action_ser (a : Action) : res (list Z) :=
  let op := op_code (a_op a) in
  match a_kind a with
  | Regular g r => yield1 (flag6 r (flag7 g 0) + op) +++ op_ser (a_op a)
  | FwdAct _ => Err AttributeError
  | IndFwdAct v r => yield1 (flag6 r (flag7 v 0) + op) +++ op_ser (a_op a)
  | StatusAct e => yield1 (Z.lor 0 (Z.shiftl e 6) + op) +++ op_ser (a_op a)
  | TagReqAct r => yield1 (flag7 r 0 + op) +++ op_ser (a_op a)
  | TagRespAct e x => yield1 (flag6 x (flag7 e 0) + op) +++ op_ser (a_op a)
  end.

(** ** Command, command.py:58-93.  [completed_with_error] is only set when a
    tag response is seen. *)
Record Command := mkCommand
  { c_actions : list Action; c_status : option Action; c_generate : bool; c_tag : option Z;
    c_respond : bool; c_completed : bool; c_error : option bool }.

(** [action.operand.tag_id] in Command.__init__, command.py:79,84: only [TagId]
    has the attribute *)
Definition operand_tag (o : Operation) : res Z :=
  match o with
  | TagRequest t => Ok (tag_value t)
  | TagResponse t => Ok (tag_value t)
  | _ => Err AttributeError
  end.

(** one round of the loop command.py:73-88; [None] stands for the [None] that
    the parser puts in the list for an action status *)
Definition add_init (c : Command) (a : Action) : res Command :=
  match a_kind a with
  | StatusAct 1 =>
      match c_status c with
      | Some _ => Err ParseError
      | None => Ok (mkCommand (c_actions c) (Some a) (c_generate c) (c_tag c) (c_respond c)
                              (c_completed c) (c_error c))
      end
  | TagReqAct r =>
      match c_tag c with
      | Some _ => Err ParseError
      | None => let! t := operand_tag (a_op a) in
                Ok (mkCommand (c_actions c) (c_status c) (c_generate c) (Some t) r
                              (c_completed c) (c_error c))
      end
  | TagRespAct e x =>
      match c_tag c with
      | Some _ => Err ParseError
      | None => let! t := operand_tag (a_op a) in
                Ok (mkCommand (c_actions c) (c_status c) (c_generate c) (Some t) (c_respond c)
                              e (Some x))
      end
  | _ => Ok (mkCommand (c_actions c ++ [a]) (c_status c) (c_generate c) (c_tag c) (c_respond c)
                       (c_completed c) (c_error c))
  end.

(** the whole loop; the boolean records whether a [None] was appended to
    [self.actions] *)
Fixpoint command_loop (l : list (option Action)) (c : Command) (bad : bool) : res (Command * bool) :=
  match l with
  | [] => Ok (c, bad)
  | Some a :: r => let! c' := add_init c a in command_loop r c' bad
  | None :: r => command_loop r c true
  end.

(** Command.__init__, command.py:65-93.  [rnd] is what [random.randint(0,255)]
    returns.  Validation rejects a [None] in the action list. *)
Definition mk_command (rnd : Z) (actions : list (option Action)) (generate : bool)
  (tag : option Z) (respond : bool) : res Command :=
  let! (c, bad) := command_loop actions (mkCommand [] None generate tag respond false None) false in
  let c := match generate, c_tag c with
           | true, None => mkCommand (c_actions c) (c_status c) generate (Some rnd) (c_respond c)
                                     (c_completed c) (c_error c)
           | _, _ => c
           end in
  validated (negb bad) c.

(** Command.add_action, command.py:95-96 *)
Definition add_action (c : Command) (a : Action) : Command :=
  mkCommand (c_actions c ++ [a]) (c_status c) (c_generate c) (c_tag c) (c_respond c)
            (c_completed c) (c_error c).

(** Command.add_forward_action, command.py:98-151 *)
Definition add_forward_action (c : Command) (t : InterfaceType) (conf : option IfConfig) : res Command :=
  match t with
  | IF_HOST => match conf with Some _ => Err ValueError | None => Ok c end
  | IF_D7ASP =>
      let conf := match conf with None => Some (CfgD7 conf_default) | Some x => Some x end in
      let! a := mk_action (Regular false false) (Forward (mkIC IF_D7ASP conf)) in Ok (add_action c a)
  | IF_SERIAL =>
      let! a := mk_action (Regular false false) (Forward (mkIC IF_SERIAL None)) in Ok (add_action c a)
  | IF_ABP =>
      let! a := mk_action (Regular false false) (Forward (mkIC IF_ABP conf)) in Ok (add_action c a)
  | IF_OTAA =>
      let! a := mk_action (Regular false false) (Forward (mkIC IF_OTAA conf)) in Ok (add_action c a)
  end.

(** Command.add_indirect_forward_action, command.py:153-167, with an integer
    [interface_file_id] *)
Definition add_indirect_forward_action (c : Command) (file : Z) (overload : bool)
  (conf : option Addressee) : res Command :=
  let conf := if overload then conf else None in
  let! o := mk_indirect file conf in
  let! a := mk_action (IndFwdAct overload false) (IndirectForward o) in
  Ok (add_action c a).

(** The factories, command.py:169-308: a new command with a random tag, the
    forward action, then one regular action.  In Python the operand is built
    after the forward action; the order only matters for which [ValueError]
    is raised first. *)
Definition factory (rnd : Z) (tag : option Z) (t : InterfaceType) (conf : option IfConfig)
  (op : res Operation) : res Command :=
  let! c := mk_command rnd [] true tag true in
  let! c := add_forward_action c t conf in
  let! o := op in
  let! a := mk_action (Regular false false) o in
  Ok (add_action c a).

(** create_with_read_file_action, command.py:187-203 *)
Definition create_read (rnd id length offset : Z) t conf :=
  factory rnd None t conf
    (let! l := mk_length offset in let! o := mk_offset id l in
     let! d := mk_data_request length o in Ok (ReadFileData d)).
(** create_with_write_file_action, command.py:205-221 *)
Definition create_write (rnd id : Z) (data : list Z) (offset : Z) t conf :=
  factory rnd None t conf
    (let! l := mk_length offset in let! o := mk_offset id l in
     let! d := mk_data data o in Ok (WriteFileData d)).
(** create_with_return_file_data_action, command.py:241-257 *)
Definition create_return (rnd id : Z) (data : list Z) (offset : Z) (tag : option Z) t conf :=
  factory rnd tag t conf
    (let! l := mk_length offset in let! o := mk_offset id l in
     let! d := mk_data data o in Ok (mk_return_file_data d)).
(** create_with_read_file_header, command.py:259-273 *)
Definition create_read_header (rnd id : Z) t conf :=
  factory rnd None t conf (let! f := mk_file_id id in Ok (ReadFileHeader f)).
(** create_with_write_file_header, command.py:276-291 *)
Definition create_write_header (rnd id : Z) (h : FileHeader) t conf :=
  factory rnd None t conf (let! f := mk_fho id h in Ok (WriteFileHeader f)).
(** create_with_create_new_file, command.py:293-308 *)
Definition create_new_file (rnd id : Z) (h : FileHeader) t conf :=
  factory rnd None t conf (let! f := mk_fho id h in Ok (CreateNewFile f)).

(** [Offset(id=file.id)]: an [Enum] id is not an integer, so [ValueError] *)
Definition sys_offset (f : SysFile) : res Offset :=
  let! l := mk_length 0 in
  let! i := file_id f in
  match i with Some i => mk_offset i l | None => Err ValueError end.
(** create_with_read_file_action_system_file, command.py:169-185 *)
Definition create_read_sys (rnd : Z) (f : SysFile) t conf :=
  factory rnd None t conf
    (let! o := sys_offset f in let! l := file_length f in
     let! d := mk_data_request l o in Ok (ReadFileData d)).
(** create_with_write_file_action_system_file, command.py:223-239.
    [list(file)] collects what [__iter__] yields without the 0..255 check of
    [bytearray]; [Data] then checks the same range, also with [ValueError], so
    [file_ser] serves for both. *)
Definition create_write_sys (rnd : Z) (f : SysFile) t conf :=
  factory rnd None t conf
    (let! o := sys_offset f in let! bs := file_ser f in
     let! d := mk_data bs o in Ok (WriteFileData d)).

(** Command.__iter__, command.py:310-327.  With [generate] the tag is never
    [None] (command.py:90-91). *)
Definition command_ser (c : Command) : res (list Z) :=
  (if c_generate c then
     match c_tag c with
     | Some t => let! t := mk_tag t in
                 let! a := mk_action (TagReqAct (c_respond c)) (TagRequest t) in action_ser a
     | None => Err ValueError
     end
   else Ok [])
  +++ (match c_status c with Some a => action_ser a | None => Ok [] end)
  +++ rconcat (map action_ser (c_actions c)).

(** Command.get_d7asp_interface_status, command.py:336-340; only an
    [InterfaceStatusOperand] has [interface_id] and [interface_status] among
    the operands whose [interface_id] can equal 0xD7 as an integer *)
Definition get_d7asp_interface_status (c : Command) : res (option Status) :=
  match c_status c with
  | None => Ok None
  | Some a =>
      match a_op a with
      | InterfaceStatus o => Ok (if iso_id o =? 215 then iso_status o else None)
      | Forward _ => Ok None
      | _ => Err AttributeError
      end
  end.

(** ** The ALP parser, alp/parser.py *)

(** parse_alp_return_status_action, alp/parser.py:147-165, and
    parse_alp_interface_status_*, 208-221.  For the host interface the
    operation is [None] and [StatusAction] validation reads [None.op].  For an
    action status the method returns [None]. *)
Definition parse_status_action (b7 b6 : bool) : P (option Action) :=
  if b7 then raise ParseError
  else if b6 then
    do i <- read_uint 8;
    do len <- read_uint 8;
    if i =? 0 then raise AttributeError
    else if i =? 215 then
      do st <- (if 0 <? len then do s <- status_parse; ret (Some s) else ret None);
      do o <- lift (mk_iso 215 st);
      do a <- lift (mk_action (StatusAct 1) (InterfaceStatus o));
      ret (Some a)
    else if i =? 1 then
      do o <- lift (mk_iso 1 None);
      do a <- lift (mk_action (StatusAct 1) (InterfaceStatus o));
      ret (Some a)
    else raise ParseError
  else ret None.

(** parse_forward_action, alp/parser.py:189-207 *)
Definition parse_forward_action (b7 b6 : bool) : P (option Action) :=
  if b7 then raise ParseError
  else
    do v <- read_uint 8; do t <- lift (iftype_of v);
    do conf <- (match t with
                | IF_D7ASP => do c <- conf_parse; ret (Some (CfgD7 c))
                | IF_SERIAL => ret None
                | IF_ABP => do c <- abp_parse; ret (Some (CfgABP c))
                | IF_OTAA => do c <- otaa_parse; ret (Some (CfgOTAA c))
                | IF_HOST => raise AssertNoMsg
                end);
    do a <- lift (mk_action (FwdAct b6) (Forward (mkIC t conf)));
    ret (Some a).

(** parse_indirect_forward_action, alp/parser.py:178-187 *)
Definition parse_indirect_forward_action (b7 b6 : bool) : P (option Action) :=
  do i <- read_uint 8;
  do conf <- (if b7 then do a <- addr_parse; ret (Some a) else ret None);
  do o <- lift (mk_indirect i conf);
  do a <- lift (mk_action (IndFwdAct b7 b6) (IndirectForward o));
  ret (Some a).

(** parse_tag_request_action / parse_tag_response_action, alp/parser.py:167-176 *)
Definition parse_tag_request_action (b7 b6 : bool) : P (option Action) :=
  if b6 then raise ParseError
  else
    do t <- read_uint 8; do t <- lift (mk_tag t);
    do a <- lift (mk_action (TagReqAct b7) (TagRequest t));
    ret (Some a).
Definition parse_tag_response_action (b7 b6 : bool) : P (option Action) :=
  do t <- read_uint 8; do t <- lift (mk_tag t);
  do a <- lift (mk_action (TagRespAct b7 b6) (TagResponse t));
  ret (Some a).

(** the handlers returning a [RegularAction], alp/parser.py:103-139 *)
Definition parse_regular {A} (b7 b6 : bool) (p : P A) (op : A -> Operation) : P (option Action) :=
  do x <- p;
  do a <- lift (mk_action (Regular b7 b6) (op x));
  ret (Some a).

(** parse_alp_action, alp/parser.py:81-101 *)
Definition parse_action : P (option Action) :=
  do b7 <- read_bool;
  do b6 <- read_bool;
  do op <- read_uint 6;
  if op =? 1 then parse_regular b7 b6 dr_parse ReadFileData
  else if op =? 4 then parse_regular b7 b6 data_parse WriteFileData
  else if op =? 9 then parse_regular b7 b6 query_parse BreakQuery
  else if op =? 17 then parse_regular b7 b6 fho_parse CreateNewFile
  else if op =? 32 then parse_regular b7 b6 data_parse mk_return_file_data
  else if op =? 33 then parse_regular b7 b6 fho_parse ReturnFileHeader
  else if op =? 34 then parse_status_action b7 b6
  else if op =? 35 then parse_tag_response_action b7 b6
  else if op =? 50 then parse_forward_action b7 b6
  else if op =? 51 then parse_indirect_forward_action b7 b6
  else if op =? 52 then parse_tag_request_action b7 b6
  else raise ParseError.

(** the loop of parse, alp/parser.py:71-76; [parsed] is [alp_bytes_parsed].
    The fuel is the number of bits left plus one. *)
Fixpoint parse_actions (fuel : nat) (parsed cmd_length : Z) : P (list (option Action)) :=
  match fuel with
  | O => raise OutOfFuel
  | S f =>
      if parsed <? cmd_length then
        do start <- bytepos;
        do a <- parse_action;
        do stop <- bytepos;
        do l <- parse_actions f (parsed + (stop - start)) cmd_length;
        ret (a :: l)
      else ret []
  end.

(** Parser.parse, alp/parser.py:68-79.  No tag is generated, so [random] is not
    used. *)
Definition alp_parse (cmd_length : Z) : P Command := fun s =>
  (do l <- (if cmd_length =? 0 then ret []
            else parse_actions (S (length (bits s))) 0 cmd_length);
   lift (mk_command 0 l false None true)) s.
