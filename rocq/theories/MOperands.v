(** d7a/alp/operands: the operands of ALP actions *)
From Verif Require Import MBase MCt MPhy MSp MFs.

(** ** Length, length.py:29-39 *)
Record Length := mkLength { len_value : Z }.
Definition mk_length (v : Z) : res Length :=
  validated (in_range 0 1073741823 v) (mkLength v).

(** Length.parse, length.py:41-45 *)
Definition length_parse : P Length :=
  do size <- read_uint 2;
  do v <- read_uint (Z.to_nat (6 + size * 8));
  lift (mk_length v).

(** Length.__iter__, length.py:47-69 *)
Definition length_ser (l : Length) : res (list Z) :=
  let v := len_value l in
  let size := 1 in
  let size := if 63 <? v then 2 else size in
  let size := if 16383 <? v then 3 else size in
  let size := if 4194303 <? v then 4 else size in
  let byte := 0 + Z.shiftl (size - 1) 6 in
  if size =? 1 then yield1 (byte + v)
  else
    let! bs := pack_be 4 v in
    let bs := if size =? 2 then skipn 2 bs else if size =? 3 then skipn 1 bs else bs in
    match bs with
    | b0 :: rest => yield1 (byte + b0) +++ yields rest
    | [] => Err IndexError
    end.

(** ** Offset, offset.py:30-52 *)
Record Offset := mkOffset { off_id : Z; off_offset : Length }.
Definition mk_offset (i : Z) (o : Length) : res Offset :=
  validated (is_BYTE i) (mkOffset i o).
Definition offset_parse : P Offset :=
  do i <- read_uint 8;
  do o <- length_parse;
  lift (mk_offset i o).
Definition offset_ser (o : Offset) : res (list Z) :=
  yield1 (off_id o) +++ length_ser (off_offset o).

(** ** Data, file.py:32-58 *)
Record Data := mkData { d_offset : Offset; d_length : Length; d_data : list Z }.
(** Data.__init__: the length is that of the data; the schema requires bytes *)
Definition mk_data (data : list Z) (o : Offset) : res Data :=
  let! l := mk_length (zlen data) in
  validated (forallb is_BYTE data) (mkData o l data).
(** Data.__len__, file.py:52-53: makes an empty [Data] falsy *)
Definition data_len (d : Data) : Z := len_value (d_length d).
(** Data.__iter__, file.py:55-58 ([chr] raises [ValueError] outside 0..255) *)
Definition data_ser (d : Data) : res (list Z) :=
  offset_ser (d_offset d) +++ length_ser (d_length d) +++ yields (d_data d).
(** Parser.parse_alp_return_file_data_operand, alp/parser.py:141-145 *)
Definition data_parse : P Data :=
  do o <- offset_parse;
  do l <- length_parse;
  do bs <- read_bytes (len_value l);
  lift (mk_data bs o).

(** ** DataRequest, file.py:64-78 *)
Record DataRequest := mkDataRequest { dr_offset : Offset; dr_length : Length }.
Definition mk_data_request (length : Z) (o : Offset) : res DataRequest :=
  let! l := mk_length length in Ok (mkDataRequest o l).
Definition dr_ser (d : DataRequest) : res (list Z) :=
  offset_ser (dr_offset d) +++ length_ser (dr_length d).
(** Parser.parse_alp_file_data_request_operand, alp/parser.py:115-118 *)
Definition dr_parse : P DataRequest :=
  do o <- offset_parse;
  do l <- length_parse;
  lift (mk_data_request (len_value l) o).

(** ** FileIdOperand, file.py:84-95 *)
Record FileId := mkFileId { fid_id : Z }.
Definition mk_file_id (i : Z) : res FileId := validated (is_BYTE i) (mkFileId i).
Definition fid_ser (f : FileId) : res (list Z) := yield1 (fid_id f).

(** ** FileHeaderOperand, file_header.py:28-48 *)
Record FileHeaderOp := mkFHO { fho_id : Z; fho_header : FileHeader }.
Definition mk_fho (i : Z) (h : FileHeader) : res FileHeaderOp :=
  validated (is_BYTE i) (mkFHO i h).
Definition fho_ser (f : FileHeaderOp) : res (list Z) :=
  yield1 (fho_id f) +++ fh_ser (fho_header f).
Definition fho_parse : P FileHeaderOp :=
  do i <- read_uint 8;
  do h <- fh_parse;
  lift (mk_fho i h).

(** ** QueryOperand, query.py:30-109 *)
Inductive QueryType := Q_NON_VOID | Q_COMP_ZERO | Q_COMP_VALUE | Q_COMP_FILES | Q_RANGE | Q_STRING.
Definition qtype_value (t : QueryType) : Z :=
  match t with Q_NON_VOID => 0 | Q_COMP_ZERO => 1 | Q_COMP_VALUE => 2 | Q_COMP_FILES => 3
  | Q_RANGE => 4 | Q_STRING => 7 end.
Definition qtype_of (v : Z) : res QueryType :=
  if v =? 0 then Ok Q_NON_VOID else if v =? 1 then Ok Q_COMP_ZERO else if v =? 2 then Ok Q_COMP_VALUE
  else if v =? 3 then Ok Q_COMP_FILES else if v =? 4 then Ok Q_RANGE else if v =? 7 then Ok Q_STRING
  else Err ValueError.
Inductive CompType := C_NE | C_EQ | C_LT | C_LE | C_GT | C_GE.
Definition comp_value (t : CompType) : Z :=
  match t with C_NE => 0 | C_EQ => 1 | C_LT => 2 | C_LE => 3 | C_GT => 4 | C_GE => 5 end.
Definition comp_of (v : Z) : res CompType :=
  if v =? 0 then Ok C_NE else if v =? 1 then Ok C_EQ else if v =? 2 then Ok C_LT
  else if v =? 3 then Ok C_LE else if v =? 4 then Ok C_GT else if v =? 5 then Ok C_GE
  else Err ValueError.

(** ArithQueryParams, query.py:46-66 *)
Record ArithParams := mkArith { ar_signed : bool; ar_comp : CompType }.
Definition arith_parse : P ArithParams :=
  do s <- read_bool;
  do v <- read_uint 3; do c <- lift (comp_of v);
  ret (mkArith s c).
Definition arith_ser (a : ArithParams) : res (list Z) :=
  yield1 (Z.shiftl (b2z (ar_signed a)) 3 + comp_value (ar_comp a)).

(** QueryOperand, query.py:69-86: [compare_length] is independent of
    [compare_value] *)
Record Query := mkQuery
  { q_type : QueryType; q_mask : bool; q_params : ArithParams;
    q_compare_length : Length; q_compare_value : list Z; q_file_a : Offset }.
Definition mk_query (t : QueryType) (m : bool) (p : ArithParams) (l : Length)
  (v : list Z) (o : Offset) : res Query :=
  validated (forallb is_BYTE v) (mkQuery t m p l v o).

(** QueryOperand.__iter__, query.py:88-95 *)
Definition query_ser (q : Query) : res (list Z) :=
  (let! ps := arith_ser (q_params q) in
   match ps with
   | p0 :: _ => yield1 (Z.shiftl (qtype_value (q_type q)) 5 + Z.shiftl (b2z (q_mask q)) 4 + p0)
   | [] => Err IndexError
   end)
  +++ length_ser (q_compare_length q) +++ yields (q_compare_value q) +++ offset_ser (q_file_a q).

(** QueryOperand.parse, query.py:98-109; the two [assert]s have no message *)
Definition query_parse : P Query :=
  do v <- read_uint 3; do t <- lift (qtype_of v);
  do _ <- (match t with Q_COMP_VALUE => ret tt | _ => raise AssertNoMsg end);
  do m <- read_bool;
  do _ <- (if m then raise AssertNoMsg else ret tt);
  do p <- arith_parse;
  do l <- length_parse;
  do bs <- read_bytes (len_value l);
  do o <- offset_parse;
  lift (mk_query t m p l bs o).

(** ** LoRaWAN interface configurations (no validation at all):
    lorawan_interface_configuration_abp.py:29-91, …_otaa.py:29-79 *)
Record LoraABP := mkABP
  { abp_adr : bool; abp_ack : bool; abp_port : Z; abp_rate : Z; abp_dev_addr : Z; abp_netw_id : Z }.
Definition lora_flags (ack adr : bool) : Z :=
  let byte := 0 in
  let byte := if ack then Z.lor byte (Z.shiftl 1 1) else byte in
  if adr then Z.lor byte (Z.shiftl 1 2) else byte.
Definition abp_ser (c : LoraABP) : res (list Z) :=
  yield1 (lora_flags (abp_ack c) (abp_adr c)) +++ yield1 (abp_port c) +++ yield1 (abp_rate c)
  +++ pack_be 4 (abp_dev_addr c) +++ pack_be 4 (abp_netw_id c).
Definition abp_parse : P LoraABP :=
  do _ <- read_pad 5;
  do adr <- read_bool;
  do ack <- read_bool;
  do _ <- read_pad 1;
  do port <- read_uint 8;
  do rate <- read_uint 8;
  do dev <- read_uint 32;
  do netw <- read_uint 32;
  ret (mkABP adr ack port rate dev netw).

Record LoraOTAA := mkOTAA { otaa_adr : bool; otaa_ack : bool; otaa_port : Z; otaa_rate : Z }.
Definition otaa_ser (c : LoraOTAA) : res (list Z) :=
  yield1 (lora_flags (otaa_ack c) (otaa_adr c)) +++ yield1 (otaa_port c) +++ yield1 (otaa_rate c).
Definition otaa_parse : P LoraOTAA :=
  do _ <- read_pad 5;
  do adr <- read_bool;
  do ack <- read_bool;
  do _ <- read_pad 1;
  do port <- read_uint 8;
  do rate <- read_uint 8;
  ret (mkOTAA adr ack port rate).

(** ** InterfaceType, interface.py:27-32 *)
Inductive InterfaceType := IF_HOST | IF_SERIAL | IF_ABP | IF_OTAA | IF_D7ASP.
Definition iftype_value (t : InterfaceType) : Z :=
  match t with IF_HOST => 0 | IF_SERIAL => 1 | IF_ABP => 2 | IF_OTAA => 3 | IF_D7ASP => 215 end.
Definition iftype_of (v : Z) : res InterfaceType :=
  if v =? 0 then Ok IF_HOST else if v =? 1 then Ok IF_SERIAL else if v =? 2 then Ok IF_ABP
  else if v =? 3 then Ok IF_OTAA else if v =? 215 then Ok IF_D7ASP else Err ValueError.

(** ** InterfaceConfiguration, interface_configuration.py:28-42.  The
    configuration may be any [Validatable]; the three kinds the library offers
    are modelled.  Nothing ties the kind to the interface id. *)
Inductive IfConfig := CfgD7 (c : Configuration) | CfgABP (c : LoraABP) | CfgOTAA (c : LoraOTAA).
Definition ifconfig_ser (c : IfConfig) : res (list Z) :=
  match c with CfgD7 c => conf_ser c | CfgABP c => abp_ser c | CfgOTAA c => otaa_ser c end.
Record InterfaceConfiguration := mkIC { ic_id : InterfaceType; ic_conf : option IfConfig }.
(** [if self.interface_configuration:] — these objects define neither
    [__len__] nor [__nonzero__], so they are always true *)
Definition ic_ser (i : InterfaceConfiguration) : res (list Z) :=
  yield1 (iftype_value (ic_id i))
  +++ match ic_conf i with Some c => ifconfig_ser c | None => Ok [] end.

(** ** InterfaceStatusOperand, interface_status.py:28-42; iterating over a
    [None] status is a [TypeError].  The length byte the parser expects
    (alp/parser.py:153) is not written. *)
Record IfStatusOp := mkISO { iso_id : Z; iso_status : option Status }.
Definition mk_iso (i : Z) (s : option Status) : res IfStatusOp :=
  validated (is_BYTE i) (mkISO i s).
Definition iso_ser (o : IfStatusOp) : res (list Z) :=
  yield1 (iso_id o)
  +++ match iso_status o with Some s => status_ser s | None => Err TypeError end.

(** ** IndirectInterfaceOperand, indirect_interface_operand.py:30-45 *)
Record IndirectOp := mkIndirect { ii_file : Z; ii_overload : option Addressee }.
Definition mk_indirect (f : Z) (a : option Addressee) : res IndirectOp :=
  validated (in_range 0 255 f) (mkIndirect f a).
Definition indirect_ser (o : IndirectOp) : res (list Z) :=
  yield1 (ii_file o) +++ match ii_overload o with Some a => addr_ser a | None => Ok [] end.

(** ** TagId, tag_id.py:27-38 *)
Record TagId := mkTag { tag_value : Z }.
Definition mk_tag (t : Z) : res TagId := validated (is_BYTE t) (mkTag t).
Definition tag_ser (t : TagId) : res (list Z) := yield1 (tag_value t).
