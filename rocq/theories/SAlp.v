(** Wire format of ALP operands, actions and commands, written independently
    of the code's serializers and parsers. *)
From Verif Require Export STypes MOperands MSysFiles MAlp.

(** ** Length: two bits giving the number [k] of extra bytes, then 6+8k bits *)
Definition len_max : Z := 1073741823.
Definition len_form (k : nat) (v : Z) : list bool := Zbits 2 (Z.of_nat k) ++ Zbits (6 + 8 * k) v.
(** values that fit the form with [k] extra bytes *)
Definition len_fits (k : nat) (v : Z) : Prop := (k <= 3)%nat /\ 0 <= v < 2 ^ Z.of_nat (6 + 8 * k).
(** the shortest form *)
Definition len_k (v : Z) : nat :=
  if v <? 2 ^ 6 then 0 else if v <? 2 ^ 14 then 1 else if v <? 2 ^ 22 then 2 else 3.
Definition len_layout (l : Length) : list bool := len_form (len_k (len_value l)) (len_value l).
Definition len_wf (l : Length) : Prop := 0 <= len_value l <= len_max.

(** ** Offset, data request, data *)
Definition off_wf (o : Offset) : Prop := 0 <= off_id o <= 255 /\ len_wf (off_offset o).
Definition off_layout (o : Offset) : list bool := Zbits 8 (off_id o) ++ len_layout (off_offset o).
Definition dr_wf (d : DataRequest) : Prop := off_wf (dr_offset d) /\ len_wf (dr_length d).
Definition dr_layout (d : DataRequest) : list bool := off_layout (dr_offset d) ++ len_layout (dr_length d).
(** the length of a data operand is that of its data *)
Definition data_wf (d : Data) : Prop :=
  off_wf (d_offset d) /\ Forall is_byte (d_data d) /\ len_value (d_length d) = zlen (d_data d)
  /\ zlen (d_data d) <= len_max.
Definition data_layout (d : Data) : list bool :=
  off_layout (d_offset d) ++ len_layout (d_length d) ++ bytes_bits (d_data d).

(** ** File header operand *)
Definition fho_wf (f : FileHeaderOp) : Prop := 0 <= fho_id f <= 255 /\ fh_wf (fho_header f).
Definition fho_layout (f : FileHeaderOp) : list bool := Zbits 8 (fho_id f) ++ fh_layout (fho_header f).

(** ** Query operand: type, mask flag, signed flag, comparison, length, value, offset *)
Definition qtype_code (t : QueryType) : Z :=
  match t with Q_NON_VOID => 0 | Q_COMP_ZERO => 1 | Q_COMP_VALUE => 2 | Q_COMP_FILES => 3
  | Q_RANGE => 4 | Q_STRING => 7 end.
Definition comp_code (t : CompType) : Z :=
  match t with C_NE => 0 | C_EQ => 1 | C_LT => 2 | C_LE => 3 | C_GT => 4 | C_GE => 5 end.
Definition query_wf (q : Query) : Prop :=
  len_wf (q_compare_length q) /\ Forall is_byte (q_compare_value q) /\ off_wf (q_file_a q).
Definition query_layout (q : Query) : list bool :=
  Zbits 3 (qtype_code (q_type q)) ++ [q_mask q] ++ [ar_signed (q_params q)]
  ++ Zbits 3 (comp_code (ar_comp (q_params q)))
  ++ len_layout (q_compare_length q) ++ bytes_bits (q_compare_value q) ++ off_layout (q_file_a q).
(** the operands the parser supports, with a consistent compare length *)
Definition query_supported (q : Query) : Prop :=
  q_type q = Q_COMP_VALUE /\ q_mask q = false
  /\ len_value (q_compare_length q) = zlen (q_compare_value q).

(** ** LoRaWAN configurations: 5 RFU, adaptive data rate, request ack, RFU, ... *)
Definition lora_flag_bits (adr ack : bool) : list bool := Zbits 5 0 ++ [adr] ++ [ack] ++ [false].
Definition abp_wf (c : LoraABP) : Prop :=
  0 <= abp_port c <= 255 /\ 0 <= abp_rate c <= 255 /\ 0 <= abp_dev_addr c <= 4294967295
  /\ 0 <= abp_netw_id c <= 4294967295.
Definition abp_layout (c : LoraABP) : list bool :=
  lora_flag_bits (abp_adr c) (abp_ack c) ++ Zbits 8 (abp_port c) ++ Zbits 8 (abp_rate c)
  ++ Zbits 32 (abp_dev_addr c) ++ Zbits 32 (abp_netw_id c).
Definition otaa_wf (c : LoraOTAA) : Prop := 0 <= otaa_port c <= 255 /\ 0 <= otaa_rate c <= 255.
Definition otaa_layout (c : LoraOTAA) : list bool :=
  lora_flag_bits (otaa_adr c) (otaa_ack c) ++ Zbits 8 (otaa_port c) ++ Zbits 8 (otaa_rate c).

(** ** Forwarding: interface id and its configuration *)
Definition iftype_code (t : InterfaceType) : Z :=
  match t with IF_HOST => 0 | IF_SERIAL => 1 | IF_ABP => 2 | IF_OTAA => 3 | IF_D7ASP => 215 end.
Definition ifconf_wf (c : IfConfig) : Prop :=
  match c with CfgD7 c => conf_wf c | CfgABP c => abp_wf c | CfgOTAA c => otaa_wf c end.
Definition ifconf_layout (c : IfConfig) : list bool :=
  match c with CfgD7 c => conf_layout c | CfgABP c => abp_layout c | CfgOTAA c => otaa_layout c end.
Definition ic_wf (i : InterfaceConfiguration) : Prop :=
  match ic_conf i with Some c => ifconf_wf c | None => True end.
Definition ic_layout (i : InterfaceConfiguration) : list bool :=
  Zbits 8 (iftype_code (ic_id i)) ++ match ic_conf i with Some c => ifconf_layout c | None => [] end.
(** configuration and interface fit together *)
Definition ic_supported (i : InterfaceConfiguration) : Prop :=
  match ic_id i, ic_conf i with
  | IF_D7ASP, Some (CfgD7 c) => conf_stable c
  | IF_SERIAL, None => True
  | IF_ABP, Some (CfgABP _) => True
  | IF_OTAA, Some (CfgOTAA _) => True
  | _, _ => False
  end.

(** ** Indirect forward *)
Definition ind_wf (o : IndirectOp) : Prop :=
  0 <= ii_file o <= 255 /\ match ii_overload o with Some a => addr_wf a | None => True end.
Definition ind_layout (o : IndirectOp) : list bool :=
  Zbits 8 (ii_file o) ++ match ii_overload o with Some a => addr_layout a | None => [] end.

Definition tag_wf (t : TagId) : Prop := 0 <= tag_value t <= 255.

(** ** Operations *)
Definition opcode (o : Operation) : Z :=
  match o with
  | NoOperation => 0 | ReadFileData _ => 1 | ReadFileHeader _ => 2 | WriteFileData _ => 4
  | WriteFileHeader _ => 6 | BreakQuery _ => 9 | CreateNewFile _ => 17 | ReturnFileData _ _ => 32
  | ReturnFileHeader _ => 33 | InterfaceStatus _ => 34 | TagResponse _ => 35 | Forward _ => 50
  | IndirectForward _ => 51 | TagRequest _ => 52
  end.
Definition iso_wf (o : IfStatusOp) : Prop :=
  0 <= iso_id o <= 255 /\ match iso_status o with Some s => status_wf s | None => True end.
Definition op_wf (o : Operation) : Prop :=
  match o with
  | NoOperation => True
  | ReadFileData d => dr_wf d
  | ReadFileHeader f => 0 <= fid_id f <= 255
  | WriteFileData d => data_wf d
  | WriteFileHeader f => fho_wf f
  | BreakQuery q => query_wf q
  | CreateNewFile f => fho_wf f
  | ReturnFileData d p => data_wf d /\ p = try_parse_system_file d
  | ReturnFileHeader f => fho_wf f
  | InterfaceStatus o => iso_wf o
  | TagResponse t => tag_wf t
  | Forward i => ic_wf i
  | IndirectForward i => ind_wf i
  | TagRequest t => tag_wf t
  end.
(** operand of the operations other than interface status *)
Definition operand_layout (o : Operation) : list bool :=
  match o with
  | NoOperation => []
  | ReadFileData d => dr_layout d
  | ReadFileHeader f => Zbits 8 (fid_id f)
  | WriteFileData d => data_layout d
  | WriteFileHeader f => fho_layout f
  | BreakQuery q => query_layout q
  | CreateNewFile f => fho_layout f
  | ReturnFileData d _ => data_layout d
  | ReturnFileHeader f => fho_layout f
  | InterfaceStatus o => []
  | TagResponse t => Zbits 8 (tag_value t)
  | Forward i => ic_layout i
  | IndirectForward i => ind_layout i
  | TagRequest t => Zbits 8 (tag_value t)
  end.

(** ** Actions: two flag bits, opcode, operand *)
Definition act_bits (b7 b6 : bool) (o : Operation) : list bool :=
  [b7; b6] ++ Zbits 6 (opcode o) ++ operand_layout o.

(** Actions as an application sends them and the parser understands them:
    flags and operation *)
Definition sendable (o : Operation) : Prop :=
  match o with
  | ReadFileData _ | CreateNewFile _ | ReturnFileHeader _ => True
  | WriteFileData d | ReturnFileData d _ => d_data d <> []
  | BreakQuery q => query_supported q
  | _ => False
  end.
Definition action_wf (a : Action) : Prop :=
  op_wf (a_op a) /\
  match a_kind a, a_op a with
  | Regular g r, Forward i => g = false /\ ic_supported i
  | Regular _ _, o => sendable o
  | IndFwdAct v r, IndirectForward i =>
      match ii_overload i with Some x => v = true /\ addr_stable x | None => v = false end
  | TagReqAct _, TagRequest _ => True
  | TagRespAct _ _, TagResponse _ => True
  | _, _ => False
  end.
Definition action_layout (a : Action) : list bool :=
  match a_kind a with
  | Regular g r => act_bits g r (a_op a)
  | FwdAct r => act_bits false r (a_op a)
  | IndFwdAct v r => act_bits v r (a_op a)
  | StatusAct _ => []
  | TagReqAct r => act_bits r false (a_op a)
  | TagRespAct e x => act_bits e x (a_op a)
  end.
(** the receiver sees a forward action as [ForwardAction], otherwise the same *)
Definition action_received (a : Action) : Action :=
  match a_kind a, a_op a with
  | Regular _ r, Forward i => mkAction (FwdAct r) (Forward i)
  | _, _ => a
  end.
