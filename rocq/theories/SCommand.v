(** ALP commands: what a list of actions means, what a command looks like on
    the wire, what the receiver is expected to see. *)
From Verif Require Export SAlp.

(** ** Kinds of actions *)
Definition is_tag (a : Action) : bool :=
  match a_kind a with TagReqAct _ => true | TagRespAct _ _ => true | _ => false end.
Definition is_status (a : Action) : bool :=
  match a_kind a with StatusAct e => e =? 1 | _ => false end.
Definition plain (a : Action) : bool := negb (is_tag a) && negb (is_status a).
Definition tag_id_of (a : Action) : option Z :=
  match a_op a with TagRequest t => Some (tag_value t) | TagResponse t => Some (tag_value t) | _ => None end.

(** The command made of the actions [l]: at most one tag action and at most one
    interface status; everything else in order. [respond0] is the flag used
    when there is no tag request. *)
Definition command_of (generate : bool) (tag0 : option Z) (respond0 : bool) (l : list Action) : Command :=
  let base := match filter is_tag l with
              | [] => (tag0, respond0, false, None)
              | a :: _ =>
                  match a_kind a with
                  | TagReqAct r => (tag_id_of a, r, false, None)
                  | TagRespAct eop error => (tag_id_of a, respond0, eop, Some error)
                  | _ => (tag0, respond0, false, None)
                  end
              end in
  let '(tag, respond, completed, error) := base in
  mkCommand (filter plain l) (hd_error (filter is_status l)) generate tag respond completed error.
(** tag actions carry a tag operand (always so for parsed ones) *)
Definition tag_typed (a : Action) : Prop := is_tag a = true -> tag_id_of a <> None.
Definition one_tag (l : list Action) : Prop := (length (filter is_tag l) <= 1)%nat.
Definition one_status (l : list Action) : Prop := (length (filter is_status l) <= 1)%nat.

(** ** The stream holds the actions [l] and then [s']: [parse_action] applied
    repeatedly.  [None] stands for an "action status", which the parser reads
    as nothing. *)
Inductive reads : stream -> list (option Action) -> stream -> Prop :=
| reads_nil s : reads s [] s
| reads_cons s a s1 l s2 : parse_action s = Ok (a, s1) -> reads s1 l s2 -> reads s (a :: l) s2.

(** ** Commands an application sends *)
Definition tag_bits (respond : bool) (t : Z) : list bool := act_bits respond false (TagRequest (mkTag t)).
Definition command_wf (c : Command) : Prop :=
  Forall action_wf (c_actions c) /\ forallb plain (c_actions c) = true
  /\ c_status c = None
  /\ (c_generate c = true -> exists t, c_tag c = Some t /\ 0 <= t <= 255).
Definition command_layout (c : Command) : list bool :=
  (if c_generate c then match c_tag c with Some t => tag_bits (c_respond c) t | None => [] end else [])
  ++ flat_map action_layout (c_actions c).
(** number of bytes on the wire *)
Definition command_bytes (c : Command) : Z := zlen (command_layout c) / 8.
(** what the receiver gets: same actions, tag and flag; the receiver's own
    [generate_tag_request_action] is off *)
Definition command_received (c : Command) : Command :=
  mkCommand (map action_received (c_actions c)) None false
            (if c_generate c then c_tag c else None) (if c_generate c then c_respond c else true)
            false None.

(** parsing at a byte boundary *)
Definition accepts_aligned {A} (p : P A) (l : list bool) (x : A) : Prop :=
  forall pos rest, (pos mod 8 = 0)%nat -> p (St pos (l ++ rest)) = Ok (x, St (pos + length l) rest).

(** ** What a modem sends to the host: besides the actions above, tag
    responses, interface status (with its length byte) and empty data *)
Definition status_bits (len : Z) (s : Status) : list bool :=
  [false; true] ++ Zbits 6 34 ++ Zbits 8 215 ++ Zbits 8 len ++ status_layout s.
Inductive incoming : list bool -> Action -> Prop :=
| in_regular g r o : op_wf o -> (sendable o \/ exists d, d_data d = [] /\ (o = WriteFileData d \/ o = ReturnFileData d (try_parse_system_file d))) ->
    incoming (act_bits g r o) (mkAction (Regular g r) o)
| in_forward r i : ic_wf i -> ic_supported i -> incoming (act_bits false r (Forward i)) (mkAction (FwdAct r) (Forward i))
| in_indirect v r i : ind_wf i ->
    match ii_overload i with Some x => v = true /\ addr_stable x | None => v = false end ->
    incoming (act_bits v r (IndirectForward i)) (mkAction (IndFwdAct v r) (IndirectForward i))
| in_request r t : tag_wf t -> incoming (act_bits r false (TagRequest t)) (mkAction (TagReqAct r) (TagRequest t))
| in_response e x t : tag_wf t -> incoming (act_bits e x (TagResponse t)) (mkAction (TagRespAct e x) (TagResponse t))
| in_status len s : 0 < len <= 255 -> status_wf s -> st_rx_level s <= 127 -> addr_stable (st_addressee s) ->
    incoming (status_bits len s) (mkAction (StatusAct 1) (InterfaceStatus (mkISO 215 (Some s)))).

(** actions that come back unchanged when a received command is serialized *)
Definition reserializable (a : Action) : Prop :=
  match a_kind a, a_op a with
  | Regular _ _, WriteFileData d => d_data d <> []
  | Regular _ _, ReturnFileData d _ => d_data d <> []
  | Regular _ _, _ => True
  | IndFwdAct _ _, _ => True
  | _, _ => False
  end.

(** ** Factories *)
(** the forward action added for an interface type and configuration *)
Definition forward_conf (t : InterfaceType) (conf : option IfConfig) : option InterfaceConfiguration :=
  match t with
  | IF_HOST => None
  | IF_D7ASP => Some (mkIC IF_D7ASP (match conf with Some c => Some c | None => Some (CfgD7 conf_default) end))
  | IF_SERIAL => Some (mkIC IF_SERIAL None)
  | IF_ABP => Some (mkIC IF_ABP conf)
  | IF_OTAA => Some (mkIC IF_OTAA conf)
  end.
Definition forward_bits (t : InterfaceType) (conf : option IfConfig) : list bool :=
  match forward_conf t conf with Some i => act_bits false false (Forward i) | None => [] end.
Definition conf_ok (t : InterfaceType) (conf : option IfConfig) : Prop :=
  match conf with Some c => ifconf_wf c /\ t <> IF_HOST | None => True end.
(** the command [r] was created and its bytes are tag request, forward, [action] *)
Definition creates (r : res Command) (tag : Z) t conf (action : list bool) : Prop :=
  exists c, r = Ok c /\ c_tag c = Some tag /\ c_generate c = true
    /\ emits (command_ser c) (tag_bits true tag ++ forward_bits t conf ++ action).

(** what an incoming action contributes when the received command is
    serialized again (forward actions raise) *)
Definition contribution (a : Action) : list bool :=
  match a_kind a, a_op a with
  | Regular g r, WriteFileData d => if d_data d then [g; r] ++ Zbits 6 4 else act_bits g r (a_op a)
  | Regular g r, ReturnFileData d _ => if d_data d then [g; r] ++ Zbits 6 32 else act_bits g r (a_op a)
  | Regular g r, o => act_bits g r o
  | IndFwdAct v r, o => act_bits v r o
  | StatusAct _, InterfaceStatus (mkISO _ (Some s)) => [false; true] ++ Zbits 6 34 ++ Zbits 8 215 ++ status_layout s
  | _, _ => []
  end.
Definition is_forward (a : Action) : bool := match a_kind a with FwdAct _ => true | _ => false end.
(** an interface status without body *)
Definition bodyless (a : Action) : bool :=
  match a_op a with InterfaceStatus (mkISO _ None) => true | _ => false end.
