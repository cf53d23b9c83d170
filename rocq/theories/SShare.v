(** Parts of objects and what a change of one object means for the others *)
From Verif Require Import MBase MCt MSp MOperands MAlp.
From Verif Require Export MShare.

(** the objects an object refers to *)
Definition op_parts (o : OpRef) : list Ref :=
  match o with RRead r | RWrite r | RReturn r _ | RForward r => [r] | OtherOp _ => [] end.
Definition parts (o : Obj) : list Ref :=
  match o with
  | OConf q d a => [q; d; a]
  | OOff _ l => [l]
  | OData o l d => [o; l; d]
  | OReq o l => [o; l]
  | OIface _ (Some c) => [c]
  | OAct _ o => op_parts o
  | OCmd l _ => l
  | _ => []
  end.
(** [n] is [r] itself or a part of a part … of [r] *)
Inductive reaches (h : Store) : Ref -> Ref -> Prop :=
| reaches_itself r : reaches h r r
| reaches_part r o p n : nth_error h r = Some o -> In p (parts o) -> reaches h p n -> reaches h r n.

(** the object a call changes, if any *)
Definition target (k : Call) : option Ref :=
  match k with KAdd c _ | KForward c _ _ | KAssign c _ => Some c | _ => None end.
(** stores of running programs *)
Definition history (h : Store) : Prop := exists l, h = program loaded l.
(** the configuration [Configuration()] stands for at this moment *)
Definition default_conf (h : Store) (c : Configuration) : Prop :=
  the_qos h DEFAULT_QOS = Some (cf_qos c) /\ the_ct h DEFAULT_DORM_TO = Some (cf_dorm_to c)
  /\ the_addr h DEFAULT_ADDRESSEE = Some (cf_addressee c).
(** the value of an optional configuration argument of a factory, with what is
    put in its place if it is left out *)
Definition conf_arg (h : Store) (t : InterfaceType) (conf : option Ref) (v : option IfConfig) : Prop :=
  match conf with
  | Some r => exists c, the_conf h r = Some c /\ v = Some c
  | None => match t with
            | IF_D7ASP => exists c, default_conf h c /\ v = Some (CfgD7 c)
            | _ => v = None
            end
  end.
(** what a factory on the store does, given what the factory on values does *)
Definition same_outcome (h : Store) (m : made) (v : res Command) : Prop :=
  match m with
  | Ok (h', c) => exists cmd, v = Ok cmd /\ the_command h' c = Some cmd
  | Err e => v = Err e
  end.
(** the objects that existed before and are parts of a command a factory made *)
Definition conf_parts (h : Store) (t : InterfaceType) (conf : option Ref) (n : Ref) : Prop :=
  match t, conf with
  | IF_D7ASP, None => In n [DEFAULT_QOS; DEFAULT_DORM_TO; DEFAULT_ADDRESSEE]
  | (IF_D7ASP | IF_ABP | IF_OTAA), Some c => reaches h c n
  | _, _ => False
  end.
(** the later calls change none of the objects made between [h] and [h'] *)
Definition leaves_new (h h' : Store) (l : list Call) : Prop :=
  forall k r, In k l -> target k = Some r -> ~ (length h <= r < length h')%nat.
(** for the cases *)
Definition asks_any : QoS := mkQoS RESP_ANY RETRY_NO false false.
