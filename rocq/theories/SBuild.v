(** What each call means: which action it adds, and when it is refused. *)
From Verif Require Export SCommand MBuild.

(** A forward to the host is no action at all; only the host takes no
    configuration.  The file of an indirect forward is one byte; the address
    counts only with [overload]. *)
Definition refused (k : Call) : bool :=
  match k with
  | AddAction _ => false
  | AddForward IF_HOST (Some _) => true
  | AddForward _ _ => false
  | AddIndirect file _ _ => negb ((0 <=? file) && (file <=? 255))
  end.
Definition indirect (file : Z) (overload : bool) (conf : option Addressee) : Action :=
  mkAction (IndFwdAct overload false) (IndirectForward (mkIndirect file (if overload then conf else None))).
Definition added (k : Call) : list Action :=
  if refused k then [] else
  match k with
  | AddAction a => [a]
  | AddForward t conf =>
      match forward_conf t conf with Some i => [mkAction (Regular false false) (Forward i)] | None => [] end
  | AddIndirect file overload conf => [indirect file overload conf]
  end.
(** the same command with other actions *)
Definition with_actions (c : Command) (l : list Action) : Command :=
  mkCommand l (c_status c) (c_generate c) (c_tag c) (c_respond c) (c_completed c) (c_error c).

(** Calls that add what a receiver understands *)
Definition call_ok (k : Call) : Prop :=
  match k with
  | AddAction a => action_wf a /\ plain a = true
  | AddForward t conf => conf_ok t conf /\ match forward_conf t conf with Some i => ic_supported i | None => True end
  | AddIndirect file overload conf =>
      0 <= file <= 255
      /\ (overload = true -> exists a, conf = Some a /\ addr_wf a /\ addr_stable a)
  end.
(** The bytes a call adds *)
Definition call_bits (k : Call) : list bool :=
  match k with
  | AddAction a => action_layout a
  | AddForward t conf => forward_bits t conf
  | AddIndirect file overload conf =>
      [overload; false] ++ Zbits 6 51 ++ Zbits 8 file
      ++ match conf with Some a => if overload then addr_layout a else [] | None => [] end
  end.

(** The D7 interface status a received action carries *)
Definition d7_status (a : Action) : option Status :=
  match a with
  | mkAction (StatusAct 1) (InterfaceStatus (mkISO 215 (Some s))) => Some s
  | _ => None
  end.
