(** Property C67: building a command call by call, and asking it for the
    interface status. *)
From Verif Require Import SBuild LBuild.

Theorem C67_calls : forall c l,
  fst (calls c l) = with_actions c (c_actions c ++ flat_map added l)
  /\ snd (calls c l) = map (fun k => if refused k then Some ValueError else None) l.
Proof. exact (fun c l => calls_effect l c). Qed.
Print Assumptions C67_calls.
Theorem C67_constructor : forall rnd l generate tag respond, forallb plain l = true ->
  exists c, mk_command rnd [] generate tag respond = Ok c
    /\ mk_command rnd (map Some l) generate tag respond = Ok (fst (calls c (map AddAction l))).
Proof. exact constructor_same. Qed.
Print Assumptions C67_constructor.
Theorem C67_wire : forall c l, command_wf c -> Forall call_ok l ->
  emits (command_ser (fst (calls c l))) (command_layout c ++ flat_map call_bits l).
Proof. exact calls_emit. Qed.
Print Assumptions C67_wire.
Theorem C67_received : forall c l, command_wf c -> Forall call_ok l ->
  let wire := command_layout c ++ flat_map call_bits l in
  accepts_aligned (alp_parse (zlen wire / 8)) wire
    (with_actions (command_received c) (map action_received (c_actions c ++ flat_map added l))).
Proof. exact calls_received. Qed.
Print Assumptions C67_received.

(** an overload without an address *)
Theorem C67_overload_swallows : forall file a, 0 <= file <= 255 -> addr_wf a -> addr_stable a ->
  emits (action_ser (indirect file true None)) (call_bits (AddIndirect file true None))
  /\ accepts parse_action (call_bits (AddIndirect file true None) ++ addr_layout a) (Some (indirect file true (Some a))).
Proof.
  exact (fun file a H W S => conj (overload_ser file H) (overload_swallows file a H W S)).
Qed.
Print Assumptions C67_overload_swallows.
Theorem C67_overload_at_the_end : forall c l file, command_wf c -> Forall call_ok l -> 0 <= file <= 255 ->
  let wire := command_layout c ++ flat_map call_bits (l ++ [AddIndirect file true None]) in
  emits (command_ser (fst (calls c (l ++ [AddIndirect file true None])))) wire
  /\ forall pos, (pos mod 8 = 0)%nat -> alp_parse (zlen wire / 8) (St pos wire) = Err ReadError.
Proof. exact ends_bare. Qed.
Print Assumptions C67_overload_at_the_end.
Theorem C67_overload_round_trip_refuted : exists conf a b,
  let l1 := [AddIndirect 64 true None; AddAction a] in
  let l2 := [AddIndirect 64 true (Some conf); AddAction b] in
  action_wf a /\ plain a = true /\ Forall call_ok l2 /\ a <> b
  /\ forall c, command_ser (fst (calls c l1)) = command_ser (fst (calls c l2)).
Proof. exact two_messages. Qed.
Print Assumptions C67_overload_round_trip_refuted.

(** a tag action added by hand to a command that sends its own tag *)
Theorem C67_second_tag : forall c a, command_wf c -> c_generate c = true -> action_wf a -> is_tag a = true ->
  let wire := command_layout c ++ action_layout a in
  emits (command_ser (fst (call c (AddAction a)))) wire
  /\ forall pos rest, (pos mod 8 = 0)%nat -> alp_parse (zlen wire / 8) (St pos (wire ++ rest)) = Err ParseError.
Proof. exact second_tag. Qed.
Print Assumptions C67_second_tag.

(** the interface status of a received command *)
Theorem C67_status_total : forall n s c s', (pos s mod 8 = 0)%nat -> alp_parse n s = Ok (c, s') ->
  get_d7asp_interface_status c = Ok (match c_status c with Some a => d7_status a | None => None end).
Proof. exact status_total. Qed.
Print Assumptions C67_status_total.
Theorem C67_status_of_message : forall ls acts, Forall2 incoming ls acts -> one_tag acts -> one_status acts ->
  forall pos rest, (pos mod 8 = 0)%nat ->
  exists c, alp_parse (zlen (concat ls) / 8) (St pos (concat ls ++ rest)) = Ok (c, St (pos + length (concat ls)) rest)
    /\ get_d7asp_interface_status c
       = Ok (hd_error (flat_map (fun a => match d7_status a with Some s => [s] | None => [] end) acts)).
Proof. exact status_of_message. Qed.
Print Assumptions C67_status_of_message.

(** a command built by an application can also carry a status with a body for
    another interface; it is not handed out either *)
Theorem C67_status_of_built : forall rnd l generate tag respond c,
  Forall (fun a => is_status a = true -> exists o, a_op a = InterfaceStatus o) l ->
  mk_command rnd (map Some l) generate tag respond = Ok c ->
  get_d7asp_interface_status c
  = Ok (hd_error (flat_map (fun a => match d7_status a with Some s => [s] | None => [] end) l)).
Proof. exact status_of_built. Qed.
Print Assumptions C67_status_of_built.

(** ** Non-vacuity *)
Definition start : Command := mkCommand [] None true (Some 9) true false None.
Definition a_uid : Addressee := mkAddr 1 UID (IdInt 72340172838076673) NLS_NONE.
Example C67_case_build :
  let l := [AddIndirect 300 true (Some a_uid); AddForward IF_HOST (Some (CfgD7 conf_default)); AddIndirect 64 true (Some a_uid);
            AddIndirect 65 false (Some a_uid); AddForward IF_HOST None] in
  snd (calls start l) = [Some ValueError; Some ValueError; None; None; None]
  /\ command_ser (fst (calls start l)) = Ok [180; 9; 179; 64; 32; 1; 1; 1; 1; 1; 1; 1; 1; 1; 51; 65]
  /\ command_wf start /\ call_ok (AddIndirect 64 true (Some a_uid)).
Proof.
  refine (conj eq_refl (conj eq_refl (conj _ _))).
  - repeat split; [constructor | ]. intros _. exists 9. split; [reflexivity | lia].
  - split; [lia|]. intros _. exists a_uid. repeat split; cbn; lia.
Qed.
(** interface status for another interface, and without body: no D7 status *)
Example C67_case_status :
  let get bs := match alp_parse (zlen bs) (stream_of bs) with Ok (c, _) => get_d7asp_interface_status c | Err e => Err e end in
  get [98; 1; 0] = Ok None /\ get [98; 215; 0] = Ok None /\ get [35; 5] = Ok None
  /\ exists s, get [98; 215; 12; 0; 0; 0; 70; 80; 90; 0; 0; 0; 0; 16; 1; 35; 5] = Ok (Some s) /\ st_link_budget s = 80.
Proof. vm_compute. repeat split. eexists. split; reflexivity. Qed.
(** a built command whose status has a body but belongs to interface 1 *)
Example C67_case_built :
  let s := mkStatus (mkChannelID (mkCH FEC_PN9 NORMAL_RATE BAND_868) 16) 70 80 90 true false true false 200 1
             (mkCT 0 0) a_uid in
  let l i := [mkAction (StatusAct 1) (InterfaceStatus (mkISO i (Some s)))] in
  let get i := match mk_command 5 (map Some (l i)) true None true with Ok c => get_d7asp_interface_status c | Err e => Err e end in
  get 1 = Ok None /\ get 215 = Ok (Some s).
Proof. split; reflexivity. Qed.
