(** Actions: emission, round trip, rejection. *)
From Coq Require Import ZifyBool ZifyNat.
From Verif Require Export LAlp.
Ltac Zify.zify_post_hook ::= Z.div_mod_to_equations.

Lemma data_nonempty d : data_wf d -> d_data d <> [] -> (data_len d =? 0) = false.
Proof.
  intros (_ & _ & E & _) N. unfold data_len. rewrite E. unfold zlen.
  destruct (d_data d); [contradiction | cbn [length]; lia].
Qed.
Lemma data_empty d : data_wf d -> d_data d = [] -> (data_len d =? 0) = true.
Proof. intros (_ & _ & E & _) N. unfold data_len. rewrite E, N. reflexivity. Qed.

(** operations whose serialization is the opcode byte followed by the operand *)
Definition op_plain (o : Operation) : Prop :=
  match o with
  | WriteFileData d | ReturnFileData d _ => d_data d <> []
  | InterfaceStatus _ => False
  | _ => True
  end.
Lemma op_emits o : op_wf o -> op_plain o -> emits (op_ser o) (operand_layout o).
Proof.
  destruct o as [|d|f|d|f|q|f|d p|f|o|t|i|i|t]; cbn [op_wf op_plain op_ser operand_layout]; intros W N.
  - apply emits_nil.
  - apply dr_emits; exact W.
  - apply emits_yield1; lia.
  - rewrite data_nonempty by assumption. apply data_emits; exact W.
  - apply fho_emits; exact W.
  - apply query_emits; exact W.
  - apply fho_emits; exact W.
  - destruct W as [W _]. rewrite data_nonempty by assumption. apply data_emits; exact W.
  - apply fho_emits; exact W.
  - contradiction.
  - apply emits_yield1; exact W.
  - apply ic_emits; exact W.
  - apply ind_emits; exact W.
  - apply emits_yield1; exact W.
Qed.
Lemma first_byte_emits b7 b6 o :
  emits (yield1 (flag6 b6 (flag7 b7 0) + op_code o)) ([b7; b6] ++ Zbits 6 (opcode o)).
Proof. destruct b7, b6, o; apply emits_by_check; reflexivity. Qed.
Lemma act_emits b7 b6 o : op_wf o -> op_plain o ->
  emits (yield1 (flag6 b6 (flag7 b7 0) + op_code o) +++ op_ser o) (act_bits b7 b6 o).
Proof.
  intros W N. unfold act_bits. rewrite app_assoc.
  apply emits_app; [apply first_byte_emits | apply op_emits; assumption].
Qed.
Lemma sendable_plain o : sendable o -> op_plain o.
Proof. destruct o; cbn; tauto. Qed.
Lemma action_emits a : action_wf a -> emits (action_ser a) (action_layout a).
Proof.
  destruct a as [k o]. unfold action_wf, action_ser, action_layout. cbn [a_kind a_op]. intros [W H].
  destruct k as [g r|r|v r|e|r|e x].
  - apply act_emits; [exact W|]. destruct o; try (apply sendable_plain; exact H); exact I.
  - contradiction.
  - apply act_emits; [exact W|]. destruct o; try contradiction. exact I.
  - contradiction.
  - replace (flag7 r 0) with (flag6 false (flag7 r 0)) by reflexivity.
    apply act_emits; [exact W|]. destruct o; try contradiction; exact I.
  - apply act_emits; [exact W|]. destruct o; try contradiction; exact I.
Qed.

(** parse the opcode byte of a known operation *)
Lemma parse_action_op b7 b6 o l x : accepts
    (if opcode o =? 1 then parse_regular b7 b6 dr_parse ReadFileData
     else if opcode o =? 4 then parse_regular b7 b6 data_parse WriteFileData
     else if opcode o =? 9 then parse_regular b7 b6 query_parse BreakQuery
     else if opcode o =? 17 then parse_regular b7 b6 fho_parse CreateNewFile
     else if opcode o =? 32 then parse_regular b7 b6 data_parse mk_return_file_data
     else if opcode o =? 33 then parse_regular b7 b6 fho_parse ReturnFileHeader
     else if opcode o =? 34 then parse_status_action b7 b6
     else if opcode o =? 35 then parse_tag_response_action b7 b6
     else if opcode o =? 50 then parse_forward_action b7 b6
     else if opcode o =? 51 then parse_indirect_forward_action b7 b6
     else if opcode o =? 52 then parse_tag_request_action b7 b6
     else raise ParseError) l x ->
  accepts parse_action ([b7; b6] ++ Zbits 6 (opcode o) ++ l) x.
Proof.
  intros H. unfold parse_action. cbn [app].
  eapply (accepts_bind _ _ [_]); [apply accepts_bool|].
  eapply (accepts_bind _ _ [_]); [apply accepts_bool|].
  eapply accepts_bind; [apply accepts_uint; destruct o; cbn; lia|]. exact H.
Qed.
Lemma regular_accepts {A} b7 b6 (p : P A) (op : A -> Operation) l x :
  accepts p l x -> accepts (parse_regular b7 b6 p op) l (Some (mkAction (Regular b7 b6) (op x))).
Proof.
  intros H. unfold parse_regular. eapply accepts_bind_l; [exact H|].
  eapply accepts_bind0; [apply accepts_lift; apply validated_ok; destruct (op x); reflexivity | apply accepts_ret].
Qed.

Lemma forward_accepts b6 i : ic_wf i -> ic_supported i ->
  accepts (parse_forward_action false b6) (ic_layout i) (Some (mkAction (FwdAct b6) (Forward i))).
Proof.
  destruct i as [t c]. unfold ic_wf, ic_supported, ic_layout, parse_forward_action. cbn [ic_id ic_conf].
  intros W S. eapply accepts_bind; [apply accepts_uint; pose proof (iftype_code_u t); pow2; lia|].
  eapply accepts_bind0; [apply accepts_lift; apply iftype_of_code|].
  destruct t; try contradiction; destruct c as [[c|c|c]|]; try contradiction;
    cbn [ifconf_wf ifconf_layout] in *;
    (eapply accepts_bind_l;
      [ first [ apply accepts_ret
              | eapply accepts_bind_l;
                  [first [apply conf_accepts; assumption | apply abp_accepts; assumption
                         | apply otaa_accepts; assumption] | apply accepts_ret] ]
      | eapply accepts_bind0; [apply accepts_lift; reflexivity | apply accepts_ret]]).
Qed.
Lemma indirect_accepts b7 b6 i : ind_wf i ->
  match ii_overload i with Some x => b7 = true /\ addr_stable x | None => b7 = false end ->
  accepts (parse_indirect_forward_action b7 b6) (ind_layout i)
          (Some (mkAction (IndFwdAct b7 b6) (IndirectForward i))).
Proof.
  destruct i as [f a]. unfold ind_wf, ind_layout, parse_indirect_forward_action.
  cbn [ii_file ii_overload]. intros [Hf Ha] S.
  eapply accepts_bind; [apply accepts_uint; pow2; lia|].
  destruct a as [a|].
  - destruct S as [-> S].
    eapply accepts_bind_l;
      [eapply accepts_bind_l; [apply addr_accepts; [reflexivity | assumption ..] | apply accepts_ret]|].
    eapply accepts_bind0; [apply accepts_lift; apply validated_ok; ranges|].
    eapply accepts_bind0; [apply accepts_lift; reflexivity | apply accepts_ret].
  - subst b7. eapply accepts_bind0; [apply accepts_ret|].
    eapply accepts_bind0; [apply accepts_lift; apply validated_ok; ranges|].
    eapply accepts_bind0; [apply accepts_lift; reflexivity | apply accepts_ret].
Qed.
Lemma tag_request_accepts b7 t : tag_wf t ->
  accepts (parse_tag_request_action b7 false) (Zbits 8 (tag_value t))
          (Some (mkAction (TagReqAct b7) (TagRequest t))).
Proof.
  destruct t as [t]. unfold tag_wf. cbn [tag_value]. intros H. unfold parse_tag_request_action.
  eapply accepts_bind_l; [apply accepts_uint; pow2; lia|].
  eapply accepts_bind0; [apply accepts_lift; apply validated_ok; ranges|].
  eapply accepts_bind0; [apply accepts_lift; reflexivity | apply accepts_ret].
Qed.
Lemma tag_response_accepts b7 b6 t : tag_wf t ->
  accepts (parse_tag_response_action b7 b6) (Zbits 8 (tag_value t))
          (Some (mkAction (TagRespAct b7 b6) (TagResponse t))).
Proof.
  destruct t as [t]. unfold tag_wf. cbn [tag_value]. intros H. unfold parse_tag_response_action.
  eapply accepts_bind_l; [apply accepts_uint; pow2; lia|].
  eapply accepts_bind0; [apply accepts_lift; apply validated_ok; ranges|].
  eapply accepts_bind0; [apply accepts_lift; reflexivity | apply accepts_ret].
Qed.

Lemma action_accepts a : action_wf a ->
  accepts parse_action (action_layout a) (Some (action_received a)).
Proof.
  destruct a as [k o]. unfold action_wf, action_layout, action_received, act_bits. cbn [a_kind a_op]. intros [W H].
  destruct k as [g r|r|v r|e|r|e x]; try contradiction; destruct o; try contradiction;
    apply parse_action_op; cbn [opcode Z.eqb Pos.eqb operand_layout op_wf] in *.
  - apply regular_accepts. apply dr_accepts; exact W.
  - apply regular_accepts. apply data_accepts; exact W.
  - apply regular_accepts. apply query_accepts; assumption.
  - apply regular_accepts. apply fho_accepts; exact W.
  - destruct W as [W ->]. apply (regular_accepts g r data_parse mk_return_file_data). apply data_accepts; exact W.
  - apply regular_accepts. apply fho_accepts; exact W.
  - destruct H as [-> H]. apply forward_accepts; assumption.
  - apply indirect_accepts; assumption.
  - apply tag_request_accepts; assumption.
  - apply tag_response_accepts; assumption.
Qed.
Lemma action_codec a : action_wf a ->
  emits (action_ser a) (action_layout a) /\ accepts parse_action (action_layout a) (Some (action_received a)).
Proof. intros W. split; [apply action_emits | apply action_accepts]; exact W. Qed.

(** ** Opcodes the parser does not know *)
Definition op_known (v : Z) : Prop :=
  v = 1 \/ v = 4 \/ v = 9 \/ v = 17 \/ v = 32 \/ v = 33 \/ v = 34 \/ v = 35 \/ v = 50 \/ v = 51 \/ v = 52.
Lemma opcode_rejects b7 b6 v : 0 <= v < 64 -> ~ op_known v ->
  rejects parse_action ([b7; b6] ++ Zbits 6 v) ParseError.
Proof.
  intros Hv N. unfold parse_action. cbn [app].
  eapply (rejects_bind _ _ [_]); [apply accepts_bool|].
  eapply (rejects_bind _ _ [_]); [apply accepts_bool|].
  rewrite <- (app_nil_r (Zbits 6 v)).
  eapply rejects_bind; [apply accepts_uint; pow2; lia|]. cbv beta.
  unfold op_known in N.
  repeat match goal with |- rejects (if ?v =? ?c then _ else _) _ _ =>
      destruct (Z.eqb_spec v c); [lia|] end. apply rejects_raise.
Qed.

(** ** Empty data *)
Lemma empty_data_ser b7 b6 o d : op_wf o -> (o = WriteFileData d \/ exists p, o = ReturnFileData d p) ->
  exists bs, action_ser (mkAction (Regular b7 b6) o) = Ok bs /\ Forall is_byte bs /\
    bytes_bits bs = if d_data d then [b7; b6] ++ Zbits 6 (opcode o)
                    else act_bits b7 b6 o.
Proof.
  intros W Ho. unfold action_ser. cbn [a_kind a_op].
  assert (Wd : data_wf d) by (destruct Ho as [-> | [p ->]]; [exact W | apply W]).
  assert (D : d_data d = [] \/ d_data d <> []) by (destruct (d_data d); [auto | right; discriminate]).
  destruct D as [E|E].
  - rewrite E.
    assert (S : op_ser o = Ok []).
    { destruct Ho as [-> | [p ->]]; cbn [op_ser]; rewrite data_empty by assumption; reflexivity. }
    rewrite S. destruct (first_byte_emits b7 b6 o) as (bs & -> & Hb & B). exists bs.
    cbn [rapp rbind]. rewrite app_nil_r. auto.
  - destruct (act_emits b7 b6 o) as (bs & Es & Hb & B); [exact W | |].
    { destruct Ho as [-> | [p ->]]; exact E. }
    exists bs. split; [exact Es|]. split; [exact Hb|]. rewrite B. destruct (d_data d); [contradiction | reflexivity].
Qed.
