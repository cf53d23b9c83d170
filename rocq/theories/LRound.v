(** Lemmas for C16: which actions survive a round trip *)
From Coq Require Import ZifyBool ZifyNat Lia.
From Verif Require Import SRound SRelay LReser LTags LParsed LAction LSp LCommand LReject LTight LRelay LRelaySize LRefuse.
Open Scope list_scope.
Open Scope Z_scope.

Lemma conf_accepts_gen c : conf_wf c -> accepts conf_parse (conf_layout c) (mkConf (cf_qos c) (cf_dorm_to c) (addr_reparse (cf_addressee c))).
Proof.
  destruct c as [q d a]. unfold conf_wf, conf_parse, conf_layout. cbn [cf_qos cf_dorm_to cf_addressee]. intros [Hd Ha].
  eapply accepts_bind; [apply qos_accepts|]. eapply accepts_bind; [apply ct_accepts; exact Hd|].
  eapply accepts_bind_l; [apply addr_accepts_gen; [reflexivity | exact Ha] | apply accepts_ret].
Qed.
Lemma round_parsed bs x : accepts parse_action bs (Some x) -> act_parsed x.
Proof. intros A. specialize (A 0%nat []). exact (post_action _ _ _ A). Qed.
Lemma round_size bs x : accepts parse_action bs (Some x) -> (full (Some x) <= length bs)%nat.
Proof. intros A. specialize (A 0%nat []). apply uses_action in A. cbn [bits length] in A. rewrite app_nil_r in A. lia. Qed.
Lemma forward_bits g r i : g = false -> accepts parse_action (act_bits g r (Forward i)) (Some (mkAction (FwdAct r) (Forward i))) ->
  ic_wf i -> ic_supported i.
Proof.
  intros -> A W. pose proof (round_parsed _ _ A) as [_ K]. cbn [a_kind a_op] in K. unfold ic_supported.
  destruct i as [t c]. cbn [ic_id ic_conf] in *. destruct t; try contradiction; destruct c as [[c|c|c]|]; try contradiction; try exact I.
  cbn [ic_wf ic_conf ifconf_wf] in W. unfold conf_stable.
  assert (B : accepts parse_action (act_bits false r (Forward (mkIC IF_D7ASP (Some (CfgD7 c)))))
     (Some (mkAction (FwdAct r) (Forward (mkIC IF_D7ASP (Some (CfgD7 (mkConf (cf_qos c) (cf_dorm_to c) (addr_reparse (cf_addressee c)))))))))).
  { unfold act_bits. apply parse_action_op. cbn [opcode Z.eqb Pos.eqb operand_layout]. unfold ic_layout, parse_forward_action. cbn [ic_id ic_conf].
    eapply accepts_bind; [apply accepts_uint; vm_compute; split; congruence|].
    eapply accepts_bind0; [apply accepts_lift; reflexivity|]. cbv iota.
    eapply accepts_bind_l; [eapply accepts_bind_l; [apply conf_accepts_gen; exact W | apply accepts_ret]|].
    eapply accepts_bind0; [apply accepts_lift; reflexivity | apply accepts_ret]. }
  pose proof (accepts_inj _ _ _ _ A B) as E. apply (addr_reparse_stable _ (proj2 W)). destruct c as [q d a]. cbn [cf_qos cf_dorm_to cf_addressee] in *.
  set (a' := addr_reparse a) in *. clearbody a'. congruence.
Qed.
Lemma data_round g r o d : op_wf o -> (o = WriteFileData d \/ exists p, o = ReturnFileData d p) ->
  exists bs, action_ser (mkAction (Regular g r) o) = Ok bs
  /\ (accepts parse_action (bytes_bits bs) (Some (mkAction (Regular g r) o)) -> d_data d <> []).
Proof.
  intros W Ho. destruct (empty_data_ser g r o d W Ho) as (bs & E & B & L). exists bs. split; [exact E|]. intros A N. rewrite N in L.
  apply round_size in A. rewrite L in A. unfold full in A.
  assert (D : (16 <= length (action_layout (mkAction (Regular g r) o)))%nat).
  { unfold action_layout, act_bits. cbn [a_kind a_op]. rewrite !app_length, Zbits_length. cbn [length].
    destruct Ho as [-> | (p & ->)]; cbn [operand_layout]; unfold data_layout, off_layout; rewrite !app_length, Zbits_length; lia. }
  rewrite app_length, Zbits_length in A. cbn [length] in A.
  assert (P : plain (mkAction (Regular g r) o) && negb (is_forward (mkAction (Regular g r) o)) = true) by (destruct Ho as [-> | (p & ->)]; reflexivity).
  rewrite P in A. lia.
Qed.
Lemma round_iff a : buildable a ->
  exists bs, action_ser a = Ok bs /\ (accepts parse_action (bytes_bits bs) (Some (action_received a)) <-> action_wf a).
Proof.
  intros [W K]. assert (Suff : forall bs, action_ser a = Ok bs -> action_wf a -> accepts parse_action (bytes_bits bs) (Some (action_received a))).
  { intros bs E V. destruct (action_emits a V) as (bs' & E' & _ & B). rewrite E in E'. injection E' as <-. rewrite B. apply action_accepts. exact V. }
  assert (X : exists bs, action_ser a = Ok bs /\ (accepts parse_action (bytes_bits bs) (Some (action_received a)) -> action_wf a));
    [|destruct X as (bs & E & N); exists bs; split; [exact E | split; [exact N | apply Suff; exact E]]]. clear Suff.
  destruct a as [k o]. cbn [a_kind a_op] in *. unfold action_wf. cbn [a_kind a_op].
  assert (Em : forall b7 b6, op_plain o -> exists bs, yield1 (flag6 b6 (flag7 b7 0) + op_code o) +++ op_ser o = Ok bs /\ bytes_bits bs = act_bits b7 b6 o).
  { intros b7 b6 N. destruct (act_emits b7 b6 o W N) as (bs & E & _ & B). exists bs. auto. }
  destruct k as [g r|r|v r|e|r|e x]; try contradiction.
  - unfold action_received. cbn [a_kind a_op].
    assert (G : op_plain o -> is_forward (mkAction (FwdAct r) o) = true -> True) by auto.
    destruct o as [|d|f|d|f|q|f|d p|f|o|t|i|i|t]; try contradiction;
      try (destruct (Em g r I) as (bs & E & B); exists bs; split; [exact E|]; intros A; apply round_parsed in A as [_ A]; cbn [a_kind a_op] in A;
           first [contradiction | split; [exact W | first [exact A | exact I]]]).
    + destruct (data_round g r _ d W (or_introl eq_refl)) as (bs & E & N). exists bs. split; [exact E|]. intros A. split; [exact W | exact (N A)].
    + destruct (data_round g r _ d W (or_intror (ex_intro _ p eq_refl))) as (bs & E & N). exists bs. split; [exact E|]. intros A. split; [exact W | exact (N A)].
    + destruct (Em g r I) as (bs & E & B). exists bs. split; [exact E|]. rewrite B. intros A. split; [exact W|].
      assert (Eg : g = false).
      { destruct g; [|reflexivity]. pose proof (proj1 (proj2 (refused_bits false r))) as R. specialize (R 0%nat (operand_layout (Forward i))).
        specialize (A 0%nat []). unfold act_bits in A. rewrite app_nil_r in A. rewrite <- app_assoc in R. cbn [opcode] in A. rewrite R in A. discriminate. }
      split; [exact Eg | exact (forward_bits g r i Eg A W)].
  - destruct o as [| | | | | | | | | | | |i|]; try contradiction. destruct (Em v r I) as (bs & E & B). exists bs. split; [exact E|]. rewrite B.
    unfold action_received. cbn [a_kind a_op]. intros A. split; [exact W|]. pose proof (round_parsed _ _ A) as Pa.
    assert (C : carried (mkAction (IndFwdAct v r) (IndirectForward i))) by (split; [exact Pa | reflexivity]).
    pose proof (hop_accepts _ C I) as H. pose proof (accepts_inj _ _ _ _ A H) as Q. injection Q as Q. symmetry in Q.
    apply (proj1 (hop_same_iff _ C I)) in Q as [_ Q]. cbn [a_op] in Q. destruct Pa as [_ Pv]. cbn [a_kind a_op] in Pv.
    destruct i as [f [x|]]; cbn [ii_overload] in *; [|exact Pv]. split; [exact Pv|]. unfold addr_stable. destruct (ad_id x) as [| |c] eqn:Ex; try exact I.
    unfold nbid in Q. cbv zeta. destruct W as [_ [_ W]]. rewrite Ex in W. assert (ct_wf c) as [? ?] by (destruct (ad_id_type x); tauto). lia.
  - destruct o; try contradiction. destruct (Em r false I) as (bs & E & B). exists bs. split; [exact E|]. intros _. split; [exact W | exact I].
  - destruct o; try contradiction. destruct (Em e x I) as (bs & E & B). exists bs. split; [exact E|]. intros _. split; [exact W | exact I].
Qed.
