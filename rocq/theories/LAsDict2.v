From Coq Require Import String ZifyBool ZifyNat.
From Verif Require Import MBase MCt MPhy MSp MFs MProfile MOperands MSysFiles MAlp MDll MAsDict SAsDict LAsDict.
Open Scope string_scope.
Open Scope Z_scope.

(** ** Nothing is lost: equal exports, equal objects *)
Definition lossless {A} (f : A -> Value) : Prop := forall a b, shown (f a) = shown (f b) -> a = b.
Definition is_obj (v : Value) : Prop := match v with PObj _ _ => True | _ => False end.

Lemma ints_inj l m : shown (p_ints l) = shown (p_ints m) -> l = m.
Proof.
  cbn [p_ints shown]. intros H. injection H as H. rewrite !map_map in H. revert m H.
  induction l as [|x l IH]; intros [|y m] H; try discriminate; [reflexivity|].
  cbn [map] in H. injection H as -> H. f_equal. auto.
Qed.
Lemma objs_inj {A} (f : A -> Value) : (forall x, is_obj (f x)) -> lossless f ->
  forall l m, shown (PList (map f l)) = shown (PList (map f m)) -> l = m.
Proof.
  intros O L l. cbn [shown]. induction l as [|x l IH]; intros [|y m] H; try discriminate; [reflexivity|].
  cbn [map] in H. injection H as H1 H2. f_equal.
  - apply L. pose proof (O x) as Ox. pose proof (O y) as Oy. destruct (f x), (f y); try contradiction. exact H1.
  - apply IH. f_equal. exact H2.
Qed.

(** fields of the exports of two objects *)
Definition field (k : string) (l : list (string * Value)) : option Value :=
  match entry k l with Some (PClass _) => None | Some a => Some (shown a) | None => None end.
Lemma fields c l c' l' : names_ok l = true -> names_ok l' = true -> shown (PObj c l) = shown (PObj c' l') ->
  c = c' /\ forall k, field k l = field k l'.
Proof.
  intros N N' H. cbn [shown] in H. rewrite !as_dict_obj in H. injection H as -> H. split; [reflexivity|].
  intros k. unfold field. rewrite <- !entry_items by assumption. rewrite H. reflexivity.
Qed.
(** an attribute whose value is never a class *)
Definition no_class (v : Value) : Prop := match v with PClass _ => False | _ => True end.
Lemma field_at k l a : entry k l = Some a -> no_class a -> field k l = Some (shown a).
Proof. unfold field. intros ->. destruct a; try reflexivity. contradiction. Qed.
Lemma obj_no_class v : is_obj v -> no_class v.
Proof. destruct v; try contradiction; trivial. Qed.
Lemma opt_no_class {A} (f : A -> Value) o : (forall x, no_class (f x)) -> no_class (p_opt f o).
Proof. intros H. destruct o; [apply H | exact I]. Qed.
Lemma opt_inj {A} (f : A -> Value) : (forall x, is_obj (f x)) -> lossless f -> lossless (p_opt f).
Proof.
  intros O L [a|] [b|] H; cbn [p_opt] in H.
  - f_equal. apply L. exact H.
  - pose proof (O a). destruct (f a); try contradiction. discriminate.
  - pose proof (O b). destruct (f b); try contradiction. discriminate.
  - reflexivity.
Qed.

(** a pair of fields out of an equality of exports *)
Lemma field_eq k l l' a a' : (forall k, field k l = field k l') -> entry k l = Some a -> entry k l' = Some a' ->
  no_class a -> no_class a' -> shown a = shown a'.
Proof. intros F E E' N N'. specialize (F k). rewrite (field_at _ _ _ E N), (field_at _ _ _ E' N') in F. injection F as F. exact F. Qed.
Ltac at_key k := match goal with F : forall k, field k _ = field k _ |- _ =>
  pose proof (field_eq k _ _ _ _ F eq_refl eq_refl I I) end.
Ltac split_fields H := apply fields in H as [_ H]; [|reflexivity|reflexivity].
Ltac ints := repeat match goal with
  | H : shown (PInt _) = shown (PInt _) |- _ => injection H as H
  | H : shown (PBool _) = shown (PBool _) |- _ => injection H as H
  | H : shown (PMember _ _) = shown (PMember _ _) |- _ => injection H as H
  | H : shown (PText _) = shown (PText _) |- _ => injection H as H
  | H : shown (p_ints _) = shown (p_ints _) |- _ => apply ints_inj in H
  end.

Ltac enums := repeat match goal with
  | H : coding_value ?a = coding_value ?b |- _ => assert (a = b) by (revert H; generalize a b; intros [] [] H; first [reflexivity | discriminate H]); clear H; subst
  | H : class_value ?a = class_value ?b |- _ => assert (a = b) by (revert H; generalize a b; intros [] [] H; first [reflexivity | discriminate H]); clear H; subst
  | H : band_value ?a = band_value ?b |- _ => assert (a = b) by (revert H; generalize a b; intros [] [] H; first [reflexivity | discriminate H]); clear H; subst
  | H : bandwidth_value ?a = bandwidth_value ?b |- _ => assert (a = b) by (revert H; generalize a b; intros [] [] H; first [reflexivity | discriminate H]); clear H; subst
  | H : idtype_value ?a = idtype_value ?b |- _ => assert (a = b) by (revert H; generalize a b; intros [] [] H; first [reflexivity | discriminate H]); clear H; subst
  | H : nls_value ?a = nls_value ?b |- _ => assert (a = b) by (revert H; generalize a b; intros [] [] H; first [reflexivity | discriminate H]); clear H; subst
  | H : resp_value ?a = resp_value ?b |- _ => assert (a = b) by (revert H; generalize a b; intros [] [] H; first [reflexivity | discriminate H]); clear H; subst
  | H : retry_value ?a = retry_value ?b |- _ => assert (a = b) by (revert H; generalize a b; intros [] [] H; first [reflexivity | discriminate H]); clear H; subst
  | H : actcond_value ?a = actcond_value ?b |- _ => assert (a = b) by (revert H; generalize a b; intros [] [] H; first [reflexivity | discriminate H]); clear H; subst
  | H : storage_value ?a = storage_value ?b |- _ => assert (a = b) by (revert H; generalize a b; intros [] [] H; first [reflexivity | discriminate H]); clear H; subst
  | H : qtype_value ?a = qtype_value ?b |- _ => assert (a = b) by (revert H; generalize a b; intros [] [] H; first [reflexivity | discriminate H]); clear H; subst
  | H : comp_value ?a = comp_value ?b |- _ => assert (a = b) by (revert H; generalize a b; intros [] [] H; first [reflexivity | discriminate H]); clear H; subst
  | H : iftype_value ?a = iftype_value ?b |- _ => assert (a = b) by (revert H; generalize a b; intros [] [] H; first [reflexivity | discriminate H]); clear H; subst
  | H : engmode_value ?a = engmode_value ?b |- _ => assert (a = b) by (revert H; generalize a b; intros [] [] H; first [reflexivity | discriminate H]); clear H; subst
  end.
Ltac open := repeat match goal with
  | x : CT |- _ => destruct x | x : ChannelHeader |- _ => destruct x | x : ChannelID |- _ => destruct x
  | x : ChannelStatusIdentifier |- _ => destruct x | x : SubBand |- _ => destruct x | x : SubProfile |- _ => destruct x
  | x : Addressee |- _ => destruct x | x : AddrId |- _ => destruct x | x : QoS |- _ => destruct x
  | x : Configuration |- _ => destruct x | x : Status |- _ => destruct x
  | x : FilePermissions |- _ => destruct x | x : FileProperties |- _ => destruct x | x : FileHeader |- _ => destruct x
  | x : Length |- _ => destruct x | x : Offset |- _ => destruct x | x : DataRequest |- _ => destruct x
  | x : FileId |- _ => destruct x | x : FileHeaderOp |- _ => destruct x | x : ArithParams |- _ => destruct x
  | x : LoraABP |- _ => destruct x | x : LoraOTAA |- _ => destruct x | x : TagId |- _ => destruct x
  end.
(** objects without lists and optional parts *)
Ltac leaves := intros a b H; open; cbn in H; try discriminate H; injection H; intros; enums; subst; reflexivity.
Lemma l_ct : lossless o_ct. Proof. leaves. Qed.
Lemma l_ch : lossless o_ch. Proof. leaves. Qed.
Lemma l_cid : lossless o_cid. Proof. leaves. Qed.
Lemma l_csi : lossless o_csi. Proof. leaves. Qed.
Lemma l_subband : lossless o_subband. Proof. leaves. Qed.
Lemma l_subprofile : lossless o_subprofile. Proof. leaves. Qed.
Lemma l_addr : lossless o_addr. Proof. leaves. Qed.
Lemma l_qos : lossless o_qos. Proof. leaves. Qed.
Lemma l_fho : lossless o_fho. Proof. leaves. Qed.
Lemma l_dr : lossless o_dr. Proof. leaves. Qed.
Lemma l_fid : lossless o_fid. Proof. leaves. Qed.
Lemma l_offset : lossless o_offset. Proof. leaves. Qed.
Lemma l_length : lossless o_length. Proof. leaves. Qed.
Lemma l_arith : lossless o_arith. Proof. leaves. Qed.
Lemma l_tag : lossless o_tag. Proof. leaves. Qed.
Lemma l_abp : lossless o_abp. Proof. leaves. Qed.
Lemma l_otaa : lossless o_otaa. Proof. leaves. Qed.
Lemma l_conf : lossless o_conf.
Proof.
  intros [q1 d1 a1] [q2 d2 a2] H. split_fields H. at_key "qos". at_key "dorm_to". at_key "addressee".
  cbn [cf_qos cf_dorm_to cf_addressee] in *. f_equal; [apply l_qos | apply l_ct | apply l_addr]; assumption.
Qed.
Ltac subs := repeat match goal with
  | H : shown (o_ct _) = shown (o_ct _) |- _ => apply l_ct in H
  | H : shown (o_ch _) = shown (o_ch _) |- _ => apply l_ch in H
  | H : shown (o_cid _) = shown (o_cid _) |- _ => apply l_cid in H
  | H : shown (o_addr _) = shown (o_addr _) |- _ => apply l_addr in H
  | H : shown (o_arith _) = shown (o_arith _) |- _ => apply l_arith in H
  | H : shown (o_offset _) = shown (o_offset _) |- _ => apply l_offset in H
  | H : shown (o_length _) = shown (o_length _) |- _ => apply l_length in H
  end.
Ltac same_record := repeat match goal with
  | H : forall k, field k _ = field k _ |- _ => clear H
  | H : shown _ = shown _ |- _ => clear H end;
  match goal with |- ?a = ?b => destruct a, b; cbn in *; congruence end.
Lemma l_status : lossless o_status.
Proof.
  intros a b H. split_fields H. at_key "channel_id". at_key "rx_level". at_key "link_budget". at_key "target_rx_level".
  at_key "nls". at_key "missed". at_key "retry". at_key "unicast". at_key "fifo_token". at_key "seq_nr".
  at_key "response_to". at_key "addressee". ints. subs. same_record.
Qed.
Lemma l_ap : lossless o_ap.
Proof.
  intros [h1 p1 b1] [h2 p2 b2] H. split_fields H. at_key "channel_header". at_key "sub_profiles". at_key "sub_bands".
  cbn [ap_header ap_profiles ap_bands] in *. f_equal; [apply l_ch; assumption | | ].
  - apply (objs_inj o_subprofile); [intros; exact I | apply l_subprofile | assumption].
  - apply (objs_inj o_subband); [intros; exact I | apply l_subband | assumption].
Qed.
Lemma l_data : lossless o_data.
Proof.
  intros [o1 l1 d1] [o2 l2 d2] H. split_fields H. at_key "offset". at_key "data". at_key "length".
  ints. cbn [d_offset d_data d_length] in *. f_equal; [apply l_offset | apply l_length | ]; assumption.
Qed.
Lemma l_query : lossless o_query.
Proof.
  intros a b H. split_fields H. at_key "type". at_key "mask_present". at_key "params". at_key "compare_length".
  at_key "compare_value". at_key "file_a_offset". ints. enums. subs. same_record.
Qed.
Lemma l_ifconfig : lossless o_ifconfig.
Proof.
  intros [a|a|a] [b|b|b] H; try discriminate H; cbn [o_ifconfig] in H; f_equal; [apply l_conf | apply l_abp | apply l_otaa]; exact H.
Qed.
Lemma ifconfig_obj c : is_obj (o_ifconfig c). Proof. destruct c; exact I. Qed.
Ltac opt_key k := match goal with F : forall k, field k _ = field k _ |- _ =>
  pose proof (field_eq k _ _ _ _ F eq_refl eq_refl); repeat match goal with
  | H : no_class (p_opt ?f ?o) -> _ |- _ => specialize (H (opt_no_class f o ltac:(intros x; first [exact I | apply obj_no_class, ifconfig_obj])))
  end end.
Lemma l_ic : lossless o_ic.
Proof.
  intros [i1 c1] [i2 c2] H. split_fields H. at_key "interface_id". opt_key "interface_configuration".
  ints. cbn [ic_id ic_conf] in *. enums. f_equal. apply (opt_inj o_ifconfig); [apply ifconfig_obj | apply l_ifconfig | assumption].
Qed.
Lemma l_iso : lossless o_iso.
Proof.
  intros [i1 c1] [i2 c2] H. split_fields H. at_key "interface_id". opt_key "interface_status".
  ints. cbn [iso_id iso_status] in *. f_equal; [assumption|]. apply (opt_inj o_status); [intros; exact I | apply l_status | assumption].
Qed.
Lemma l_indirect : lossless o_indirect.
Proof.
  intros [i1 c1] [i2 c2] H. split_fields H. at_key "interface_file_id". opt_key "interface_configuration_overload".
  ints. cbn [ii_file ii_overload] in *. f_equal; [assumption|]. apply (opt_inj o_addr); [intros; exact I | apply l_addr | assumption].
Qed.

(** *** system files *)
Lemma rates l m k : length l = k -> length m = k -> (forall n, (n < k)%nat -> nth n l 0 = nth n m 0) -> l = m.
Proof. intros L M H. apply nth_ext with (d := 0) (d' := 0); [congruence|]. intros n K. apply H. lia. Qed.
Lemma l_file a b : exportable a -> exportable b -> shown (o_file a) = shown (o_file b) -> a = b.
Proof.
  intros A B. destruct a as [a|a|a|a|a|a|a|a|a|a|a|a|i a|a], b as [b|b|b|b|b|b|b|b|b|b|b|b|j b|b];
    try contradiction; intros H;
    try (apply (f_equal (fun v => child v (Attr "__CLASS__"))) in H; cbn [o_file shown] in H; rewrite !as_dict_obj in H; discriminate H);
    cbn [o_file] in H.
  - split_fields H. at_key "uid". ints. f_equal. same_record.
  - split_fields H. destruct A as (A1 & A2 & A3), B as (B1 & B2 & B3).
    at_key "gain". at_key "rssi_smoothing". at_key "rssi_offset". at_key "lora_bw". at_key "lora_SF". at_key "gaussian". at_key "paramp".
    at_key "rx_bw_low_rate". at_key "rx_bw_normal_rate". at_key "rx_bw_high_rate". at_key "bitrate_lo_rate". at_key "fdev_lo_rate".
    at_key "bitrate_normal_rate". at_key "fdev_normal_rate". at_key "bitrate_hi_rate". at_key "fdev_hi_rate".
    at_key "preamble_size_lo_rate". at_key "preamble_size_normal_rate". at_key "preamble_size_hi_rate".
    at_key "preamble_detector_size_lo_rate". at_key "preamble_detector_size_normal_rate". at_key "preamble_detector_size_hi_rate".
    at_key "preamble_tol_lo_rate". at_key "preamble_tol_normal_rate". at_key "preamble_tol_hi_rate".
    unfold rate in *. ints. clear H.
    assert (fs_rates a = fs_rates b).
    { apply rates with (k := 9%nat); [exact A1 | exact B1|]. intros n K. do 9 (destruct n as [|n]; [assumption|]). lia. }
    assert (fs_pre a = fs_pre b).
    { apply rates with (k := 6%nat); [exact A2 | exact B2|]. intros n K. do 6 (destruct n as [|n]; [assumption|]). lia. }
    assert (fs_tol a = fs_tol b).
    { apply rates with (k := 3%nat); [exact A3 | exact B3|]. intros n K. do 3 (destruct n as [|n]; [assumption|]). lia. }
    clear A1 A2 A3 B1 B2 B3. repeat match goal with H : nth _ _ _ = nth _ _ _ |- _ => clear H end. f_equal. same_record.
  - split_fields H. at_key "d7a_protocol_version_major". at_key "d7a_protocol_version_minor". at_key "filesystem_version_major".
    at_key "filesystem_version_minor". at_key "application_name". at_key "git_sha1". ints. f_equal. same_record.
  - split_fields H. at_key "mode". at_key "flags". at_key "timeout". at_key "channel_id". at_key "eirp". ints. enums. subs. f_equal. same_record.
  - split_fields H. at_key "vid". at_key "control". ints. f_equal. same_record.
  - split_fields H. at_key "up_time". at_key "rx_time". at_key "tx_time". at_key "tx_duty_cycle". at_key "channel_status_list_length".
    at_key "channel_status_identifier". at_key "channel_noise_floor". ints.
    assert (ps_ids a = ps_ids b) by (apply (objs_inj o_csi); [intros; exact I | apply l_csi | assumption]). f_equal. same_record.
  - split_fields H. at_key "active_access_class". at_key "lq_filter". at_key "nf_ctrl". at_key "rx_nf_method_parameter".
    at_key "tx_nf_method_parameter". ints. f_equal. same_record.
  - split_fields H. at_key "last_rx_packet_level". at_key "last_rx_packet_link_budget". at_key "noise_floor". at_key "channel_header".
    at_key "channel_index". at_key "scan_timeout_ratio". at_key "scan_count". at_key "scan_timeout_count". ints. subs. f_equal. same_record.
  - split_fields H. at_key "key". ints. f_equal. same_record.
  - split_fields H. at_key "key". ints. f_equal. same_record.
  - split_fields H. at_key "key". ints. f_equal. same_record.
  - split_fields H. at_key "access_specifier". opt_key "access_profile". ints.
    assert (apf_profile a = apf_profile b) by (apply (opt_inj o_ap); [intros; exact I | apply l_ap | assumption]). f_equal. same_record.
  - assert (Na : exists n, icf_length a = Ok n).
    { destruct A as [A1 A2]. unfold icf_length. destruct (ic_id (icf_conf a)); try contradiction; try congruence; eexists; reflexivity. }
    assert (Nb : exists n, icf_length b = Ok n).
    { destruct B as [B1 B2]. unfold icf_length. destruct (ic_id (icf_conf b)); try contradiction; try congruence; eexists; reflexivity. }
    destruct Na as [n Na], Nb as [m Nb]. rewrite Na, Nb in H. split_fields H. at_key "interface_configuration". at_key "id".
    ints.
    assert (icf_conf a = icf_conf b) by (apply l_ic; assumption). clear Na Nb. f_equal. same_record.
Qed.

(** *** operations, actions, commands *)
Lemma l_operation a b : constructed_op a -> constructed_op b -> shown (o_operation a) = shown (o_operation b) -> a = b.
Proof.
  intros A B H. destruct a, b;
    try (apply (f_equal (fun v => child v (Attr "__CLASS__"))) in H; cbn [o_operation shown] in H; rewrite !as_dict_obj in H; discriminate H);
    cbn [o_operation] in H; try reflexivity; split_fields H; at_key "operand"; f_equal;
    try (apply l_dr; assumption); try (apply l_fid; assumption); try (apply l_data; assumption); try (apply l_fho; assumption);
    try (apply l_query; assumption); try (apply l_iso; assumption); try (apply l_tag; assumption); try (apply l_ic; assumption);
    try (apply l_indirect; assumption).
  cbn [constructed_op] in A, B. rewrite A, B. f_equal. apply l_data. assumption.
Qed.
Lemma operation_obj o : is_obj (o_operation o). Proof. destruct o; exact I. Qed.
Lemma l_action a b : constructed_op (a_op a) -> constructed_op (a_op b) -> shown (o_action a) = shown (o_action b) -> a = b.
Proof.
  intros A B H. destruct a as [k o], b as [k' o']. cbn [a_op] in A, B. unfold o_action in H. cbn [a_kind a_op] in H.
  pose proof (obj_no_class _ (operation_obj o)) as N. pose proof (obj_no_class _ (operation_obj o')) as N'.
  assert (O : o = o').
  { apply l_operation; [exact A | exact B|].
    destruct k, k'; try (apply (f_equal (fun v => child v (Attr "__CLASS__"))) in H; cbn [shown] in H; rewrite !as_dict_obj in H; discriminate H);
      split_fields H; exact (field_eq "operation" _ _ _ _ H eq_refl eq_refl N N'). }
  subst o'. f_equal.
  destruct k, k'; try (apply (f_equal (fun v => child v (Attr "__CLASS__"))) in H; cbn [shown] in H; rewrite !as_dict_obj in H; discriminate H);
    split_fields H.
  - at_key "group". at_key "resp". ints. congruence.
  - at_key "resp". ints. congruence.
  - at_key "overload". at_key "resp". ints. congruence.
  - at_key "status_operand_extension". ints. congruence.
  - at_key "respond_when_completed". ints. congruence.
  - at_key "eop". at_key "error". ints. congruence.
Qed.
Lemma action_obj a : is_obj (o_action a). Proof. unfold o_action. destruct (a_kind a); exact I. Qed.
Lemma actions_inj l : forall m, (forall a, In a l -> constructed_op (a_op a)) -> (forall a, In a m -> constructed_op (a_op a)) ->
  shown (PList (map o_action l)) = shown (PList (map o_action m)) -> l = m.
Proof.
  cbn [shown]. induction l as [|x l IH]; intros [|y m] C D H; try discriminate; [reflexivity|].
  cbn [map] in H. injection H as H1 H2. f_equal.
  - apply l_action; [apply C; left; reflexivity | apply D; left; reflexivity |].
    pose proof (action_obj x) as Ox. pose proof (action_obj y) as Oy. destruct (o_action x), (o_action y); try contradiction. exact H1.
  - apply IH; [intros; apply C; right; assumption | intros; apply D; right; assumption |]. f_equal. exact H2.
Qed.
Lemma l_command a b : constructed a -> constructed b -> shown (o_command a) = shown (o_command b) -> a = b.
Proof.
  intros [A1 A2] [B1 B2] H. unfold o_command in H.
  apply fields in H as [_ H]; [| destruct (c_error a); reflexivity | destruct (c_error b); reflexivity].
  assert (E : c_error a = c_error b).
  { specialize (H "completed_with_error"). unfold field in H. destruct (c_error a), (c_error b); cbn in H; congruence. }
  at_key "actions". at_key "generate_tag_request_action". at_key "send_tag_response_when_completed". at_key "execution_completed".
  opt_key "tag_id". rename H4 into T.
  assert (NA : forall x, no_class (o_action x)) by (intros x; apply obj_no_class, action_obj).
  pose proof (field_eq "interface_status" _ _ _ _ H eq_refl eq_refl (opt_no_class _ _ NA) (opt_no_class _ _ NA)) as S.
  ints. clear H. apply actions_inj in H0; [|assumption|assumption].
  assert (T' : c_tag a = c_tag b) by (destruct (c_tag a), (c_tag b); cbn in T; congruence).
  assert (S' : c_status a = c_status b).
  { destruct (c_status a) as [x|], (c_status b) as [y|]; cbn [p_opt] in S.
    - f_equal. apply l_action; auto.
    - pose proof (action_obj x). destruct (o_action x); try contradiction. discriminate.
    - pose proof (action_obj y). destruct (o_action y); try contradiction. discriminate.
    - reflexivity. }
  clear A1 A2 B1 B2. same_record.
Qed.

(** *** frames *)
Lemma l_tpc : lossless o_tpc.
Proof. intros [] [] H. cbn in H. injection H; intros; subst. reflexivity. Qed.
Lemma l_npc : lossless o_npc.
Proof. intros [] [] H. cbn in H. injection H; intros; enums; subst. reflexivity. Qed.
Lemma l_fgc : lossless o_fgc.
Proof. intros [] [] H. cbn in H. injection H; intros; enums; subst. reflexivity. Qed.
Lemma l_bgc : lossless o_bgc.
Proof. intros [] [] H. cbn in H. injection H; intros; enums; subst. reflexivity. Qed.
Lemma l_tp a b : constructed (tf_cmd a) -> constructed (tf_cmd b) -> shown (o_tp a) = shown (o_tp b) -> a = b.
Proof.
  intros A B H. split_fields H. at_key "control". at_key "dialog_id". at_key "transaction_id". at_key "agc_rx_level_i".
  opt_key "tl". opt_key "te". opt_key "tc". opt_key "ack_template". at_key "alp_command". ints.
  assert (CI : lossless (p_opt o_ct)) by (apply opt_inj; [intros; exact I | apply l_ct]).
  apply CI in H4, H5, H6.
  assert (tf_ack a = tf_ack b) by (destruct (tf_ack a) as [[u v]|], (tf_ack b) as [[u' v']|]; cbn in H7; congruence).
  assert (tf_control a = tf_control b) by (apply l_tpc; assumption).
  assert (tf_cmd a = tf_cmd b) by (apply l_command; assumption). clear A B. same_record.
Qed.
Lemma l_frame a b : frame_constructed a -> frame_constructed b -> shown (o_frame a) = shown (o_frame b) -> a = b.
Proof.
  intros A B H. destruct a as [a|a], b as [b|b]; try discriminate H; cbn [o_frame] in H; split_fields H; f_equal.
  - specialize (A _ eq_refl). specialize (B _ eq_refl).
    at_key "length". at_key "subnet". at_key "control". at_key "target_address". at_key "d7anp_frame". at_key "crc16". ints. clear H.
    assert (N : ff_np a = ff_np b).
    { match goal with H : shown (o_np _) = _ |- _ => rename H into N end. split_fields N.
      at_key "control". at_key "origin_access_class". at_key "origin_access_id". at_key "d7atp_frame". ints.
      assert (nf_tp (ff_np a) = nf_tp (ff_np b)) by (apply l_tp; assumption).
      assert (nf_control (ff_np a) = nf_control (ff_np b)) by (apply l_npc; assumption).
      clear A B. same_record. }
    assert (C : ff_control a = ff_control b) by (apply l_fgc; assumption).
    clear A B. same_record.
  - at_key "subnet". at_key "control". at_key "payload". at_key "crc16". ints.
    assert (C : bf_control a = bf_control b) by (apply l_bgc; assumption).
    clear A B. same_record.
Qed.

(** ** The theorems *)
Lemma command_shown c : as_dict (o_command c) = shown (o_command c). Proof. reflexivity. Qed.
Lemma frame_shown f : as_dict (o_frame f) = shown (o_frame f). Proof. destruct f; reflexivity. Qed.
Lemma file_shown f : (forall i n, f <> F_NotImpl i n) -> as_dict (o_file f) = shown (o_file f).
Proof. intros N. destruct f; try reflexivity. Qed.
Lemma obj_no_is_class c a : ~ is_class (PObj c a). Proof. intros [n N]. discriminate. Qed.
Lemma constructed_plain c : constructed c -> plain_data (as_dict (o_command c)) = true.
Proof. intros C. rewrite command_shown. apply tidy_shown_plain; [apply t_command, C | apply obj_no_is_class]. Qed.
Lemma built_plain rnd actions gen tag resp c : (forall a, In (Some a) actions -> constructed_op (a_op a)) ->
  mk_command rnd actions gen tag resp = Ok c -> plain_data (as_dict (o_command c)) = true.
Proof.
  intros F H. apply constructed_plain. eapply mk_command_constructed; [|exact H].
  apply Forall_forall. intros [a|] I; cbn; auto.
Qed.
Lemma parsed_plain n s c s' : alp_parse n s = Ok (c, s') -> plain_data (as_dict (o_command c)) = true.
Proof. intros H. apply constructed_plain. eapply post_alp; exact H. Qed.
Lemma frame_plain fg s f s' : dframe_parse fg s = Ok (f, s') -> plain_data (as_dict (o_frame f)) = true.
Proof.
  intros H. rewrite frame_shown. apply tidy_shown_plain; [apply t_frame; eapply post_frame; exact H|].
  destruct f; apply obj_no_is_class.
Qed.
Lemma file_plain f : (forall i n, f <> F_NotImpl i n) -> plain_data (as_dict (o_file f)) = true.
Proof.
  intros H. rewrite file_shown by exact H. apply tidy_shown_plain; [apply t_file, H|]. destruct f; intros [n N]; discriminate.
Qed.
Lemma command_forth c : constructed c -> forall path x, reach (o_command c) path = Some x -> ~ is_class x ->
  reach (as_dict (o_command c)) path = Some (shown x).
Proof. intros C path x. rewrite command_shown. apply path_forth, t_command, C. Qed.
Lemma command_back c : constructed c -> forall path y, reach (as_dict (o_command c)) path = Some y ->
  (exists x, reach (o_command c) path = Some x /\ ~ is_class x /\ y = shown x)
  \/ (exists p cls attrs, path = (p ++ [Attr "__CLASS__"])%list /\ reach (o_command c) p = Some (PObj cls attrs) /\ y = PName cls).
Proof. intros C path y. rewrite command_shown. apply path_back; [apply t_command, C | apply obj_no_is_class]. Qed.
Lemma frame_forth fg s f s' : dframe_parse fg s = Ok (f, s') -> forall path x, reach (o_frame f) path = Some x -> ~ is_class x ->
  reach (as_dict (o_frame f)) path = Some (shown x).
Proof. intros H path x. rewrite frame_shown. apply path_forth, t_frame. eapply post_frame; exact H. Qed.
Lemma frame_back fg s f s' : dframe_parse fg s = Ok (f, s') -> forall path y, reach (as_dict (o_frame f)) path = Some y ->
  (exists x, reach (o_frame f) path = Some x /\ ~ is_class x /\ y = shown x)
  \/ (exists p cls attrs, path = (p ++ [Attr "__CLASS__"])%list /\ reach (o_frame f) p = Some (PObj cls attrs) /\ y = PName cls).
Proof.
  intros H path y. rewrite frame_shown. apply path_back; [apply t_frame; eapply post_frame; exact H | destruct f; apply obj_no_is_class].
Qed.
Lemma file_forth f : (forall i n, f <> F_NotImpl i n) -> forall path x, reach (o_file f) path = Some x -> ~ is_class x ->
  reach (as_dict (o_file f)) path = Some (shown x).
Proof. intros H path x. rewrite file_shown by exact H. apply path_forth, t_file, H. Qed.
Lemma file_back f : (forall i n, f <> F_NotImpl i n) -> forall path y, reach (as_dict (o_file f)) path = Some y ->
  (exists x, reach (o_file f) path = Some x /\ ~ is_class x /\ y = shown x)
  \/ (exists p cls attrs, path = (p ++ [Attr "__CLASS__"])%list /\ reach (o_file f) p = Some (PObj cls attrs) /\ y = PName cls).
Proof.
  intros H path y. rewrite file_shown by exact H. apply path_back; [apply t_file, H | destruct f; intros [n N]; discriminate].
Qed.
Lemma command_lossless c d : constructed c -> constructed d -> as_dict (o_command c) = as_dict (o_command d) -> c = d.
Proof. rewrite !command_shown. apply l_command. Qed.
Lemma frame_lossless fg fg' s s' f f' r r' : dframe_parse fg s = Ok (f, r) -> dframe_parse fg' s' = Ok (f', r') ->
  as_dict (o_frame f) = as_dict (o_frame f') -> f = f'.
Proof. intros A B. apply post_frame in A, B. rewrite !frame_shown. apply l_frame; assumption. Qed.
Lemma file_lossless f g : exportable f -> exportable g -> as_dict (o_file f) = as_dict (o_file g) -> f = g.
Proof.
  intros A B. rewrite !file_shown; [apply l_file; assumption | |]; intros i n ->; contradiction.
Qed.
Lemma nested_refuted :
  ~ (forall cls attrs, (forall k x, In (k, x) attrs -> ~ is_class x) -> plain_data (as_dict (PObj cls attrs)) = true).
Proof.
  intros H. specialize (H "A" [("x", PList [PList [PObj "CT" []]])]).
  assert (X : plain_data (as_dict (PObj "A" [("x", PList [PList [PObj "CT" []]])])) = true).
  { apply H. intros k x [[= <- <-]|[]] [n N]. discriminate. }
  vm_compute in X. discriminate.
Qed.
Lemma as_dict_case : exists c s', alp_parse 8 (stream_of [32; 64; 0; 4; 0; 0; 0; 1]) = Ok (c, s')
    /\ constructed c
    /\ reach (as_dict (o_command c)) [Attr "actions"; Index 0; Attr "operation"; Attr "operand"; Attr "offset"; Attr "id"] = Some (PInt 64)
    /\ reach (as_dict (o_command c)) [Attr "actions"; Index 0; Attr "__CLASS__"] = Some (PName "RegularAction")
    /\ reach (o_command c) [Attr "actions"; Index 0; Attr "operation"; Attr "operand_class"] = Some (PClass "Data")
    /\ reach (as_dict (o_command c)) [Attr "actions"; Index 0; Attr "operation"; Attr "operand_class"] = None.
Proof.
  destruct (alp_parse 8 (stream_of [32; 64; 0; 4; 0; 0; 0; 1])) as [[c s']|e] eqn:E.
  - exists c, s'. split; [reflexivity|]. split; [eapply post_alp; exact E|].
    vm_compute in E. injection E as <- <-. repeat split; vm_compute; reflexivity.
  - vm_compute in E. discriminate.
Qed.
