From Coq Require Import String.
From Verif Require Import LBits LBytes LAction LCommand LTraffic LSend LSerialProps LModem LConnect LTypes LReser LSp LOta LPrograms LThroughput SPush.

Lemma pack2 v : pack_be 2 v = if (0 <=? v) && (v <=? 65535) then Ok (word_bytes v) else Err StructError.
Proof.
  unfold pack_be. change (2 ^ (8 * Z.of_nat 2)) with 65536. destruct ((0 <=? v) && (v <? 65536)) eqn:E.
  - replace ((0 <=? v) && (v <=? 65535)) with true by lia. f_equal. cbn. unfold word_bytes.
    rewrite Z.div_1_r, (Z.mod_small (v / 256)); [reflexivity|]. pose proof (Z.div_mod v 256). pose proof (Z.mod_pos_bound v 256). lia.
  - replace ((0 <=? v) && (v <=? 65535)) with false by lia. reflexivity.
Qed.
Definition query_cmd (hi lo : Z) : Command :=
  mkCommand [mkAction (Regular false false) (BreakQuery (mkQuery Q_COMP_VALUE false (mkArith false C_GT) (mkLength 2) [hi; lo] (mkOffset 64 (mkLength 0))));
             mkAction (Regular false false) (ReadFileData (mkDataRequest (mkOffset 64 (mkLength 0)) (mkLength 2)))] None false None true false None.
Lemma word_is_bytes v : 0 <= v <= 65535 -> is_byte (v / 256) /\ is_byte (v mod 256).
Proof. intro B. unfold is_byte. pose proof (Z.div_mod v 256). pose proof (Z.mod_pos_bound v 256). lia. Qed.
Lemma push_query_eq len v : push_query len v =
  if (0 <=? v) && (v <=? 65535)
  then let! d := data_request_of len (mkOffset 64 (mkLength 0)) in
       Ok (mkCommand (firstn 1 (c_actions (query_cmd (v / 256) (v mod 256))) ++ [mkAction (Regular false false) (ReadFileData d)]) None false None true false None)
  else Err StructError.
Proof.
  unfold push_query. rewrite pack2. change (mk_command 0 [] false None true) with (Ok (mkCommand [] None false None true false None)).
  change (mk_length 2) with (Ok (mkLength 2)). cbn [rbind].
  destruct ((0 <=? v) && (v <=? 65535)) eqn:E; cbn [rbind]; [|reflexivity].
  destruct (word_is_bytes v) as [B1 B2]; [lia|].
  change (mk_length 0) with (Ok (mkLength 0)). cbn [rbind]. change (mk_offset 64 (mkLength 0)) with (Ok (mkOffset 64 (mkLength 0))). cbn [rbind].
  unfold mk_query. rewrite validated_ok; [|unfold word_bytes; cbn [forallb]; unfold is_byte in *; ranges].
  destruct len as [z|l]; [|reflexivity]. cbn [data_request_of]. destruct (mk_data_request z _); reflexivity.
Qed.
Lemma push_query_int v : 0 <= v <= 65535 -> push_query (LengthInt 2) v = Ok (query_cmd (v / 256) (v mod 256)).
Proof. intro B. rewrite push_query_eq. replace ((0 <=? v) && (v <=? 65535)) with true by lia. reflexivity. Qed.
Lemma query_ser_eq hi lo : is_byte hi -> is_byte lo -> command_ser (query_cmd hi lo) = Ok [9; 68; 2; hi; lo; 64; 0; 1; 64; 0; 2].
Proof.
  intros H L. assert (Y : yields [hi; lo] = Ok [hi; lo]) by (apply yields_ok; constructor; [exact H | constructor; [exact L | constructor]]).
  unfold query_cmd. cbv -[yields]. rewrite Y. reflexivity.
Qed.
Definition push_cmd (rnd hi lo : Z) : Command :=
  mkCommand [mkAction (Regular false false) (Forward (mkIC IF_D7ASP (Some (CfgD7 (mkConf (mkQoS RESP_ALL RETRY_NO false false) (mkCT 0 0) (mkAddr 17 NBID (IdCT (mkCT 0 3)) NLS_NONE))))));
             write_act 65 [9; 68; 2; hi; lo; 64; 0; 1; 64; 0; 2]; write_act 66 push_interface_bytes;
             mkAction (Regular false false) (WriteFileHeader (mkFHO 64 (mkFH (mkPerm false false true true true true true true) (mkProp true AC_WRITE TRANSIENT) 65 66 2 2)))]
            None true (Some rnd) true false None.
Lemma push_write_ok id bs : 0 <= id <= 255 -> Forall is_byte bs -> zlen bs <= 255 -> push_write id (Ok bs) = Ok (write_act id bs).
Proof.
  intros I F L. unfold push_write. change (mk_length 0) with (Ok (mkLength 0)). cbn [rbind]. unfold mk_offset.
  rewrite validated_ok by ranges. cbn [rbind].
  assert (O : 0 <= 0 <= len_max) by (unfold len_max; lia).
  destruct (data_args id 0 bs I O F ltac:(unfold len_max; lia)) as [_ E']. rewrite E'. reflexivity.
Qed.
Lemma push_eq rnd v : 0 <= v <= 65535 -> push_command rnd (LengthInt 2) v = Ok (push_cmd rnd (v / 256) (v mod 256)).
Proof.
  intro B. destruct (word_is_bytes v B) as [B1 B2]. unfold push_command. rewrite push_query_int by exact B.
  cbn [rbind]. change push_interface with (Ok (mkIC IF_D7ASP (Some (CfgD7 (mkConf (mkQoS RESP_NO RETRY_NO false false) (mkCT 0 0) (mkAddr 1 NOID IdNone NLS_NONE)))))).
  cbn [rbind]. change (ic_ser _) with (Ok push_interface_bytes).
  change (mk_command rnd [] true None true) with (Ok (mkCommand [] None true (Some rnd) true false None)). cbn [rbind].
  change (ct_compress 3 true) with (Ok (Some (mkCT 0 3))). cbn [rbind].
  change (mk_addr 17 NBID (IdCT (mkCT 0 3)) NLS_NONE) with (Ok (mkAddr 17 NBID (IdCT (mkCT 0 3)) NLS_NONE)). cbn [rbind add_forward_action mk_action validated].
  rewrite query_ser_eq by assumption. rewrite push_write_ok; [|lia| |vm_compute; discriminate].
  2:{ repeat (constructor; [first [assumption | unfold is_byte; lia]|]). constructor. }
  rewrite push_write_ok; [|lia| |vm_compute; discriminate].
  2:{ unfold push_interface_bytes. repeat (constructor; [unfold is_byte; lia|]). constructor. }
  reflexivity.
Qed.
Lemma push_err rnd len v : ~ (0 <= v <= 65535) -> push_command rnd len v = Err StructError.
Proof. intro B. unfold push_command. rewrite push_query_eq. replace ((0 <=? v) && (v <=? 65535)) with false by lia. reflexivity. Qed.
Lemma push_obj rnd l v : 0 <= v <= 65535 -> push_command rnd (LengthObject l) v = Err ValueError.
Proof. intro B. unfold push_command. rewrite push_query_eq. replace ((0 <=? v) && (v <=? 65535)) with true by lia. reflexivity. Qed.
Lemma push_ser rnd hi lo : is_byte rnd -> is_byte hi -> is_byte lo ->
  command_ser (push_cmd rnd hi lo) = Ok ([180; rnd] ++ [50; 215; 1; 0; 0; 17; 3] ++ [4; 65; 0; 11] ++ [9; 68; 2; hi; lo; 64; 0; 1; 64; 0; 2]
  ++ [4; 66; 0; 5] ++ push_interface_bytes ++ [6; 64] ++ sensor_header).
Proof.
  intros R H L. assert (Y : yields [9; 68; 2; hi; lo; 64; 0; 1; 64; 0; 2] = Ok [9; 68; 2; hi; lo; 64; 0; 1; 64; 0; 2]).
  { apply yields_ok. repeat (constructor; [first [assumption | unfold is_byte; lia]|]). constructor. }
  assert (Y1 : yield1 rnd = Ok [rnd]) by (unfold yield1; unfold is_byte in R; replace ((0 <=? rnd) && (rnd <=? 255)) with true by lia; reflexivity).
  assert (T : mk_tag rnd = Ok (mkTag rnd)). { unfold mk_tag. apply validated_ok. unfold is_byte in R. ranges. }
  unfold command_ser. cbn [c_generate c_tag c_respond c_status c_actions push_cmd]. rewrite T. cbn [rbind].
  unfold push_cmd. cbv -[yields yield1]. rewrite Y. cbv -[yield1]. rewrite Y1. cbv. reflexivity.
Qed.
Lemma push_built rnd len v c : push_command rnd len v = Ok c -> 0 <= v <= 65535.
Proof. intro E. destruct (Z_le_dec 0 v), (Z_le_dec v 65535); try lia; rewrite push_err in E by lia; discriminate. Qed.
Lemma push_bytes_ok rnd v : is_byte rnd -> 0 <= v <= 65535 -> exists c, push_command rnd (LengthInt 2) v = Ok c /\ command_ser c = Ok (push_bytes rnd v).
Proof.
  intros R B. destruct (word_is_bytes v B) as [B1 B2]. eexists. split; [apply push_eq; exact B|]. rewrite push_ser by assumption. reflexivity.
Qed.
Lemma push_built_iff rnd len v : (exists c, push_command rnd len v = Ok c) -> 0 <= v <= 65535.
Proof. intros [c E]. exact (push_built _ _ _ _ E). Qed.
Lemma push_as_written lib s rnd v es :
  push_program lib s rnd push_length v es = (s, [], Err (if (0 <=? v) && (v <=? 65535) then ValueError else StructError)).
Proof.
  unfold push_program, push_length. destruct ((0 <=? v) && (v <=? 65535)) eqn:E.
  - rewrite push_obj by lia. reflexivity.
  - rewrite push_err by lia. reflexivity.
Qed.
Lemma length_object_refused : MSchema.construct MSchema.C_Length [MSchema.VObject "Length"%string] = false.
Proof. reflexivity. Qed.
Lemma push_payload rnd v : is_byte rnd -> 0 <= v <= 65535 -> is_payload (push_bytes rnd v).
Proof.
  intros R B. destruct (word_is_bytes v B) as [B1 B2]. split; [|vm_compute; discriminate].
  unfold push_bytes, threshold_action, word_bytes, push_interface_bytes, sensor_header. cbn [app].
  repeat (constructor; [first [assumption | unfold is_byte; lia]|]). constructor.
Qed.
Lemma push_sends lib s rnd v es : usable_session s -> is_byte rnd -> 0 <= v <= 65535 ->
  exists s' ids e, push_program lib s rnd (LengthInt 2) v es = (s', ids, e)
  /\ se_sent s' = se_sent s ++ frame (sp_up (r_parser (se_reader s))) 1 (push_bytes rnd v)
  /\ push_report (execute_result s') = (ids, e).
Proof.
  intros [U K] R B. destruct (push_bytes_ok rnd v R B) as (c & E & Sr). unfold push_program. rewrite E.
  rewrite (execute_ok s c _ 30 U Sr (push_payload rnd v R B)).
  match goal with |- context [fold_left (device lib) es ?s1] => destruct (devices_keep lib es s1) as (_ & _ & Sn); unfold devices in Sn; set (s2 := fold_left (device lib) es s1) in * end.
  destruct (push_report (execute_result s2)) as [ids e] eqn:P. exists s2, ids, e. refine (conj eq_refl (conj _ P)). exact Sn.
Qed.
(** ** The node *)
Lemma push_files rnd v c file : push_command rnd (LengthInt 2) v = Ok c ->
  node_receives 65 file c = threshold_action v ++ skipn 11 file
  /\ node_receives 66 file c = push_interface_bytes ++ skipn 5 file
  /\ forall id, id <> 65 -> id <> 66 -> node_receives id file c = file.
Proof.
  intro E. pose proof (push_built _ _ _ _ E) as B. rewrite push_eq in E by exact B. injection E as <-.
  unfold node_receives, push_cmd, write_act. cbn [c_actions fold_left node_write a_op d_offset d_data off_id off_offset len_value].
  split; [reflexivity|]. split; [reflexivity|]. intros id N1 N2.
  replace (65 =? id) with false by lia. replace (66 =? id) with false by lia. reflexivity.
Qed.
Lemma be_word v : 0 <= v <= 65535 -> be_number (word_bytes v) = v.
Proof. intro B. unfold be_number, word_bytes. cbn [fold_left]. pose proof (Z.div_mod v 256). lia. Qed.
Lemma query_cmd_wf hi lo : is_byte hi -> is_byte lo -> command_wf (query_cmd hi lo).
Proof.
  intros H L. refine (conj _ (conj eq_refl (conj eq_refl _))); [|discriminate]. cbn [c_actions query_cmd].
  constructor; [|constructor; [|constructor]].
  - split; cbn [a_op a_kind op_wf sendable].
    + unfold query_wf, len_wf, off_wf, len_wf, len_max. cbn. refine (conj _ (conj _ _)); [lia | | lia].
      constructor; [exact H | constructor; [exact L | constructor]].
    + repeat split; reflexivity.
  - split; cbn [a_op a_kind op_wf sendable]; [|exact I]. unfold dr_wf, off_wf, len_wf, len_max. cbn. lia.
Qed.
Lemma threshold_parses v more : 0 <= v <= 65535 ->
  alp_parse 11 (stream_of (threshold_action v ++ more)) = Ok (command_received (query_cmd (v / 256) (v mod 256)), St 88 (bytes_bits more)).
Proof.
  intros B. destruct (word_is_bytes v B) as [B1 B2]. pose proof (query_cmd_wf _ _ B1 B2) as W.
  destruct (transmits_command _ W) as (bs & E & P & _). { vm_compute. discriminate. }
  pose proof (command_accepts _ W 0%nat (bytes_bits more) eq_refl) as A.
  change (command_bytes (query_cmd (v / 256) (v mod 256))) with 11 in A.
  assert (Lay : command_layout (query_cmd (v / 256) (v mod 256)) = bytes_bits (threshold_action v)).
  { destruct (command_emits _ W) as (bs' & E' & F' & L'). rewrite query_ser_eq in E' by assumption. injection E' as <-. rewrite <- L'. reflexivity. }
  rewrite Lay in A. unfold stream_of. rewrite bytes_bits_app. rewrite A. reflexivity.
Qed.
Lemma push_threshold rnd v c file : push_command rnd (LengthInt 2) v = Ok c ->
  exists action rest, alp_parse 11 (stream_of (node_receives 65 file c)) = Ok (action, rest)
  /\ forall files, node_answers files (c_actions action)
     = if v <? be_number (firstn 2 (files 64)) then [(64, firstn 2 (files 64))] else [].
Proof.
  intro E. pose proof (push_built _ _ _ _ E) as B. destruct (push_files _ _ _ file E) as (F & _).
  rewrite F, threshold_parses by exact B. eexists _, _. split; [reflexivity|]. intro files.
  unfold command_received, query_cmd. cbn [c_actions map action_received a_kind a_op node_answers].
  unfold query_holds, at_offset. cbn [q_params ar_signed ar_comp q_file_a q_compare_length q_compare_value off_offset len_value off_id dr_offset dr_length compares].
  change (be_number [v / 256; v mod 256]) with (be_number (word_bytes v)). rewrite be_word by exact B. change (Z.to_nat 0) with 0%nat. change (Z.to_nat 2) with 2%nat.
  cbn [skipn]. reflexivity.
Qed.
Lemma push_interface_file rnd v c file : push_command rnd (LengthInt 2) v = Ok c ->
  exists content, node_receives 66 file c = 215 :: content
  /\ parses conf_parse content (mkConf (mkQoS RESP_NO RETRY_NO false false) (mkCT 0 0) (mkAddr 1 NOID IdNone NLS_NONE)).
Proof.
  intro E. destruct (push_files _ _ _ file E) as (_ & F & _). rewrite F. eexists. split; [reflexivity|]. eexists.
  unfold stream_of. change (_ :: _ :: _ :: _ :: _) with ([0; 0; 16; 1] ++ skipn 5 file). rewrite bytes_bits_app.
  set (c0 := mkConf _ _ _). assert (W : conf_wf c0) by (unfold c0, conf_wf, addr_wf; cbn; unfold ct_wf; cbn; lia).
  pose proof (conf_accepts c0 W I 0%nat (bytes_bits (skipn 5 file))) as A.
  change (conf_layout c0) with (bytes_bits [0; 0; 16; 1]) in A. exact A.
Qed.
(** ** The responses *)
Lemma status_get r s : status_of r s -> get_d7asp_interface_status r = Ok (Some s).
Proof. intros (a & o & S & O & I & St). unfold get_d7asp_interface_status. rewrite S, O, I, St. reflexivity. Qed.
Lemma get_status r s : get_d7asp_interface_status r = Ok (Some s) -> status_of r s.
Proof.
  unfold get_d7asp_interface_status. destruct (c_status r) as [a|] eqn:S; [|discriminate]. destruct (a_op a) eqn:O; try discriminate.
  destruct (iso_id o =? 215) eqn:I; [|discriminate]. intro E. injection E as E. exists a, o. apply Z.eqb_eq in I. auto.
Qed.
Lemma report_ok rs ids : push_report rs = (ids, Ok tt) <-> reported rs ids.
Proof.
  split.
  - revert ids. induction rs as [|m rs IH]; intros ids E; cbn [push_report] in E; [injection E as <-; constructor|].
    destruct m as [| |r]; try discriminate. destruct (c_completed r) eqn:C; [apply reported_completed; auto|].
    destruct (get_d7asp_interface_status r) as [[s|]|] eqn:G; try discriminate.
    destruct (push_report rs) as [ids' e]. injection E as <- ->. apply reported_node; auto. apply get_status. exact G.
  - induction 1 as [|r rs ids C R IH|r s rs ids C S R IH]; cbn [push_report]; [reflexivity| |]; rewrite C; [exact IH|].
    rewrite (status_get _ _ S), IH. reflexivity.
Qed.
Lemma reported_unique rs ids ids' : reported rs ids -> reported rs ids' -> ids = ids'.
Proof. intros A B. apply report_ok in A, B. congruence. Qed.
Lemma report_stops rs ids r rest : reported rs ids -> c_completed r = false -> (forall s, ~ status_of r s) ->
  push_report (rs ++ MCmd r :: rest) = (ids, Err AttributeError).
Proof.
  intros R C N. induction R as [|r' rs ids C' R IH|r' s rs ids C' S R IH]; cbn [push_report app].
  - rewrite C. destruct (get_d7asp_interface_status r) as [[s|]|e] eqn:G.
    + exfalso. apply (N s). apply get_status. exact G.
    + reflexivity.
    + unfold get_d7asp_interface_status in G. destruct (c_status r) as [a|]; [|discriminate]. destruct (a_op a); try congruence.
  - rewrite C'. exact IH.
  - rewrite C', (status_get _ _ S), IH. reflexivity.
Qed.
(** ** query_nodes.py *)
Definition nodes_cmd (rnd : Z) : Command :=
  mkCommand [mkAction (Regular false false) (Forward (mkIC IF_D7ASP (Some (CfgD7 (mkConf (mkQoS RESP_ALL RETRY_NO false false) (mkCT 0 0) (mkAddr 17 NOID IdNone NLS_NONE))))));
             mkAction (Regular false false) (ReadFileData (mkDataRequest (mkOffset 64 (mkLength 0)) (mkLength 2)))] None true (Some rnd) true false None.
Lemma nodes_eq rnd : nodes_command rnd = Ok (nodes_cmd rnd).
Proof. reflexivity. Qed.
Lemma tagged_ser rnd acts bs : is_byte rnd -> rconcat (map action_ser acts) = Ok bs ->
  command_ser (mkCommand acts None true (Some rnd) true false None) = Ok ([180; rnd] ++ bs).
Proof.
  intros R E. unfold command_ser. cbn [c_generate c_tag c_respond c_status c_actions]. rewrite E.
  assert (Y1 : yield1 rnd = Ok [rnd]) by (unfold yield1; unfold is_byte in R; replace ((0 <=? rnd) && (rnd <=? 255)) with true by lia; reflexivity).
  unfold mk_tag. rewrite validated_ok by (unfold is_byte in R; ranges). cbn [rbind]. cbv -[yield1]. rewrite Y1. reflexivity.
Qed.
Lemma nodes_ser rnd : is_byte rnd -> command_ser (nodes_cmd rnd) = Ok (nodes_bytes rnd).
Proof. intro R. apply (tagged_ser rnd _ [50; 215; 1; 0; 16; 17; 1; 64; 0; 2] R). vm_compute. reflexivity. Qed.
Lemma nodes_logged_spec calls :
  (Forall not_completed calls -> nodes_logged calls = (calls, NodesListening))
  /\ (forall before c rest, Forall not_completed before -> calls = before ++ MCmd c :: rest -> c_completed c = true ->
        nodes_logged calls = (before ++ [MCmd c], NodesExited))
  /\ (forall before m rest, Forall not_completed before -> calls = before ++ m :: rest -> (forall c, m <> MCmd c) ->
        nodes_logged calls = (before ++ [m], NodesDeaf)).
Proof.
  refine (conj _ (conj _ _)).
  - induction 1 as [|m l (c & -> & C) F IH]; [reflexivity|]. cbn [nodes_logged]. rewrite C, IH. reflexivity.
  - intros before c rest F -> C. induction F as [|m l (c' & -> & C') F IH]; cbn [nodes_logged app]; [rewrite C; reflexivity|]. rewrite C', IH. reflexivity.
  - intros before m rest F -> C. induction F as [|m' l (c' & -> & C') F IH]; cbn [nodes_logged app]; [|rewrite C', IH; reflexivity].
    destruct m as [| |c]; [reflexivity | reflexivity | exfalso; apply (C c); reflexivity].
Qed.
Lemma fold_calls msgs : forall m, m_skip m = false -> m_has_cb m = true -> m_connected m = true -> m_tag m = None ->
  m_cb_calls (fold_left dispatch msgs m) = m_cb_calls m ++ called msgs.
Proof.
  induction msgs as [|[t x] msgs IH]; intros m S Cb Co Tg; cbn [fold_left]; [unfold called; cbn; rewrite app_nil_r; reflexivity|].
  assert (K : exists calls, m_cb_calls (dispatch m (t, x)) = m_cb_calls m ++ calls
    /\ calls = (if (t <=? 3) && negb (untagged x) then [x] else [])
    /\ m_skip (dispatch m (t, x)) = false /\ m_has_cb (dispatch m (t, x)) = true /\ m_connected (dispatch m (t, x)) = true /\ m_tag (dispatch m (t, x)) = None).
  { eexists. refine (conj _ (conj eq_refl _)).
    - unfold dispatch, is_response, untagged, dispatch_other. rewrite S, Cb, Co, Tg.
      destruct x as [| |c]; [| |destruct (c_tag c)]; destruct (t <=? 3) eqn:T3; cbn [negb andb tag_eqb m_cb_calls set_out set_sync];
        try reflexivity; try (symmetry; apply app_nil_r); destruct (t =? 5); try destruct (m_has_rbcb m); try destruct (t =? 4); cbn; symmetry; apply app_nil_r.
    - unfold dispatch, is_response, dispatch_other. rewrite S, Cb, Co, Tg.
      destruct x as [| |c]; [| |destruct (c_tag c)]; destruct (t <=? 3); cbn [negb andb tag_eqb]; try (cbn; auto; fail);
        destruct (t =? 5); try destruct (m_has_rbcb m); try destruct (t =? 4); cbn; auto. }
  destruct K as (calls & K1 & K2 & K3 & K4 & K5 & K6). rewrite IH by assumption. rewrite K1, <- app_assoc. f_equal.
  unfold called. cbn [filter fst snd]. rewrite K2. destruct ((t <=? 3) && negb (untagged x)); reflexivity.
Qed.
Lemma nodes_run s rnd msgs : usable_session s -> m_has_cb (r_modem (se_reader s)) = true -> m_connected (r_modem (se_reader s)) = true -> is_byte rnd ->
  exists s', nodes_program s rnd msgs = (s', Ok (nodes_logged (called msgs)))
  /\ se_sent s' = se_sent s ++ frame (sp_up (r_parser (se_reader s))) 1 (nodes_bytes rnd).
Proof.
  intros [U K] Cb Co R. unfold nodes_program. rewrite nodes_eq.
  assert (P : is_payload (nodes_bytes rnd)).
  { split; [|vm_compute; discriminate]. unfold nodes_bytes. repeat (constructor; [first [assumption | unfold is_byte; lia]|]). constructor. }
  rewrite (execute_ok s _ _ 0 U (nodes_ser rnd R) P). eexists. cbv zeta. cbn [se_reader r_modem]. split; [apply f_equal2; [reflexivity|]|reflexivity].
  f_equal. f_equal. rewrite fold_calls.
  - rewrite skipn_app, skipn_all, Nat.sub_diag. reflexivity.
  - unfold exec_start, set_sync. cbn. exact K.
  - exact Cb.
  - exact Co.
  - unfold exec_start. rewrite K. reflexivity.
Qed.
(** ** read_phy_status.py, send_lorawan.py *)
Lemma phy_status_sends rnd : is_byte rnd -> exists c, phy_status_command rnd = Ok c /\ command_ser c = Ok [180; rnd; 1; 9; 0; 45].
Proof.
  intro R. eexists. split; [vm_compute; reflexivity|]. apply (tagged_ser rnd _ [1; 9; 0; 45] R). vm_compute. reflexivity.
Qed.
Lemma lorawan_as_written rnd : lorawan_command rnd true otaa_given = Err TypeError /\ lorawan_command rnd false abp_given = Err TypeError.
Proof. split; reflexivity. Qed.
Lemma lorawan_corrected rnd : is_byte rnd ->
  (exists c, lorawan_command rnd true ["adr_enabled"; "request_ack"; "app_port"; "data_rate"]%string = Ok c /\ command_ser c = Ok [180; rnd; 50; 3; 0; 1; 0; 1; 64; 0; 8])
  /\ (exists c, lorawan_command rnd false ["adr_enabled"; "request_ack"; "app_port"; "data_rate"; "dev_addr"; "netw_id"]%string = Ok c /\ command_ser c = Ok [180; rnd; 50; 2; 0; 1; 0; 0; 17; 34; 51; 0; 0; 0; 23; 1; 64; 0; 8]).
Proof.
  intro R. split; eexists.
  - split; [vm_compute; reflexivity|]. eapply (tagged_ser rnd _ _ R). vm_compute. reflexivity.
  - split; [vm_compute; reflexivity|]. eapply (tagged_ser rnd _ _ R). vm_compute. reflexivity.
Qed.
Lemma keyword_call_iff params given : keyword_call params given = Ok tt <-> forall k, In k given <-> In k params.
Proof.
  unfold keyword_call.
  assert (M : forall a b : list string, forallb (fun k => existsb (String.eqb k) b) a = true <-> forall k, In k a -> In k b).
  { intros a b. rewrite forallb_forall. split; intros H k I; specialize (H k I).
    - apply existsb_exists in H as (x & Ix & E). apply String.eqb_eq in E. subst. exact Ix.
    - apply existsb_exists. exists k. split; [exact H | apply String.eqb_refl]. }
  destruct (forallb (fun k => existsb (String.eqb k) params) given && forallb (fun p => existsb (String.eqb p) given) params) eqn:E.
  - apply andb_true_iff in E as [E1 E2]. rewrite M in E1, E2. split; [|reflexivity]. intros _ k. split; auto.
  - split; [discriminate|]. intro H. apply andb_false_iff in E as [E|E]; [rewrite (proj2 (M _ _)) in E by apply H | rewrite (proj2 (M _ _)) in E by apply H]; discriminate.
Qed.
Lemma header_parses : parses fh_parse sensor_header (mkFH (mkPerm false false true true true true true true) (mkProp true AC_WRITE TRANSIENT) 65 66 2 2).
Proof. eexists. vm_compute. reflexivity. Qed.
Lemma push_parser_refuted : ~ (forall rnd v c bs, is_byte rnd -> push_command rnd (LengthInt 2) v = Ok c -> command_ser c = Ok bs ->
  exists r, parses (alp_parse (zlen bs)) bs r).
Proof.
  intro H. destruct (push_bytes_ok 7 300) as (c & E & Sr); [unfold is_byte; lia | lia|].
  destruct (H 7 300 c _ ltac:(unfold is_byte; lia) E Sr) as (r & rest & X). vm_compute in X. discriminate X.
Qed.
