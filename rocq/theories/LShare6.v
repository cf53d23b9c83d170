From Coq Require Import Lia.
From Verif Require Import MBase MCt MSp MOperands MAlp LBits LBuild.
From Verif Require Import SShare LShare LShare2 LShare3 LShare4 LShare5.
Local Open Scope nat_scope.

(** ** what a made command is later *)
Definition same_new (h h' g : Store) : Prop := forall k, length h <= k < length h' -> nth_error g k = nth_error h' k.

Lemma objs_later h t conf c0 D (o : nat -> OpRef) g cv ov :
  let n := length h in let m := n + S (length (fwd_objs n t conf)) in
  let h' := h ++ all_objs n t conf c0 D o in
  length (D m) = 4 -> same_new h h' g -> conf_arg g t conf cv -> (t = IF_HOST -> conf = None) -> c_actions c0 = [] ->
  ((forall j x, nth_error (D m) j = Some x -> nth_error g (m + j) = Some x) -> the_op g (o m) = Some ov) ->
  exists cmd, (let! c := add_forward_action c0 t cv in Ok (add_action c (mkAction (Regular false false) ov))) = Ok cmd
    /\ the_command g n = Some cmd.
Proof.
  intros n m h' LD SN CA HC C0 V.
  assert (LN : length h' = m + 5) by (unfold h', all_objs; rewrite app_length; cbn [length]; rewrite !app_length; fold m; rewrite LD; cbn [length]; unfold m; lia).
  assert (G : forall k x, nth_error (all_objs n t conf c0 D o) k = Some x -> nth_error g (n + k) = Some x).
  { intros k x X. rewrite SN.
    - unfold h', n. rewrite nth_at. exact X.
    - pose proof (nth_lt _ _ _ X) as L. unfold h' in *. rewrite app_length in *. fold n in LN |- *. lia. }
  assert (GF : forall k x, nth_error (fwd_objs n t conf) k = Some x -> nth_error g (n + S k) = Some x).
  { intros k x X. apply G. unfold all_objs. cbn [nth_error]. rewrite nth_old; [exact X|eapply nth_lt, X]. }
  assert (GD : forall j x, nth_error (D m) j = Some x -> nth_error g (m + j) = Some x).
  { intros j x X. unfold m at 1. rewrite <- Nat.add_assoc. cbn [Nat.add]. apply G. unfold all_objs. fold m. cbn [nth_error].
    rewrite nth_at. rewrite nth_old; [exact X|eapply nth_lt, X]. }
  assert (GA : nth_error g (m + 4) = Some (OAct (Regular false false) (o m))).
  { unfold m at 1. rewrite <- Nat.add_assoc. cbn [Nat.add]. apply G. unfold all_objs. fold m. cbn [nth_error].
    rewrite nth_at. rewrite <- LD. pose proof (nth_at (D m) [OAct (Regular false false) (o m)] 0) as Y. rewrite Nat.add_0_r in Y. exact Y. }
  assert (GC : nth_error g n = Some (OCmd (fwd_acts n t conf ++ [m + 4]) c0)).
  { replace n with (n + 0) at 1 by lia. apply G. reflexivity. }
  specialize (V GD).
  assert (VA : the_action g (m + 4) = Some (mkAction (Regular false false) ov)) by (unfold the_action; rewrite GA; now rewrite V).
  pose proof (fwd_later g n t conf cv CA [] c0 c0) as F. 
  assert (FE : forall k o0, nth_error (OCmd [] c0 :: fwd_objs n t conf) k = Some o0 -> 0 < k -> nth_error g (n + k) = Some o0).
  { intros [|k] x X P; [lia|]. cbn [nth_error] in X. now apply GF. }
  specialize (F FE). destruct (add_forward_action c0 t cv) as [v|e].
  - destruct F as (l&AS&->). eexists. split; [reflexivity|].
    unfold the_command. rewrite GC, map_app. cbn [map].
    rewrite (all_some_app _ _ l [mkAction (Regular false false) ov] AS); [|cbn [all_some]; now rewrite VA].
    rewrite C0. cbn [app]. reflexivity.
  - destruct F as [F1 F2]. now apply HC in F1.
Qed.
Lemma forward_host h c t conf h' : forward_to h c t conf = Ok h' -> t = IF_HOST -> conf = None.
Proof. intros F ->. unfold forward_to in F. destruct conf; [discriminate|reflexivity]. Qed.
Lemma factory_host h rnd tag t conf (rest : Store -> Ref -> made) h' c :
  (let! (h, c) := new_command h rnd tag in let! h := forward_to h c t conf in rest h c) = Ok (h', c) -> t = IF_HOST -> conf = None.
Proof.
  destruct (new_command h rnd tag) as [[h0 c1]|]; cbn [rbind]; [|discriminate].
  destruct (forward_to h0 c1 t conf) as [h1|] eqn:F; cbn [rbind]; [|discriminate]. intros _. eapply forward_host, F.
Qed.
Lemma command0_factory rnd tag t cv op : factory rnd tag t cv (Ok op) =
  (let! c := add_forward_action (command0 rnd tag) t cv in Ok (add_action c (mkAction (Regular false false) op))).
Proof.
  unfold factory. assert (MC : mk_command rnd [] true tag true = Ok (command0 rnd tag)) by (destruct tag; reflexivity).
  rewrite MC. cbn [rbind]. destruct (add_forward_action (command0 rnd tag) t cv); reflexivity.
Qed.
Lemma data_later g m id off len data bs : (forall j x, nth_error (data_objs m id off len data) j = Some x -> nth_error g (m + j) = Some x) ->
  the_bytes g data = Some bs -> the_data g (m + 3) = Some (mkData (mkOffset id (mkLength off)) (mkLength len) bs).
Proof.
  intros E B. unfold the_data. rewrite (E 3 _ eq_refl). unfold the_off. rewrite (E 1 _ eq_refl). unfold the_len.
  pose proof (E 0 _ eq_refl) as E0. rewrite Nat.add_0_r in E0. rewrite E0. rewrite (E 2 _ eq_refl), B. reflexivity.
Qed.
Lemma req_later g m id off len : (forall j x, nth_error (req_objs m id off len) j = Some x -> nth_error g (m + j) = Some x) ->
  the_req g (m + 3) = Some (mkDataRequest (mkOffset id (mkLength off)) (mkLength len)).
Proof.
  intros E. unfold the_req. rewrite (E 3 _ eq_refl). unfold the_off. rewrite (E 1 _ eq_refl). unfold the_len.
  pose proof (E 0 _ eq_refl) as E0. rewrite Nat.add_0_r in E0. rewrite E0. rewrite (E 2 _ eq_refl). reflexivity.
Qed.
Lemma bytes_keep h h2 data bs : keep (length h) h h2 -> the_bytes h data = Some bs -> the_bytes h2 data = Some bs.
Proof. intros K. apply the_bytes_le. now apply le_keep. Qed.

Theorem write_later h rnd id data bs off t conf h' c g bs' cv : the_bytes h data = Some bs ->
  make_write h rnd id data off t conf = Ok (h', c) -> same_new h h' g -> the_bytes g data = Some bs' -> conf_arg g t conf cv ->
  exists cmd, factory rnd None t cv (Ok (WriteFileData (mkData (mkOffset id (mkLength off)) (mkLength (zlen bs)) bs'))) = Ok cmd
    /\ the_command g c = Some cmd.
Proof.
  intros B M SN B' CA. rewrite make_write_eq in M. pose proof (factory_host _ _ _ _ _ (fun h c => let! (h, d) := data_operand h id off data in close h c (RWrite d)) _ _ M) as HC.
  pose proof (factory_objs h rnd None t conf (fun h => data_operand h id off data) (fun m => data_objs m id off (zlen bs) data) (fun d _ => Ok (RWrite d)) h' c) as F.
  cbn [rbind] in F. destruct F as (->&o&h5&_&P&->).
  { intros h2 h5 d K O. destruct (data_objs_made h2 id off data bs h5 d) as [-> ->]; [eapply bytes_keep; eauto|exact O|]. split; [reflexivity|split; reflexivity]. }
  { exact M. }
  injection P as <-. rewrite command0_factory.
  apply (objs_later h t conf (command0 rnd None) (fun m => data_objs m id off (zlen bs) data) (fun _ => RWrite (length h + S (length (fwd_objs (length h) t conf)) + 3)) g cv); auto.
  intros E. cbn [the_op]. now rewrite (data_later _ _ _ _ _ _ _ E B').
Qed.
Theorem return_later h rnd id data bs off tag t conf h' c g bs' cv : the_bytes h data = Some bs ->
  make_return h rnd id data off tag t conf = Ok (h', c) -> same_new h h' g -> the_bytes g data = Some bs' -> conf_arg g t conf cv ->
  exists cmd, factory rnd tag t cv (Ok (ReturnFileData (mkData (mkOffset id (mkLength off)) (mkLength (zlen bs)) bs')
      (try_parse_system_file (mkData (mkOffset id (mkLength off)) (mkLength (zlen bs)) bs)))) = Ok cmd
    /\ the_command g c = Some cmd.
Proof.
  intros B M SN B' CA. rewrite make_return_eq in M.
  pose proof (factory_host _ _ _ _ _ (fun h c => let! (h, d) := data_operand h id off data in let! v := of_class (the_data h d) in close h c (RReturn d (try_parse_system_file v))) _ _ M) as HC.
  pose proof (factory_objs h rnd tag t conf (fun h => data_operand h id off data) (fun m => data_objs m id off (zlen bs) data)
    (fun d h => let! v := of_class (the_data h d) in Ok (RReturn d (try_parse_system_file v))) h' c) as F.
  destruct F as (->&o&h5&H5&P&->).
  { intros h2 h5 d K O. destruct (data_objs_made h2 id off data bs h5 d) as [-> ->]; [eapply bytes_keep; eauto|exact O|]. split; [reflexivity|split; reflexivity]. }
  { rewrite <- M. destruct (new_command h rnd tag) as [[h0 c1]|]; cbn [rbind]; [|reflexivity].
    destruct (forward_to h0 c1 t conf) as [h1|]; cbn [rbind]; [|reflexivity].
    destruct (data_operand h1 id off data) as [[h2 d]|]; cbn [rbind]; [|reflexivity].
    destruct (of_class (the_data h2 d)); reflexivity. }
  set (m := length h + S (length (fwd_objs (length h) t conf))) in *.
  assert (V5 : the_data h5 (m + 3) = Some (mkData (mkOffset id (mkLength off)) (mkLength (zlen bs)) bs)).
  { apply (data_later _ _ _ _ _ data).
    - intros j x X. rewrite H5. unfold m. rewrite <- Nat.add_assoc. rewrite nth_at. cbn [Nat.add nth_error]. rewrite nth_at. exact X.
    - rewrite H5. apply (the_bytes_le h); [apply le_put|exact B]. }
  rewrite V5 in P. cbn [of_class rbind] in P. injection P as <-. rewrite command0_factory.
  apply (objs_later h t conf (command0 rnd tag) (fun m => data_objs m id off (zlen bs) data)
    (fun _ => RReturn (m + 3) (try_parse_system_file (mkData (mkOffset id (mkLength off)) (mkLength (zlen bs)) bs))) g cv); auto.
  intros E. cbn [the_op]. unfold m. now rewrite (data_later _ _ _ _ _ _ _ E B').
Qed.
Theorem read_later h rnd id len off t conf h' c g cv :
  make_read h rnd id len off t conf = Ok (h', c) -> same_new h h' g -> conf_arg g t conf cv ->
  exists cmd, factory rnd None t cv (Ok (ReadFileData (mkDataRequest (mkOffset id (mkLength off)) (mkLength len)))) = Ok cmd
    /\ the_command g c = Some cmd.
Proof.
  intros M SN CA. rewrite make_read_eq in M. pose proof (factory_host _ _ _ _ _ (fun h c => let! (h, d) := req_operand h id off len in close h c (RRead d)) _ _ M) as HC.
  pose proof (factory_objs h rnd None t conf (fun h => req_operand h id off len) (fun m => req_objs m id off len) (fun d _ => Ok (RRead d)) h' c) as F.
  cbn [rbind] in F. destruct F as (->&o&h5&_&P&->).
  { intros h2 h5 d K O. destruct (req_objs_made h2 id off len h5 d O) as [-> ->]. split; [reflexivity|split; reflexivity]. }
  { exact M. }
  injection P as <-. rewrite command0_factory.
  apply (objs_later h t conf (command0 rnd None) (fun m => req_objs m id off len) (fun _ => RRead (length h + S (length (fwd_objs (length h) t conf)) + 3)) g cv); auto.
  intros E. cbn [the_op]. now rewrite (req_later _ _ _ _ _ E).
Qed.

(** ** stated for programs *)
Lemma program_new h h' l : length h <= length h' ->
  (forall k r, In k l -> target k = Some r -> ~ (length h <= r < length h')) -> same_new h h' (program h' l).
Proof. intros L T k [K1 K2]. apply program_keeps; [exact K2|]. intros q I X. exact (T q k I X (conj K1 K2)). Qed.
Lemma write_grows h rnd id data off t conf h' c : make_write h rnd id data off t conf = Ok (h', c) -> length h <= length h'.
Proof. intros M. pose proof (write_keep h rnd id data off t conf) as K. rewrite M in K. apply K. Qed.
Lemma read_grows h rnd id len off t conf h' c : make_read h rnd id len off t conf = Ok (h', c) -> length h <= length h'.
Proof. intros M. pose proof (read_keep h rnd id len off t conf) as K. rewrite M in K. apply K. Qed.
Lemma return_grows h rnd id data off tag t conf h' c : make_return h rnd id data off tag t conf = Ok (h', c) -> length h <= length h'.
Proof. intros M. pose proof (return_keep h rnd id data off tag t conf) as K. rewrite M in K. apply K. Qed.

(** ** single objects *)
Theorem conf_later h q d a h' r l : new_conf h q d a = Ok (h', r) -> (forall k, In k l -> target k <> Some r) ->
  forall vq vd va, let g := program h' l in
  the_qos g (given q DEFAULT_QOS) = Some vq -> the_ct g (given d DEFAULT_DORM_TO) = Some vd -> the_addr g (given a DEFAULT_ADDRESSEE) = Some va ->
  the_conf g r = Some (CfgD7 (mkConf vq vd va)).
Proof.
  intros M T vq vd va g Q D A. unfold new_conf in M.
  destruct (of_class (the_qos h _)); cbn [rbind] in M; [|discriminate]. destruct (of_class (the_ct h _)); cbn [rbind] in M; [|discriminate].
  destruct (of_class (the_addr h _)); cbn [rbind put] in M; [|discriminate]. injection M as <- <-.
  unfold the_conf. unfold g at 1. rewrite program_keeps; [|rewrite app_length; cbn; lia|exact T]. rewrite nth_new.
  now rewrite Q, D, A.
Qed.
Theorem data_made_later h d o h' r l bs : new_data h d o = Ok (h', r) -> the_bytes h (given d DEFAULT_DATA) = Some bs ->
  (forall k, In k l -> target k <> Some r /\ target k <> Some (length h)) ->
  forall vo vb, let g := program h' l in
  the_off g (given o DEFAULT_DATA_OFFSET) = Some vo -> the_bytes g (given d DEFAULT_DATA) = Some vb ->
  the_data g r = Some (mkData vo (mkLength (zlen bs)) vb).
Proof.
  intros M B T vo vb g O V. unfold new_data in M. rewrite B in M. cbn [of_class rbind] in M.
  destruct (of_class (the_off h _)) as [ov|]; cbn [rbind] in M; [|discriminate].
  destruct (mk_data bs ov) as [dv|] eqn:MD; cbn [rbind put] in M; [|discriminate]. injection M as <- <-.
  assert (DL : d_length dv = mkLength (zlen bs)).
  { unfold mk_data, mk_length, validated in MD. destruct (in_range 0 1073741823 (zlen bs)); cbn [rbind] in MD; [|discriminate].
    destruct (forallb is_BYTE bs); [|discriminate]. now injection MD as <-. }
  assert (LL : length ((h ++ [OLen (d_length dv)]) ++ [OData (given o DEFAULT_DATA_OFFSET) (length h) (given d DEFAULT_DATA)]) = S (S (length h))) by (rewrite !app_length; cbn; lia).
  unfold the_data. unfold g at 1. rewrite program_keeps; [|rewrite !app_length; cbn; lia|intros k I; now apply T].
  rewrite nth_new, O, V. unfold the_len. unfold g. rewrite program_keeps; [|rewrite LL; lia|intros k I; now apply T].
  rewrite <- app_assoc. cbn [app]. pose proof (nth_at h [OLen (d_length dv); OData (given o DEFAULT_DATA_OFFSET) (length h) (given d DEFAULT_DATA)] 0) as N.
  rewrite Nat.add_0_r in N. rewrite N. cbn [nth_error]. now rewrite DL.
Qed.
Theorem parsed_apart h c : let (h', r) := parsed_conf h c in
  the_conf h' r = Some (CfgD7 c) /\ forall n, reaches h' r n -> length h <= n.
Proof.
  unfold parsed_conf. cbn [put]. rewrite !app_length. cbn [length]. repeat rewrite <- app_assoc. cbn [app].
  set (L := [OQoS (cf_qos c); OCT (cf_dorm_to c); OAddr (cf_addressee c); OConf (length h) (length h + 1) (length h + 1 + 1)]).
  assert (E : forall k, nth_error (h ++ L) (length h + k) = nth_error L k) by (intros; apply nth_at).
  pose proof (E 0) as E0. pose proof (E 1) as E1. pose proof (E 2) as E2. pose proof (E 3) as E3. rewrite Nat.add_0_r in E0.
  replace (length h + 2) with (length h + 1 + 1) in E2 by lia. replace (length h + 3) with (length h + 1 + 1 + 1) in E3 by lia.
  split.
  - unfold the_conf. rewrite E3. cbn [nth_error L]. unfold the_qos, the_ct, the_addr. rewrite E0, E1, E2. cbn. now destruct c.
  - intros n R. rewrite (reaches_parts _ _ _ _ E3) in R. cbn [parts] in R. destruct R as [<-|(p&[<-|[<-|[<-|[]]]]&R)]; [lia| | |].
    + rewrite (reaches_parts _ _ _ _ E0) in R. destruct R as [<-|(p&[]&_)]. lia.
    + rewrite (reaches_parts _ _ _ _ E1) in R. destruct R as [<-|(p&[]&_)]. lia.
    + rewrite (reaches_parts _ _ _ _ E2) in R. destruct R as [<-|(p&[]&_)]. lia.
Qed.

(** ** on the wire *)
Lemma factory_inv rnd tag t cv op cmd : factory rnd tag t cv (Ok op) = Ok cmd ->
  exists v, add_forward_action (command0 rnd tag) t cv = Ok v /\ cmd = add_action v (mkAction (Regular false false) op).
Proof.
  rewrite command0_factory. destruct (add_forward_action (command0 rnd tag) t cv) as [v|]; cbn [rbind]; [|discriminate].
  intros X; injection X as <-. eauto.
Qed.
Lemma command_ser_last v : exists H, forall a, command_ser (add_action v a) = H +++ action_ser a.
Proof.
  exists (command_ser v). intros b. unfold command_ser, add_action. cbn [c_generate c_tag c_respond c_status c_actions].
  rewrite map_app, rconcat_app, !rapp_assoc. cbn [map rconcat]. rewrite rapp_nil_r. reflexivity.
Qed.
Lemma yields_bytes l : Forall is_byte l -> yields l = Ok l.
Proof.
  unfold yields. induction 1 as [|x l B _ IH]; cbn [map rconcat]; [reflexivity|]. rewrite IH. unfold yield1, is_byte in *.
  replace ((0 <=? x)%Z && (x <=? 255)%Z) with true by lia. reflexivity.
Qed.
Lemma swapped H1 b1 b2 : Forall is_byte b1 -> Forall is_byte b2 ->
  match H1 +++ yields b1 with Ok w => exists p, w = p ++ b1 /\ H1 +++ yields b2 = Ok (p ++ b2) | Err e => H1 +++ yields b2 = Err e end.
Proof.
  intros B1 B2. rewrite (yields_bytes _ B1), (yields_bytes _ B2). destruct H1 as [p|e]; cbn; [|reflexivity]. exists p. auto.
Qed.
Lemma wire_swapped rnd tag t cv op1 op2 o l b1 b2 c1 c2 :
  (op1 = WriteFileData (mkData o l b1) /\ op2 = WriteFileData (mkData o l b2)
   \/ exists p1 p2, op1 = ReturnFileData (mkData o l b1) p1 /\ op2 = ReturnFileData (mkData o l b2) p2) ->
  factory rnd tag t cv (Ok op1) = Ok c1 -> factory rnd tag t cv (Ok op2) = Ok c2 -> Forall is_byte b1 -> Forall is_byte b2 ->
  (len_value l = 0%Z -> command_ser c2 = command_ser c1) /\
  (len_value l <> 0%Z -> match command_ser c1 with Ok w => exists p, w = p ++ b1 /\ command_ser c2 = Ok (p ++ b2) | Err e => command_ser c2 = Err e end).
Proof.
  intros OP F1 F2 B1 B2. apply factory_inv in F1, F2. destruct F1 as (v&E1&->). destruct F2 as (v'&E2&->).
  rewrite E1 in E2. injection E2 as <-. destruct (command_ser_last v) as (H&HS). rewrite !HS.
  split; intros L.
  - f_equal. destruct OP as [(->&->)|(p1&p2&->&->)]; unfold action_ser; cbn [a_kind a_op op_code op_ser]; unfold data_len; cbn [d_length]; rewrite L; reflexivity.
  - assert (X : exists K, action_ser (mkAction (Regular false false) op1) = K +++ yields b1 /\ action_ser (mkAction (Regular false false) op2) = K +++ yields b2).
    { apply Z.eqb_neq in L. destruct OP as [(->&->)|(p1&p2&->&->)]; unfold action_ser; cbn [a_kind a_op op_code op_ser]; unfold data_len; cbn [d_length]; rewrite L;
      unfold data_ser; cbn [d_offset d_length d_data]; rewrite <- !rapp_assoc; eexists; split; reflexivity. }
    destruct X as (K&->&->). rewrite <- !rapp_assoc. now apply swapped.
Qed.
Lemma mk_data_made id off bs dv : (let! l := mk_length off in let! o := mk_offset id l in mk_data bs o) = Ok dv ->
  dv = mkData (mkOffset id (mkLength off)) (mkLength (zlen bs)) bs /\ Forall is_byte bs.
Proof.
  unfold mk_length, mk_offset, mk_data, mk_length, validated. destruct (in_range 0 1073741823 off); cbn [rbind]; [|discriminate].
  destruct (is_BYTE id); cbn [rbind]; [|discriminate]. destruct (in_range 0 1073741823 (zlen bs)); cbn [rbind]; [|discriminate].
  destruct (forallb is_BYTE bs) eqn:F; [|discriminate]. intros X; injection X as <-. split; [reflexivity|].
  rewrite forallb_forall in F. apply Forall_forall. intros x I. specialize (F x I). unfold is_BYTE, in_range in F. unfold is_byte. lia.
Qed.
Theorem write_wire h rnd id data bs off t conf h' c l bs' cv cmd : the_bytes h data = Some bs ->
  make_write h rnd id data off t conf = Ok (h', c) ->
  (forall k r, In k l -> target k = Some r -> ~ (length h <= r < length h')) ->
  the_bytes (program h' l) data = Some bs' -> Forall is_byte bs' -> conf_arg (program h' l) t conf cv ->
  create_write rnd id bs off t cv = Ok cmd ->
  exists cmd', the_command (program h' l) c = Some cmd' /\
    (bs = [] -> command_ser cmd' = command_ser cmd) /\
    (bs <> [] -> match command_ser cmd with Ok w => exists p, w = p ++ bs /\ command_ser cmd' = Ok (p ++ bs') | Err e => command_ser cmd' = Err e end).
Proof.
  intros B M T B' BB CA CW.
  destruct (write_later _ _ _ _ _ _ _ _ _ _ _ _ _ B M (program_new _ _ _ (write_grows _ _ _ _ _ _ _ _ _ M) T) B' CA) as (cmd'&F&V).
  exists cmd'. split; [exact V|]. unfold create_write in CW.
  destruct (let! l := mk_length off in let! o := mk_offset id l in mk_data bs o) as [dv|e] eqn:MD.
  2: { unfold factory in CW. destruct (mk_command rnd [] true None true); cbn [rbind] in CW; [|discriminate].
       destruct (add_forward_action _ t cv); cbn [rbind] in CW; [|discriminate].
       destruct (mk_length off); cbn [rbind] in *; [|discriminate]. destruct (mk_offset id a1); cbn [rbind] in *; [|discriminate].
       rewrite MD in CW. discriminate. }
  assert (CW' : factory rnd None t cv (Ok (WriteFileData dv)) = Ok cmd).
  { rewrite <- CW. f_equal. destruct (mk_length off); cbn [rbind] in *; [|discriminate]. destruct (mk_offset id a); cbn [rbind] in *; [|discriminate].
    now rewrite MD. }
  destruct (mk_data_made _ _ _ _ MD) as [-> FB].
  destruct (wire_swapped _ _ _ _ _ _ _ _ bs bs' _ _ (or_introl (conj eq_refl eq_refl)) CW' F FB BB) as [W1 W2]. cbn [len_value] in *.
  split; intros N.
  - apply W1. now rewrite N.
  - apply W2. destruct bs; [congruence|]. rewrite zlen_cons. unfold zlen. lia.
Qed.

(** ** the forms used in the property file *)
Theorem write_outcome h rnd id data bs off t conf cv : the_bytes h data = Some bs -> conf_arg h t conf cv ->
  same_outcome h (make_write h rnd id data off t conf) (create_write rnd id bs off t cv).
Proof.
  intros B CA. pose proof (write_spec h rnd id data bs off t conf cv B CA) as S. unfold same_outcome.
  destruct (make_write h rnd id data off t conf) as [[h' c]|]; [|exact S]. destruct S as (cmd&S1&S2&_). eauto.
Qed.
Theorem return_outcome h rnd id data bs off tag t conf cv : the_bytes h data = Some bs -> conf_arg h t conf cv ->
  same_outcome h (make_return h rnd id data off tag t conf) (create_return rnd id bs off tag t cv).
Proof.
  intros B CA. pose proof (return_spec h rnd id data bs off tag t conf cv B CA) as S. unfold same_outcome.
  destruct (make_return h rnd id data off tag t conf) as [[h' c]|]; [|exact S]. destruct S as (cmd&S1&S2&_). eauto.
Qed.
Theorem read_outcome h rnd id len off t conf cv : conf_arg h t conf cv ->
  same_outcome h (make_read h rnd id len off t conf) (create_read rnd id len off t cv).
Proof.
  intros CA. pose proof (read_spec h rnd id len off t conf cv CA) as S. unfold same_outcome.
  destruct (make_read h rnd id len off t conf) as [[h' c]|]; [|exact S]. destruct S as (cmd&S1&S2&_). eauto.
Qed.
Theorem write_parts h rnd id data bs off t conf cv h' c : the_bytes h data = Some bs -> conf_arg h t conf cv ->
  make_write h rnd id data off t conf = Ok (h', c) \/ (exists tag, make_return h rnd id data off tag t conf = Ok (h', c)) ->
  forall n, n < length h -> (reaches h' c n <-> n = data \/ conf_parts h t conf n).
Proof.
  intros B CA [M|[tag M]] n N.
  - pose proof (write_spec h rnd id data bs off t conf cv B CA) as S. rewrite M in S. destruct S as (cmd&_&_&S). rewrite (S n N). split; intros [|]; auto.
  - pose proof (return_spec h rnd id data bs off tag t conf cv B CA) as S. rewrite M in S. destruct S as (cmd&_&_&S). rewrite (S n N). split; intros [|]; auto.
Qed.
Theorem read_parts h rnd id len off t conf cv h' c : conf_arg h t conf cv -> make_read h rnd id len off t conf = Ok (h', c) ->
  forall n, n < length h -> (reaches h' c n <-> conf_parts h t conf n).
Proof.
  intros CA M n N. pose proof (read_spec h rnd id len off t conf cv CA) as S. rewrite M in S. destruct S as (cmd&_&_&S). apply (S n N).
Qed.
Theorem write_now h rnd id data bs off t conf h' c l bs' cv : the_bytes h data = Some bs ->
  make_write h rnd id data off t conf = Ok (h', c) -> leaves_new h h' l ->
  the_bytes (program h' l) data = Some bs' -> conf_arg (program h' l) t conf cv ->
  exists cmd, factory rnd None t cv (Ok (WriteFileData (mkData (mkOffset id (mkLength off)) (mkLength (zlen bs)) bs'))) = Ok cmd
    /\ the_command (program h' l) c = Some cmd.
Proof. intros B M T. eapply write_later; eauto. apply program_new; [eapply write_grows, M|exact T]. Qed.
Theorem return_now h rnd id data bs off tag t conf h' c l bs' cv : the_bytes h data = Some bs ->
  make_return h rnd id data off tag t conf = Ok (h', c) -> leaves_new h h' l ->
  the_bytes (program h' l) data = Some bs' -> conf_arg (program h' l) t conf cv ->
  exists cmd, factory rnd tag t cv (Ok (ReturnFileData (mkData (mkOffset id (mkLength off)) (mkLength (zlen bs)) bs')
      (try_parse_system_file (mkData (mkOffset id (mkLength off)) (mkLength (zlen bs)) bs)))) = Ok cmd
    /\ the_command (program h' l) c = Some cmd.
Proof. intros B M T. eapply return_later; eauto. apply program_new; [eapply return_grows, M|exact T]. Qed.
Theorem read_now h rnd id len off t conf h' c l cv :
  make_read h rnd id len off t conf = Ok (h', c) -> leaves_new h h' l -> conf_arg (program h' l) t conf cv ->
  exists cmd, factory rnd None t cv (Ok (ReadFileData (mkDataRequest (mkOffset id (mkLength off)) (mkLength len)))) = Ok cmd
    /\ the_command (program h' l) c = Some cmd.
Proof. intros M T. eapply read_later; eauto. apply program_new; [eapply read_grows, M|exact T]. Qed.
Theorem defaults h : history h -> exists c, default_conf h c.
Proof. intros H. now apply history_defaults. Qed.
Theorem defaults_kept l : (forall k, In k l -> target k <> Some DEFAULT_QOS /\ target k <> Some DEFAULT_DORM_TO /\ target k <> Some DEFAULT_ADDRESSEE) ->
  default_conf (program loaded l) conf_default.
Proof.
  intros T. unfold default_conf, the_qos, the_ct, the_addr.
  rewrite !program_keeps; [repeat split|vm_compute; repeat constructor|intros k I; now apply T|vm_compute; repeat constructor|intros k I; now apply T|vm_compute; repeat constructor|intros k I; now apply T].
Qed.
Theorem command_visible h c v n o o' : the_command h c = Some v -> nth_error h n = Some o -> atomic o = true ->
  class_of o' = class_of o -> o' <> o ->
  exists v', the_command (put_at h n o') c = Some v' /\ (v' = v <-> ~ reaches h c n).
Proof. intros V E A C N. now apply (command_follows h n o o' E A C N). Qed.
