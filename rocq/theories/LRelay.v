(** Lemmas for C99 *)
From Coq Require Import ZifyBool ZifyNat Lia.
From Verif Require Import SRelay SConstruct LConstruct LReser LTags LParsed LAction LSp LCommand LReject.
Open Scope list_scope.
Open Scope Z_scope.

(** ** NBID numbers *)
Definition hop_check : bool :=
  forallb (fun c => match ct_compress (nbid_byte c) true with
                    | Ok (Some d) => ct_eqb d (of_nbid (nbid_hop (nbid c)))
                    | _ => false
                    end) ct_all.
Lemma hop_check_true : hop_check = true. Proof. vm_compute. reflexivity. Qed.
Lemma compress_hop c : ct_wf c -> ct_compress (nbid_byte c) true = Ok (Some (of_nbid (nbid_hop (nbid c)))).
Proof.
  intros W. pose proof hop_check_true as T. unfold hop_check in T. rewrite forallb_forall in T.
  specialize (T c (ct_all_complete c W)). destruct (ct_compress (nbid_byte c) true) as [[d|]|]; try discriminate.
  apply ct_eqb_eq in T. congruence.
Qed.
Lemma reparse_hop a : addr_wf a -> addr_reparse a = addr_hop a.
Proof.
  destruct a as [ac t i m]. unfold addr_wf, addr_reparse, addr_hop. cbn [ad_access_class ad_id_type ad_id ad_nls].
  intros [_ W]. destruct i as [|z|c]; try reflexivity. rewrite compress_hop by (destruct t; tauto). reflexivity.
Qed.
Lemma stable_hop x : addr_wf x ->
  (addr_hop x = x <-> match ad_id x with IdCT c => nbid c <= 31 \/ nbid c = 43 | _ => True end).
Proof.
  intros W. rewrite <- (reparse_hop x W), (addr_reparse_stable x W). unfold addr_stable, nbid.
  destruct x as [ac t i m]. unfold addr_wf in W. cbn [ad_access_class ad_id_type ad_id] in *. destruct W as [_ W].
  destruct i as [|z|c]; try tauto. assert (ct_wf c) as [? ?] by (destruct t; tauto). lia.
Qed.
Lemma hop_wf x : addr_wf x -> addr_wf (addr_hop x).
Proof. intros W. rewrite <- (reparse_hop x W). apply addr_reparse_wf. exact W. Qed.

Fixpoint iter {A} (f : A -> A) (n : nat) (x : A) : A := match n with O => x | S n => iter f n (f x) end.
Definition end_check : bool :=
  forallb (fun c0 => let c := of_nbid (nbid_hop (nbid c0)) in
                    let d := iter (fun c => of_nbid (nbid_hop (nbid c))) 4 c in
                    ct_eqb d (of_nbid (nbid_end (nbid c)))
                    && ct_eqb (of_nbid (nbid_hop (nbid d))) d) ct_all.
Lemma end_check_true : end_check = true. Proof. vm_compute. reflexivity. Qed.

(** ** What passing on makes *)
Definition carried (a : Action) : Prop := act_parsed a /\ plain a = true.
Lemma received_carried c : received c -> Forall carried (c_actions c).
Proof.
  intros (n & s & s' & Hs & E). destruct (alp_parsed n s c s' Hs E) as (l & _ & F & _ & _ & ->).
  rewrite command_of_actions. rewrite Forall_forall in *. intros a I. apply filter_In in I as [I P].
  split; [exact (F a I) | exact P].
Qed.
Definition onward (rnd : Z) (respond : bool) (c : Command) : Command :=
  mkCommand (c_actions c) None true (Some rnd) respond false None.
Lemma carried_forall l : Forall carried l -> forallb plain l = true.
Proof. induction 1 as [|a l [_ P] H IH]; [reflexivity|]. cbn [forallb]. rewrite P. exact IH. Qed.
Lemma present_map l : present (map Some l) = l.
Proof. unfold present. induction l as [|a l IH]; [reflexivity|]. cbn [map flat_map app]. rewrite IH. reflexivity. Qed.
Lemma missing_map l : missing (map Some l) = false.
Proof. unfold missing. induction l as [|a l IH]; [reflexivity|]. exact IH. Qed.
Lemma passed_on_made rnd respond c : Forall carried (c_actions c) -> passed_on rnd respond c = Ok (onward rnd respond c).
Proof.
  intros F. pose proof (carried_forall _ F) as P. destruct (plain_lists _ P) as (T & S & Q).
  unfold passed_on. apply made. rewrite present_map, missing_map. split; [|split; [reflexivity|]].
  - unfold acceptable, one_status, one_tag. rewrite T, S. cbn [length]. refine (conj _ (conj _ _)); try lia.
    eapply Forall_impl; [|exact F]. intros a [W _]. apply parsed_tag_typed. exact W.
  - unfold with_random, command_of, onward. rewrite T, S, Q. cbn [c_generate c_tag c_actions c_status c_respond c_completed c_error hd_error].
    reflexivity.
Qed.

(** ** One action *)
Definition written (a : Action) : list bool := contribution a.
Lemma carried_emits a : carried a -> is_forward a = false -> emits (action_ser a) (contribution a).
Proof.
  destruct a as [k o]. intros [[W H] P] Nf. unfold plain, is_tag, is_status, is_forward in *. cbn [a_kind a_op] in *.
  destruct k as [g r|r|v r|e|r|e x]; try discriminate.
  - unfold contribution. cbn [a_kind a_op].
    assert (D : forall d, (o = WriteFileData d \/ exists p, o = ReturnFileData d p) ->
       emits (action_ser (mkAction (Regular g r) o)) (if d_data d then [g; r] ++ Zbits 6 (opcode o) else act_bits g r o)).
    { intros d Ho. destruct (empty_data_ser g r o d W Ho) as (bs & E & B & L). exists bs. auto. }
    assert (N : op_plain o -> emits (action_ser (mkAction (Regular g r) o)) (act_bits g r o)).
    { intros Hp. apply act_emits; assumption. }
    destruct o; try contradiction; try (apply N; exact I).
    + apply D. left; reflexivity.
    + apply D. right; eauto.
  - unfold contribution. cbn [a_kind a_op]. destruct o; try contradiction. apply act_emits; [exact W | exact I].
  - destruct o; try contradiction. destruct H as [-> _]. discriminate.
Qed.
Lemma writable_contribution a : carried a -> writable a -> contribution a = action_layout a /\ is_forward a = false.
Proof.
  destruct a as [k o]. intros [[W H] P] V. unfold plain, is_tag, is_status, contribution, action_layout, writable, is_forward in *.
  cbn [a_kind a_op] in *. destruct k as [g r|r|v r|e|r|e x]; try discriminate.
  - split; [|reflexivity]. destruct o; try contradiction; try reflexivity; destruct (d_data _); congruence.
  - destruct o; contradiction.
  - split; reflexivity.
  - destruct o; try contradiction. destruct H as [-> _]. discriminate.
Qed.
Lemma hop_accepts a : carried a -> writable a -> accepts parse_action (action_layout a) (Some (action_hop a)).
Proof.
  destruct a as [k o]. intros [[W H] P] V. unfold plain, is_tag, is_status, writable in *. cbn [a_kind a_op] in *.
  destruct k as [g r|r|v r|e|r|e x]; try discriminate.
  - change (action_hop (mkAction (Regular g r) o)) with
      (match o with IndirectForward (mkIndirect f (Some x)) => mkAction (Regular g r) (IndirectForward (mkIndirect f (Some (addr_hop x)))) | _ => mkAction (Regular g r) o end).
    assert (A : action_wf (mkAction (Regular g r) o)).
    { split; [exact W|]. cbn [a_kind a_op]. destruct o; try contradiction; try exact I; try exact V; exact H. }
    pose proof (action_accepts _ A) as X. destruct o; try contradiction; exact X.
  - destruct o; try contradiction. 
  - destruct o as [| | | | | | | | | | | |[f x]|]; try contradiction. cbn [ii_overload] in H. unfold action_layout, act_bits. cbn [a_kind a_op].
    apply parse_action_op. cbn [opcode Z.eqb Pos.eqb operand_layout op_wf] in *. unfold action_hop. cbn [a_op a_kind].
    destruct x as [x|].
    + subst v. destruct W as [Hf Wx]. cbn [ii_file ii_overload] in *. unfold ind_layout, parse_indirect_forward_action. cbn [ii_file ii_overload].
      eapply accepts_bind; [apply accepts_uint; change (2 ^ Z.of_nat 8) with 256; lia|].
      eapply accepts_bind_l;
        [eapply accepts_bind_l; [apply addr_accepts_gen; [reflexivity | exact Wx] | apply accepts_ret]|].
      rewrite reparse_hop by exact Wx.
      eapply accepts_bind0; [apply accepts_lift; apply validated_ok; unfold in_range; lia|].
      eapply accepts_bind0; [apply accepts_lift; reflexivity | apply accepts_ret].
    + apply indirect_accepts; [exact W | exact H].
  - destruct o; try contradiction. destruct H as [-> _]. discriminate.
Qed.
Lemma hop_parsed a : carried a -> carried (action_hop a).
Proof.
  intros C. pose proof C as [[W H] P]. unfold action_hop. destruct a as [k o]. cbn [a_op a_kind] in *.
  destruct o as [| | | | | | | | | | | |[f [x|]]|]; try exact C.
  split; [|exact P]. split; [|exact H]. cbn [a_op op_wf] in *. destruct W as [Hf Wx]. split; [exact Hf|].
  cbn [ii_overload] in *. apply hop_wf. exact Wx.
Qed.
Lemma hop_writable a : writable a -> writable (action_hop a).
Proof. unfold action_hop, writable. destruct a as [k o]. cbn [a_op a_kind]. destruct o as [| | | | | | | | | | | |[f [x|]]|]; auto. Qed.
Lemma hop_same_iff a : carried a -> writable a -> (action_hop a = a <-> lasting a).
Proof.
  intros [[W H] P] V. unfold lasting, action_hop. destruct a as [k o]. cbn [a_op a_kind] in *.
  destruct o as [| | | | | | | | | | | |[f [x|]]|]; try (split; auto; fail).
  cbn [ii_overload]. destruct W as [_ Wx]. cbn [ii_overload] in Wx. rewrite <- (stable_hop x Wx).
  split; [intros E; split; [exact V | injection E as E; exact E] | intros [_ E]; rewrite E; reflexivity].
Qed.
Lemma hop_plain a : plain (action_hop a) = plain a.
Proof. unfold action_hop, plain, is_tag, is_status. destruct a as [k o]. destruct o as [| | | | | | | | | | | |[f [x|]]|]; reflexivity. Qed.
Lemma carried_whole a : carried a -> writable a -> whole8 (action_layout a).
Proof.
  intros C V. destruct (writable_contribution a C V) as [E F]. split.
  - rewrite <- E. eapply emits_whole. apply carried_emits; assumption.
  - unfold action_layout. destruct C as [[_ H] P], a as [k o]. unfold plain, is_tag, is_status in P. cbn [a_kind a_op] in *.
    destruct k; try apply act_bits_len; try discriminate. destruct o; try contradiction. destruct H as [-> _]. discriminate.
Qed.

(** ** The command *)
Definition seen (rnd : Z) (respond : bool) (acts : list Action) : Command :=
  mkCommand acts None false (Some rnd) respond false None.
Lemma emits_zlen r l bs : emits r l -> r = Ok bs -> zlen l / 8 = zlen bs /\ bytes_bits bs = l.
Proof.
  intros (bs' & E & _ & L) E'. rewrite E in E'. injection E' as ->. split; [|exact L].
  rewrite <- L. unfold zlen. rewrite bytes_bits_length. lia.
Qed.
Lemma onward_emits rnd respond c : 0 <= rnd <= 255 -> Forall carried (c_actions c) -> existsb is_forward (c_actions c) = false ->
  emits (command_ser (onward rnd respond c)) (tag_bits respond rnd ++ flat_map contribution (c_actions c)).
Proof.
  intros R F N. unfold command_ser, onward. cbn [c_generate c_tag c_respond c_status c_actions].
  apply emits_app.
  - unfold mk_tag. rewrite validated_ok by ranges. cbn [rbind mk_action]. unfold validated.
    apply (action_emits (mkAction (TagReqAct respond) (TagRequest (mkTag rnd)))). apply tag_action_wf. exact R.
  - change (flat_map contribution (c_actions c)) with ([] ++ flat_map contribution (c_actions c)).
    apply emits_app; [apply emits_nil|]. apply emits_rconcat. rewrite Forall_forall in *. intros a I.
    apply carried_emits; [exact (F a I)|]. destruct (is_forward a) eqn:E; [|reflexivity].
    assert (existsb is_forward (c_actions c) = true) by (apply existsb_exists; eauto). congruence.
Qed.
Lemma writable_no_forward l : Forall carried l -> Forall writable l -> existsb is_forward l = false
  /\ flat_map contribution l = flat_map action_layout l.
Proof.
  induction 1 as [|a l C H IH]; intros V; [split; reflexivity|]. inversion V as [|? ? Va Vl]; subst.
  destruct (writable_contribution a C Va) as [E F]. destruct (IH Vl) as [N E2]. cbn [existsb flat_map]. rewrite F, E, E2, N. split; reflexivity.
Qed.
Lemma hop_command rnd respond c : 0 <= rnd <= 255 -> Forall carried (c_actions c) -> Forall writable (c_actions c) ->
  exists bs, command_ser (onward rnd respond c) = Ok bs
  /\ accepts_aligned (alp_parse (zlen bs)) (bytes_bits bs) (seen rnd respond (map action_hop (c_actions c))).
Proof.
  intros R F V. destruct (writable_no_forward _ F V) as [N E]. pose proof (onward_emits rnd respond c R F N) as Em.
  rewrite E in Em. destruct (command_ser (onward rnd respond c)) as [bs|] eqn:Eb; [|destruct Em as (? & ? & _); discriminate].
  exists bs. split; [reflexivity|]. destruct (emits_zlen _ _ _ Em eq_refl) as [Lz Lb].
  set (t := mkAction (TagReqAct respond) (TagRequest (mkTag rnd))).
  set (items := (tag_bits respond rnd, Some t) :: map (fun a => (action_layout a, Some (action_hop a))) (c_actions c)).
  assert (I1 : concat (map fst items) = tag_bits respond rnd ++ flat_map action_layout (c_actions c)).
  { unfold items. cbn [map concat fst]. f_equal. rewrite map_map. cbn [fst]. rewrite flat_map_concat_map. reflexivity. }
  assert (I2 : map snd items = map Some (t :: map action_hop (c_actions c))).
  { unfold items. cbn [map snd]. f_equal. rewrite !map_map. reflexivity. }
  assert (W : action_wf t) by (apply tag_action_wf; exact R).
  rewrite Lb, <- I1, <- Lz, <- I1. apply alp_accepts.
  - unfold items. constructor; [cbn [fst snd]; split; [exact (action_accepts t W) | exact (action_whole t W)]|].
    rewrite Forall_map. cbn [fst snd]. rewrite Forall_forall in *. intros a I. split; [apply hop_accepts | apply carried_whole]; auto.
  - rewrite I2. assert (K : forallb plain (map action_hop (c_actions c)) = true).
    { apply carried_forall. rewrite Forall_map. eapply Forall_impl; [|exact F]. apply hop_parsed. }
    destruct (plain_lists _ K) as (T & S & Q).
    rewrite mk_command_parsed; rewrite ?somes_map, ?has_none_map; try reflexivity.
    + f_equal. unfold command_of, seen. cbn [filter]. 
      change (is_tag t) with true. change (is_status t) with false. change (plain t) with false. cbv iota.
      rewrite S, Q. cbn [a_kind t tag_id_of a_op tag_value hd_error]. reflexivity.
    + constructor; [intros _; discriminate|]. rewrite Forall_map. eapply Forall_impl; [|exact F]. intros a C.
      apply parsed_tag_typed. apply hop_parsed. exact C.
    + unfold one_tag. cbn [filter]. change (is_tag t) with true. cbv iota. rewrite T. cbn [length]. lia.
    + unfold one_status. cbn [filter]. change (is_status t) with false. cbv iota. rewrite S. cbn [length]. lia.
Qed.
Lemma forward_raises rnd respond c : 0 <= rnd <= 255 -> Forall carried (c_actions c) -> existsb is_forward (c_actions c) = true ->
  command_ser (onward rnd respond c) = Err AttributeError.
Proof.
  intros R F N. unfold command_ser, onward. cbn [c_generate c_tag c_respond c_status c_actions].
  destruct (action_emits (mkAction (TagReqAct respond) (TagRequest (mkTag rnd)))) as (tb & Et & _); [apply tag_action_wf; exact R|].
  unfold mk_tag. rewrite validated_ok by ranges. unfold mk_action, validated. cbn [rbind]. rewrite Et.
  assert (X : rconcat (map action_ser (c_actions c)) = Err AttributeError).
  { clear tb Et. induction F as [|a l C H IH]; [discriminate|]. cbn [existsb map rconcat] in *.
    destruct (is_forward a) eqn:Fa.
    - unfold action_ser, is_forward in *. destruct (a_kind a); try discriminate. reflexivity.
    - destruct (carried_emits a C Fa) as (b & -> & _). rewrite IH by exact N. reflexivity. }
  rewrite X. reflexivity.
Qed.
