From Coq Require Import ZifyBool ZifyNat.
From Verif Require Import SDll LDll LParse STransport.

Lemma tpc_emits c : emits (tpc_ser c) (control_bits c).
Proof.
  destruct c as [[|] [|] [|] [|] [|] [|] [|]]; apply emits_by_check; vm_compute; reflexivity.
Qed.
Lemma fgc_emits c : 0 <= fc_eirp c <= 63 ->
  emits (fgc_ser c) (Zbits 2 (idtype_value (fc_id_type c)) ++ Zbits 6 (fc_eirp c)).
Proof.
  intros H. destruct c as [t e]. unfold fgc_ser. cbn [fc_id_type fc_eirp] in *. rewrite Z.lor_0_l.
  assert (X : forall k, 0 <= k <= 3 -> forall e, 0 <= e <= 63 -> emits (yield1 (Z.shiftl k 6 + e)) (Zbits 2 k ++ Zbits 6 e)).
  { clear. intros k K e E.
    assert (B : forallb (fun k => forallb (fun e => match yield1 (Z.shiftl k 6 + e) with Ok [b] =>
       (0 <=? b) && (b <=? 255) && if list_eq_dec Bool.bool_dec (bytes_bits [b]) (Zbits 2 k ++ Zbits 6 e) then true else false | _ => false end)
       (map Z.of_nat (seq 0 64))) (map Z.of_nat (seq 0 4)) = true) by (vm_compute; reflexivity).
    rewrite forallb_forall in B. specialize (B k ltac:(apply in_map_iff; exists (Z.to_nat k); split; [lia | apply in_seq; lia])). rewrite forallb_forall in B.
    specialize (B e ltac:(apply in_map_iff; exists (Z.to_nat e); split; [lia | apply in_seq; lia])).
    destruct (yield1 (Z.shiftl k 6 + e)) as [[|b [|? ?]]|]; try discriminate. exists [b]. split; [reflexivity|].
    apply andb_true_iff in B as [B D]. split; [constructor; [unfold is_byte; lia | constructor]|].
    destruct (list_eq_dec _ _ _); [assumption | discriminate]. }
  apply X; [destruct t; cbn; lia | exact H].
Qed.
Lemma bgc_emits c : 0 <= bc_tag c <= 63 ->
  emits (bgc_ser c) (Zbits 2 (idtype_value (bc_id_type c)) ++ Zbits 6 (bc_tag c)).
Proof. intros H. destruct c as [t e]. exact (fgc_emits (mkFgControl t e) H). Qed.

Lemma emits_skip r l : emits r l -> emits (Ok [] +++ r) l.
Proof. intros (bs & -> & X). exists bs. split; [reflexivity | exact X]. Qed.
Lemma tp_head_app f w : tp_written_head f ++ w =
  control_bits (tf_control f) ++ Zbits 8 (tf_dialog f) ++ Zbits 8 (tf_trans f)
  ++ (if tc_agc (tf_control f) then Zbits 8 (tf_agc f) else [])
  ++ (if tc_ack_nv (tf_control f) then match tf_ack f with Some (a, b) => Zbits 8 a ++ Zbits 8 b | None => [] end else []) ++ w.
Proof. unfold tp_written_head. rewrite <- !app_assoc. reflexivity. Qed.
Lemma tp_emits f wire : tp_made f -> emits (command_ser (tf_cmd f)) wire ->
  tc_tl (tf_control f) = false -> tc_te (tf_control f) = false ->
  (tc_ack_nv (tf_control f) = true -> exists a b, tf_ack f = Some (a, b) /\ 0 <= a <= 255 /\ 0 <= b <= 255) ->
  emits (tp_ser f) (tp_written_head f ++ wire).
Proof.
  intros (D & T & A) W H1 H2 H3. unfold tp_ser. cbv zeta. rewrite H1, H2, tp_head_app.
  apply emits_app; [apply tpc_emits|]. apply emits_app; [apply emits_yield1; exact D|].
  apply emits_app; [apply emits_yield1; exact T|].
  apply emits_app; [destruct (tc_agc (tf_control f)); [apply emits_yield1; lia | apply emits_nil]|].
  do 2 apply emits_skip. destruct (tc_ack_nv (tf_control f)).
  - destruct (H3 eq_refl) as (a & b & -> & Ha & Hb). apply emits_app; [|exact W].
    replace (Zbits 8 a ++ Zbits 8 b) with (bytes_bits [a; b]).
    + apply emits_yields. repeat (constructor; [unfold is_byte; lia|]). constructor.
    + unfold bytes_bits. cbn [flat_map]. rewrite app_nil_r. reflexivity.
  - apply emits_app; [apply emits_nil | exact W].
Qed.
Lemma tp_times_fail f : tp_made f -> tc_tl (tf_control f) = true \/ tc_te (tf_control f) = true -> tp_ser f = Err TypeError.
Proof.
  intros (D & T & A) H. unfold tp_ser. cbv zeta.
  destruct (tpc_emits (tf_control f)) as (l1 & -> & _).
  destruct (emits_yield1 (tf_dialog f) D) as (l2 & -> & _). destruct (emits_yield1 (tf_trans f) T) as (l3 & -> & _).
  destruct (emits_yield1 (tf_agc f) ltac:(lia)) as (l4 & -> & _).
  destruct (tc_agc (tf_control f)), (tc_tl (tf_control f)), (tc_te (tf_control f)); try reflexivity; destruct H; discriminate.
Qed.
Lemma tp_ack_fails f : tp_made f -> tc_ack_nv (tf_control f) = true -> tf_ack f = None -> tp_ser f = Err TypeError.
Proof.
  intros (D & T & A) H N. unfold tp_ser. cbv zeta. rewrite H, N.
  destruct (tpc_emits (tf_control f)) as (l1 & -> & _).
  destruct (emits_yield1 (tf_dialog f) D) as (l2 & -> & _). destruct (emits_yield1 (tf_trans f) T) as (l3 & -> & _).
  destruct (emits_yield1 (tf_agc f) ltac:(lia)) as (l4 & -> & _).
  destruct (tc_agc (tf_control f)), (tc_tl (tf_control f)), (tc_te (tf_control f)); reflexivity.
Qed.
(** what a received frame loses when it is written again *)
Lemma tp_received f wire : tp_wf f -> emits (command_ser (tf_cmd f)) wire ->
  (tf_tl f = None -> tf_te f = None -> tf_tc f = None -> emits (tp_ser f) (tp_head false f ++ wire))
  /\ (tf_tl f = None -> tf_te f = None -> forall t, tf_tc f = Some t ->
       exists l, emits (tp_ser f) (l ++ wire) /\ tp_head false f = l ++ ct_layout t)
  /\ (tf_tl f <> None \/ tf_te f <> None -> tp_ser f = Err TypeError).
Proof.
  intros (H1 & H2 & H3 & H4 & H5 & H6 & H7 & H8 & H9) W.
  assert (M : tp_made f).
  { split; [|split]; [unfold is_byte in *; lia | unfold is_byte in *; lia|]. destruct (tc_agc (tf_control f)); lia. }
  assert (E : tf_tl f = None -> tf_te f = None -> emits (tp_ser f) (tp_written_head f ++ wire)).
  { intros L1 L2. rewrite L1 in H7. rewrite L2 in H8. apply tp_emits; auto. intros X. congruence. }
  assert (Q : tp_written_head f =
    [tc_start (tf_control f); false; tc_tl (tf_control f); tc_te (tf_control f); tc_ack_req (tf_control f); false; false; tc_agc (tf_control f)]
    ++ Zbits 8 (tf_dialog f) ++ Zbits 8 (tf_trans f) ++ (if tc_agc (tf_control f) then Zbits 8 (tf_agc f) else [])).
  { unfold tp_written_head, control_bits. rewrite H1, H2, app_nil_r. reflexivity. }
  split; [|split].
  - intros L1 L2 L3. specialize (E L1 L2). rewrite Q in E. unfold tp_head. rewrite L1, L2, L3. cbn [ct_opt_bits]. rewrite !app_nil_r. exact E.
  - intros L1 L2 t L3. exists (tp_written_head f). split; [exact (E L1 L2)|]. rewrite Q. unfold tp_head. rewrite L1, L2, L3.
    cbn [ct_opt_bits app]. rewrite <- !app_assoc. reflexivity.
  - intros X. apply tp_times_fail; [exact M|]. unfold ct_announced in *. destruct (tf_tl f), (tf_te f); tauto.
Qed.
