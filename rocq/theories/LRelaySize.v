(** Lemmas for C99: how many bits reading an action takes at least *)
From Coq Require Import ZifyBool ZifyNat Lia.
From Verif Require Import SRelay LReser LTags LParsed LAction LSp LCommand LReject LTight LRelay.
Open Scope list_scope.
Open Scope Z_scope.

Definition uses {A} (f : A -> nat) (p : P A) : Prop :=
  forall s a s', p s = Ok (a, s') -> (f a + length (bits s') <= length (bits s))%nat.
Lemma uses_uint n : uses (fun _ => n) (read_uint n).
Proof. intros s a s' E. apply read_uint_inv in E as (_ & E & _). rewrite E, app_length, Zbits_length. lia. Qed.
Lemma uses_bool : uses (fun _ => 1%nat) read_bool.
Proof. intros s a s' E. apply read_bool_inv in E as (E & _). rewrite E, app_length. cbn [length]. lia. Qed.
Lemma uses_pad n : uses (fun _ => n) (read_pad n).
Proof. intros s a s' E. apply read_pad_inv in E as (l & L & E & _). rewrite E, app_length. lia. Qed.
Lemma uses_length : uses (fun l => length (len_layout l)) length_parse.
Proof.
  intros s a s' E. apply length_inv in E as (k & F & E & _). rewrite E, app_length. unfold len_layout.
  rewrite !len_form_length. apply len_k_shortest in F. lia.
Qed.
Lemma uses_offset : uses (fun o => length (off_layout o)) offset_parse.
Proof.
  intros s a s' E. unfold offset_parse in E. apply bindp_inv in E as (i & s1 & E1 & E). apply bindp_inv in E as (o & s2 & E2 & E).
  apply lift_inv in E as [E ->]. apply validated_inv in E as [_ <-]. apply uses_uint in E1. apply uses_length in E2.
  unfold off_layout. cbn [off_id off_offset]. rewrite app_length, Zbits_length. lia.
Qed.
Lemma uses_dr : uses (fun d => length (dr_layout d)) dr_parse.
Proof.
  intros s a s' E. unfold dr_parse in E. apply bindp_inv in E as (o & s1 & E1 & E). apply bindp_inv in E as (l & s2 & E2 & E).
  apply lift_inv in E as [E ->]. unfold mk_data_request in E. destruct (mk_length (len_value l)) as [l'|] eqn:El; [|discriminate].
  cbn [rbind] in E. injection E as <-. apply mk_length_inv in El as [_ Ev].
  apply uses_offset in E1. apply uses_length in E2. unfold dr_layout, len_layout in *. cbn [dr_offset dr_length]. rewrite Ev.
  rewrite app_length. lia.
Qed.
Lemma uses_bytes n : 0 <= n -> uses (fun l => length (bytes_bits l)) (read_bytes n).
Proof. intros H s a s' E. apply read_bytes_inv in E as (_ & _ & E & _); [|exact H]. rewrite E, app_length. lia. Qed.
Lemma uses_data : uses (fun d => length (data_layout d)) data_parse.
Proof.
  intros s a s' E. unfold data_parse in E. apply bindp_inv in E as (o & s1 & E1 & E). apply bindp_inv in E as (l & s2 & E2 & E).
  apply bindp_inv in E as (bs & s3 & E3 & E). apply lift_inv in E as [E ->].
  pose proof (post_length _ _ _ E2) as Wl. unfold len_wf in Wl.
  pose proof (read_bytes_inv _ _ _ _ (proj1 Wl) E3) as (Z3 & _).
  apply uses_bytes in E3; [|apply Wl]. apply uses_offset in E1. apply uses_length in E2.
  pose proof (post_offset) as _. unfold mk_data in E. destruct (mk_length (zlen bs)) as [l'|] eqn:El; [|discriminate]. cbn [rbind] in E.
  apply validated_inv in E as [_ <-]. apply mk_length_inv in El as [_ Ev].
  unfold data_layout. cbn [d_offset d_length d_data]. unfold len_layout in *. rewrite Ev, Z3, !app_length. lia.
Qed.
Lemma uses_fho : uses (fun f => length (fho_layout f)) fho_parse.
Proof.
  intros s a s' E. unfold fho_parse in E. apply bindp_inv in E as (i & s1 & E1 & E). apply bindp_inv in E as (h & s2 & E2 & E).
  apply lift_inv in E as [E ->]. apply validated_inv in E as [_ <-]. apply uses_uint in E1.
  apply fh_inv in E2 as (W & r & Lr & E2 & P2). unfold fho_layout. cbn [fho_id fho_header]. rewrite app_length, Zbits_length.
  assert (L : length (fh_layout h) = length (fh_bits r h)).
  { unfold fh_layout, fh_bits, prop_layout, prop_bits. rewrite !app_length. cbn [length]. lia. }
  rewrite L. rewrite E2, app_length in E1. lia.
Qed.
Lemma uses_query : uses (fun q => length (query_layout q)) query_parse.
Proof.
  intros s a s' E. unfold query_parse in E. apply bindp_inv in E as (v & s1 & E1 & E). apply bindp_inv in E as (t & s2 & E2 & E).
  apply bindp_inv in E as (u & s3 & E3 & E). apply bindp_inv in E as (m & s4 & E4 & E). apply bindp_inv in E as (u2 & s5 & E5 & E).
  apply bindp_inv in E as (ap & s6 & E6 & E). apply bindp_inv in E as (l & s7 & E7 & E). apply bindp_inv in E as (bs & s8 & E8 & E).
  apply bindp_inv in E as (o & s9 & E9 & E). apply lift_inv in E as [E ->]. apply validated_inv in E as [_ <-].
  apply lift_inv in E2 as [_ ->]. assert (s3 = s1) by (destruct t; try discriminate; apply ret_inv in E3; tauto). subst s3.
  assert (s5 = s4) by (destruct m; try discriminate; apply ret_inv in E5; tauto). subst s5.
  unfold arith_parse in E6. apply bindp_inv in E6 as (sg & s6a & E6a & E6). apply bindp_inv in E6 as (cv & s6b & E6b & E6).
  apply bindp_inv in E6 as (ct & s6c & E6c & E6). apply lift_inv in E6c as [_ ->]. apply ret_inv in E6 as [-> ->].
  pose proof (post_length _ _ _ E7) as Wl. unfold len_wf in Wl.
  apply uses_uint in E1. apply uses_bool in E4. apply uses_bool in E6a. apply uses_uint in E6b. apply uses_length in E7.
  apply uses_bytes in E8; [|apply Wl]. apply uses_offset in E9.
  unfold query_layout. cbn [q_type q_mask q_params q_compare_length q_compare_value q_file_a ar_signed ar_comp].
  rewrite !app_length, !Zbits_length. cbn [length]. lia.
Qed.
Lemma uses_addr : uses (fun a => length (addr_layout a)) addr_parse.
Proof.
  intros s a s' E. pose proof (post_addr _ _ _ E) as W. rewrite (addr_size a W). unfold addr_parse in E.
  apply bindp_inv in E as (u & s1 & E1 & E). apply bindp_inv in E as (v & s2 & E2 & E). apply bindp_inv in E as (t & s3 & E3 & E).
  apply bindp_inv in E as (v2 & s4 & E4 & E). apply bindp_inv in E as (m & s5 & E5 & E). apply bindp_inv in E as (cl & s6 & E6 & E).
  cbv zeta in E. apply bindp_inv in E as (i & s7 & E7 & E). apply bindp_inv in E as (i2 & s8 & E8 & E). apply lift_inv in E as [E ->].
  apply validated_inv in E as [_ <-]. cbn [ad_id_type].
  apply uses_pad in E1. apply uses_uint in E2. apply lift_inv in E3 as [_ ->]. apply uses_uint in E4. apply lift_inv in E5 as [_ ->].
  apply uses_uint in E6.
  assert (X : (length (bits s8) <= length (bits s7))%nat).
  { destruct t, i; try (apply ret_inv in E8 as [_ ->]; lia). apply bindp_inv in E8 as (c & s9 & E9 & E8).
    apply lift_inv in E9 as [_ ->]. apply ret_inv in E8 as [_ ->]. lia. }
  destruct t; cbn [addr_id_length Nat.ltb Nat.leb] in E7;
    try (apply bindp_inv in E7 as (w & s9 & E9 & E7); apply uses_uint in E9; apply ret_inv in E7 as [_ ->]; lia);
    apply ret_inv in E7 as [_ ->]; lia.
Qed.
Definition full (a : option Action) : nat :=
  match a with Some a => if plain a && negb (is_forward a) then length (action_layout a) else 0%nat | None => 0%nat end.
Lemma uses_regular {A} b7 b6 (p : P A) op : uses (fun x => length (operand_layout (op x))) p ->
  uses (fun a => full a - 8)%nat (parse_regular b7 b6 p op).
Proof.
  intros U s a s' E. unfold parse_regular in E. apply bindp_inv in E as (x & s1 & E1 & E). apply bindp_inv in E as (y & s2 & E2 & E).
  apply lift_inv in E2 as [E2 ->]. apply ret_inv in E as [-> ->]. apply mk_action_inv in E2. subst y. apply U in E1.
  unfold full. change (plain (mkAction (Regular b7 b6) (op x)) && negb (is_forward (mkAction (Regular b7 b6) (op x)))) with true.
  cbv iota. unfold action_layout, act_bits. cbn [a_kind a_op]. rewrite !app_length, Zbits_length. cbn [length]. lia.
Qed.
Lemma act_uses s a s' : parse_action s = Ok (a, s') -> (length (bits s') <= length (bits s))%nat.
Proof. intros E. destruct (tight_action _ _ _ E) as (d & Hb & _). rewrite Hb, app_length. lia. Qed.
Lemma uses_indirect b7 b6 : uses (fun a => full a - 8)%nat (parse_indirect_forward_action b7 b6).
Proof.
  intros s a s' E. unfold parse_indirect_forward_action in E. apply bindp_inv in E as (i & s1 & E1 & E).
  apply bindp_inv in E as (x & s2 & E2 & E). apply bindp_inv in E as (o & s3 & E3 & E). apply bindp_inv in E as (y & s4 & E4 & E).
  apply lift_inv in E3 as [E3 ->]. apply lift_inv in E4 as [E4 ->]. apply ret_inv in E as [-> ->].
  apply validated_inv in E3 as [_ <-]. apply mk_action_inv in E4. subst y. apply uses_uint in E1.
  unfold full. match goal with |- context [plain ?y && negb (is_forward ?y)] => change (plain y && negb (is_forward y)) with true end.
  cbv iota. unfold action_layout, act_bits. cbn [a_kind a_op operand_layout]. unfold ind_layout. cbn [ii_file ii_overload].
  rewrite !app_length, !Zbits_length. cbn [length]. destruct b7.
  - apply bindp_inv in E2 as (ad & s5 & E5 & E2). apply ret_inv in E2 as [-> ->]. apply uses_addr in E5. lia.
  - apply ret_inv in E2 as [-> ->]. cbn [length]. lia.
Qed.
Lemma uses_action : uses full parse_action.
Proof.
  intros s a s' E. pose proof (act_uses s a s' E) as Z. unfold parse_action in E.
  apply bindp_inv in E as (b7 & s1 & E1 & E). apply bindp_inv in E as (b6 & s2 & E2 & E).
  apply bindp_inv in E as (op & s3 & E3 & E). apply uses_bool in E1. apply uses_bool in E2. apply uses_uint in E3.
  assert (X : full a = 0%nat \/ (full a - 8 + length (bits s') <= length (bits s3))%nat).
  { repeat match type of E with (if ?b then _ else _) _ = _ => destruct b end.
    - right. exact (uses_regular b7 b6 dr_parse ReadFileData uses_dr _ _ _ E).
    - right. exact (uses_regular b7 b6 data_parse WriteFileData uses_data _ _ _ E).
    - right. exact (uses_regular b7 b6 query_parse BreakQuery uses_query _ _ _ E).
    - right. exact (uses_regular b7 b6 fho_parse CreateNewFile uses_fho _ _ _ E).
    - right. exact (uses_regular b7 b6 data_parse mk_return_file_data uses_data _ _ _ E).
    - right. exact (uses_regular b7 b6 fho_parse ReturnFileHeader uses_fho _ _ _ E).
    - left. unfold parse_status_action in E. destruct b7; [discriminate|]. destruct b6; [|apply ret_inv in E as [-> _]; reflexivity].
      apply bindp_inv in E as (i & s4 & _ & E). apply bindp_inv in E as (l & s5 & _ & E).
      destruct (i =? 0); [discriminate|]. destruct (i =? 215).
      + apply bindp_inv in E as (x & s6 & _ & E). apply bindp_inv in E as (y & s7 & _ & E). apply bindp_inv in E as (z & s8 & E8 & E).
        apply lift_inv in E8 as [E8 _]. apply mk_action_inv in E8. apply ret_inv in E as [-> _]. subst z. reflexivity.
      + destruct (i =? 1); [|discriminate]. apply bindp_inv in E as (y & s7 & _ & E). apply bindp_inv in E as (z & s8 & E8 & E).
        apply lift_inv in E8 as [E8 _]. apply mk_action_inv in E8. apply ret_inv in E as [-> _]. subst z. reflexivity.
    - left. unfold parse_tag_response_action in E. apply bindp_inv in E as (x & s6 & _ & E). apply bindp_inv in E as (y & s7 & _ & E).
      apply bindp_inv in E as (z & s8 & E8 & E). apply lift_inv in E8 as [E8 _]. apply mk_action_inv in E8. apply ret_inv in E as [-> _].
      subst z. reflexivity.
    - left. unfold parse_forward_action in E. destruct b7; [discriminate|]. apply bindp_inv in E as (x & s6 & _ & E).
      apply bindp_inv in E as (y & s7 & _ & E). apply bindp_inv in E as (w & s9 & _ & E).
      apply bindp_inv in E as (z & s8 & E8 & E). apply lift_inv in E8 as [E8 _]. apply mk_action_inv in E8. apply ret_inv in E as [-> _].
      subst z. reflexivity.
    - right. exact (uses_indirect b7 b6 _ _ _ E).
    - left. unfold parse_tag_request_action in E. destruct b6; [discriminate|]. apply bindp_inv in E as (x & s6 & _ & E).
      apply bindp_inv in E as (y & s7 & _ & E). apply bindp_inv in E as (z & s8 & E8 & E). apply lift_inv in E8 as [E8 _].
      apply mk_action_inv in E8. apply ret_inv in E as [-> _]. subst z. reflexivity.
    - discriminate. }
  cbv beta in *. lia.
Qed.
