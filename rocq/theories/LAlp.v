(** Codec proofs for ALP operands and actions. *)
From Coq Require Import ZifyBool ZifyNat.
From Verif Require Export LReject SAlp.
Ltac Zify.zify_post_hook ::= Z.div_mod_to_equations.

(** ** Length *)
Lemma len_k_fits v : 0 <= v <= len_max -> len_fits (len_k v) v.
Proof.
  unfold len_max, len_fits, len_k. intros H.
  repeat match goal with |- context [if ?b then _ else _] => destruct b eqn:? end; pow2; lia.
Qed.
Lemma len_k_shortest k v : len_fits k v -> (len_k v <= k)%nat.
Proof.
  unfold len_fits, len_k. intros [Hk Hv].
  assert (k = 0 \/ k = 1 \/ k = 2 \/ k = 3)%nat as [-> | [-> | [-> | ->]]] by lia; pow2;
  repeat match goal with |- context [if ?b then _ else _] => destruct b eqn:? end;
  cbn [Nat.mul Nat.add] in *; pow2; lia.
Qed.
Lemma len_fits_max k v : len_fits k v -> 0 <= v <= len_max.
Proof.
  unfold len_fits, len_max. intros [Hk Hv].
  assert (k = 0 \/ k = 1 \/ k = 2 \/ k = 3)%nat as [-> | [-> | [-> | ->]]] by lia;
  cbn [Nat.mul Nat.add] in *; pow2; lia.
Qed.
Lemma len_form_length k v : length (len_form k v) = (8 * (k + 1))%nat.
Proof. unfold len_form. rewrite app_length, !Zbits_length. lia. Qed.
Lemma len_form_accepts k v : len_fits k v -> accepts length_parse (len_form k v) (mkLength v).
Proof.
  intros H. pose proof (len_fits_max _ _ H) as M. destruct H as [Hk Hv]. unfold length_parse, len_form.
  eapply accepts_bind; [apply accepts_uint; pow2; lia|].
  replace (Z.to_nat (6 + Z.of_nat k * 8)) with (6 + 8 * k)%nat by lia.
  eapply accepts_bind_l; [apply accepts_uint; exact Hv|].
  apply accepts_lift. apply validated_ok. unfold len_max in M. ranges.
Qed.
Lemma len_accepts l : len_wf l -> accepts length_parse (len_layout l) l.
Proof. destruct l as [v]. intros H. apply len_form_accepts. apply len_k_fits. exact H. Qed.
Lemma length_inv s l s' : length_parse s = Ok (l, s') ->
  exists k, len_fits k (len_value l) /\ bits s = len_form k (len_value l) ++ bits s'
            /\ pos s' = (pos s + 8 * (k + 1))%nat.
Proof.
  unfold length_parse. intros H. apply bindp_inv in H as (k & s1 & H1 & H).
  apply bindp_inv in H as (v & s2 & H2 & H). apply lift_inv in H as [H ->].
  apply validated_inv in H as [_ <-]. cbn [len_value].
  apply read_uint_inv in H1 as (B1 & H1 & P1). apply read_uint_inv in H2 as (B2 & H2 & P2).
  pow2. exists (Z.to_nat k). replace (Z.to_nat (6 + k * 8)) with (6 + 8 * Z.to_nat k)%nat in * by lia.
  split; [split; [lia | exact B2]|]. unfold len_form. rewrite Z2Nat.id by lia.
  rewrite H1, H2, app_assoc. split; [reflexivity | lia].
Qed.
(** big endian bytes of a value that fills only part of the first byte *)
Lemma len_be k j v : 0 <= v < 2 ^ Z.of_nat (6 + 8 * k) -> 0 <= j < 4 ->
  exists b0 rest, be_bytes (S k) v = b0 :: rest /\ 0 <= b0 < 64 /\ Forall is_byte rest
    /\ Zbits 8 (j * 64 + b0) ++ bytes_bits rest = Zbits 2 j ++ Zbits (6 + 8 * k) v.
Proof.
  intros Hv Hj. cbn [be_bytes].
  exists ((v / 2 ^ (8 * Z.of_nat k)) mod 256), (be_bytes k v). split; [reflexivity|].
  assert (Hp : 0 < 2 ^ (8 * Z.of_nat k)) by (apply Z.pow_pos_nonneg; lia).
  assert (Hq : 0 <= v / 2 ^ (8 * Z.of_nat k) < 64).
  { split; [apply Z.div_pos; lia|]. apply Z.div_lt_upper_bound; [lia|].
    replace (Z.of_nat (6 + 8 * k)) with (8 * Z.of_nat k + 6) in Hv by lia.
    rewrite Z.pow_add_r in Hv by lia. change (2 ^ 6) with 64 in Hv. lia. }
  rewrite Z.mod_small by lia. split; [exact Hq|]. split; [apply be_bytes_is_byte|].
  rewrite (bytes_bits_be_bytes k v). rewrite (Zbits_split 2 6) by (pow2; lia).
  rewrite <- app_assoc. f_equal. rewrite (Zbits_app 6 (8 * k) v).
  replace (Z.of_nat (8 * k)) with (8 * Z.of_nat k) by lia. reflexivity.
Qed.
Lemma len_emits l : len_wf l -> emits (length_ser l) (len_layout l).
Proof.
  destruct l as [v]. unfold len_wf, len_layout, length_ser, len_max. cbn [len_value]. intros H.
  assert (Big : forall k j, len_fits k v -> (1 <= k)%nat -> j = Z.of_nat k -> 
    emits (let! bs := pack_be 4 v in
           match skipn (3 - k) bs with
           | b0 :: rest => yield1 (j * 64 + b0) +++ yields rest
           | [] => Err IndexError
           end) (len_form k v)).
  { intros k j Hf Hk1 ->. destruct Hf as [Hk Hv]. rewrite pack_be_ok by (pow2; lia). cbn [rbind].
    replace 4%nat with ((3 - k) + S k)%nat by lia.
    rewrite skipn_be_bytes.
    2:{ split; [lia|]. eapply Z.lt_le_trans; [apply Hv|]. apply Z.pow_le_mono_r; lia. }
    destruct (len_be k (Z.of_nat k) v Hv) as (b0 & rest & -> & Hb & Hr & E); [lia|].
    unfold len_form. rewrite <- E. apply emits_app; [apply emits_yield1; lia | apply emits_yields; exact Hr]. }
  unfold len_k. change (2 ^ 6) with 64. change (2 ^ 14) with 16384. change (2 ^ 22) with 4194304.
  destruct (Z.ltb_spec v 64); [|destruct (Z.ltb_spec v 16384); [|destruct (Z.ltb_spec v 4194304)]].
  - replace (63 <? v) with false by lia. replace (16383 <? v) with false by lia.
    replace (4194303 <? v) with false by lia. cbn [Z.eqb Pos.eqb]. change (Z.shiftl (1 - 1) 6) with 0.
    apply emits_yield1'; [lia|]. apply (Zbits_split 2 6 0). pow2. lia.
  - replace (63 <? v) with true by lia. replace (16383 <? v) with false by lia.
    replace (4194303 <? v) with false by lia. cbn [Z.eqb Pos.eqb].
    apply (Big 1%nat 1); try lia. split; [lia|]. cbn. lia.
  - replace (63 <? v) with true by lia. replace (16383 <? v) with true by lia.
    replace (4194303 <? v) with false by lia. cbn [Z.eqb Pos.eqb].
    apply (Big 2%nat 2); try lia. split; [lia|]. cbn. lia.
  - replace (63 <? v) with true by lia. replace (16383 <? v) with true by lia.
    replace (4194303 <? v) with true by lia. cbn [Z.eqb Pos.eqb].
    apply (Big 3%nat 3); try lia. split; [lia|]. cbn. lia.
Qed.
Lemma len_codec : codec len_wf len_layout length_ser length_parse.
Proof. intros l H. split; [apply len_emits | apply len_accepts]; exact H. Qed.
Lemma mk_length_iff v : (mk_length v = Ok (mkLength v) <-> 0 <= v <= len_max)
  /\ (~ (0 <= v <= len_max) -> mk_length v = Err ValueError).
Proof.
  unfold mk_length, len_max. split; [rewrite validated_iff | intros H; apply validated_err]; ranges.
Qed.
Lemma len_prefix_free l1 l2 r1 r2 : len_wf l1 -> len_wf l2 ->
  len_layout l1 ++ r1 = len_layout l2 ++ r2 -> l1 = l2 /\ r1 = r2.
Proof.
  intros W1 W2 E. pose proof (len_accepts l1 W1 0%nat r1) as A1.
  pose proof (len_accepts l2 W2 0%nat r2) as A2. rewrite E, A2 in A1. injection A1 as -> _ ->. auto.
Qed.

(** ** Offset, requests, data *)
Lemma off_accepts o : off_wf o -> accepts offset_parse (off_layout o) o.
Proof.
  destruct o as [i l]. intros [Hi Hl]. cbn [off_id off_offset] in *. unfold offset_parse, off_layout.
  cbn [off_id off_offset]. acc1. eapply accepts_bind_l; [apply len_accepts; exact Hl|]. acc.
Qed.
Lemma off_emits o : off_wf o -> emits (offset_ser o) (off_layout o).
Proof. intros [Hi Hl]. apply emits_app; [apply emits_yield1; lia | apply len_emits; exact Hl]. Qed.
Lemma off_codec : codec off_wf off_layout offset_ser offset_parse.
Proof. intros l H. split; [apply off_emits | apply off_accepts]; exact H. Qed.
Lemma mk_length_ok l : len_wf l -> mk_length (len_value l) = Ok l.
Proof. destruct l as [v]. intros H. apply mk_length_iff. exact H. Qed.
Lemma dr_accepts d : dr_wf d -> accepts dr_parse (dr_layout d) d.
Proof.
  destruct d as [o l]. intros [Ho Hl]. cbn [dr_offset dr_length] in *. unfold dr_parse, dr_layout.
  cbn [dr_offset dr_length].
  eapply accepts_bind; [apply off_accepts; exact Ho|].
  eapply accepts_bind_l; [apply len_accepts; exact Hl|].
  apply accepts_lift. unfold mk_data_request. rewrite mk_length_ok by exact Hl. reflexivity.
Qed.
Lemma dr_emits d : dr_wf d -> emits (dr_ser d) (dr_layout d).
Proof. intros [Ho Hl]. apply emits_app; [apply off_emits | apply len_emits]; assumption. Qed.
Lemma dr_codec : codec dr_wf dr_layout dr_ser dr_parse.
Proof. intros l H. split; [apply dr_emits | apply dr_accepts]; exact H. Qed.
Lemma forallb_byte l : Forall is_byte l -> forallb is_BYTE l = true.
Proof. intros H. apply forallb_forall. rewrite Forall_forall in H. intros x Hx. specialize (H x Hx). ranges. Qed.
Lemma byte_forallb l : forallb is_BYTE l = true -> Forall is_byte l.
Proof. intros H. rewrite forallb_forall in H. apply Forall_forall. intros x Hx. specialize (H x Hx). ranges. Qed.
Lemma data_len_wf d : data_wf d -> len_wf (d_length d).
Proof. intros (_ & _ & E & M). unfold len_wf. rewrite E. pose proof (zlen_nonneg (d_data d)). lia. Qed.
Lemma mk_data_ok d : data_wf d -> mk_data (d_data d) (d_offset d) = Ok d.
Proof.
  intros W. pose proof (data_len_wf d W) as L. destruct W as (Ho & Hb & E & M). unfold mk_data.
  rewrite <- E, mk_length_ok by exact L. cbn [rbind]. rewrite validated_ok by (apply forallb_byte; exact Hb).
  destruct d; reflexivity.
Qed.
Lemma data_accepts d : data_wf d -> accepts data_parse (data_layout d) d.
Proof.
  intros W. pose proof (data_len_wf d W) as L. pose proof (mk_data_ok d W) as K.
  destruct W as (Ho & Hb & E & M). unfold data_parse, data_layout.
  eapply accepts_bind; [apply off_accepts; exact Ho|].
  eapply accepts_bind; [apply len_accepts; exact L|].
  eapply accepts_bind_l; [apply accepts_bytes; [exact Hb | symmetry; exact E]|].
  apply accepts_lift. exact K.
Qed.
Lemma data_emits d : data_wf d -> emits (data_ser d) (data_layout d).
Proof.
  intros W. pose proof (data_len_wf d W) as L. destruct W as (Ho & Hb & E & M).
  apply emits_app; [apply off_emits; exact Ho|]. apply emits_app; [apply len_emits; exact L|].
  apply emits_yields. exact Hb.
Qed.
Lemma data_codec : codec data_wf data_layout data_ser data_parse.
Proof. intros l H. split; [apply data_emits | apply data_accepts]; exact H. Qed.

(** ** File header operand *)
Lemma fho_accepts f : fho_wf f -> accepts fho_parse (fho_layout f) f.
Proof.
  destruct f as [i h]. intros [Hi Hh]. cbn [fho_id fho_header] in *. unfold fho_parse, fho_layout.
  cbn [fho_id fho_header]. acc1.
  eapply accepts_bind_l; [apply fh_accepts; [reflexivity | exact Hh]|]. acc.
Qed.
Lemma fho_emits f : fho_wf f -> emits (fho_ser f) (fho_layout f).
Proof. intros [Hi Hl]. apply emits_app; [apply emits_yield1; lia | apply fh_emits; exact Hl]. Qed.
Lemma fho_codec : codec fho_wf fho_layout fho_ser fho_parse.
Proof. intros l H. split; [apply fho_emits | apply fho_accepts]; exact H. Qed.

(** ** Query *)
Lemma qtype_of_code t : qtype_of (qtype_code t) = Ok t. Proof. destruct t; reflexivity. Qed.
Lemma comp_of_code t : comp_of (comp_code t) = Ok t. Proof. destruct t; reflexivity. Qed.
Lemma qtype_code_u t : 0 <= qtype_code t < 8. Proof. destruct t; cbn; lia. Qed.
Lemma comp_code_u t : 0 <= comp_code t < 8. Proof. destruct t; cbn; lia. Qed.
Lemma query_accepts q : query_wf q -> query_supported q -> accepts query_parse (query_layout q) q.
Proof.
  destruct q as [t m [sg cp] l v o]. unfold query_wf, query_supported, query_parse, query_layout.
  cbn [q_type q_mask q_params q_compare_length q_compare_value q_file_a ar_signed ar_comp].
  intros (Hl & Hv & Ho) (-> & -> & E).
  eapply accepts_bind; [apply accepts_uint; pose proof (qtype_code_u Q_COMP_VALUE); pow2; lia|].
  eapply accepts_bind0; [apply accepts_lift; apply qtype_of_code|].
  eapply accepts_bind0; [apply accepts_ret|].
  eapply accepts_bind; [apply accepts_bool|].
  eapply accepts_bind0; [apply accepts_ret|].
  rewrite (app_assoc [sg]). eapply accepts_bind.
  { unfold arith_parse. eapply accepts_bind; [apply accepts_bool|].
    eapply accepts_bind_l; [apply accepts_uint; pose proof (comp_code_u cp); pow2; lia|].
    eapply accepts_bind0; [apply accepts_lift; apply comp_of_code | apply accepts_ret]. }
  eapply accepts_bind; [apply len_accepts; exact Hl|].
  eapply accepts_bind; [apply accepts_bytes; [exact Hv | symmetry; exact E]|].
  eapply accepts_bind_l; [apply off_accepts; exact Ho|].
  apply accepts_lift. apply validated_ok. apply forallb_byte. exact Hv.
Qed.
Lemma query_emits q : query_wf q -> emits (query_ser q) (query_layout q).
Proof.
  destruct q as [t m [sg cp] l v o]. unfold query_wf, query_ser, query_layout.
  cbn [q_type q_mask q_params q_compare_length q_compare_value q_file_a ar_signed ar_comp].
  intros (Hl & Hv & Ho).
  rewrite (app_assoc (Zbits 3 _)), (app_assoc (_ ++ _)), (app_assoc (_ ++ _)).
  apply emits_app; [destruct t, m, sg, cp; apply emits_by_check; reflexivity|].
  apply emits_app; [apply len_emits; exact Hl|].
  apply emits_app; [apply emits_yields; exact Hv | apply off_emits; exact Ho].
Qed.
(** other query types and masks are refused *)
Lemma query_refused q : query_wf q -> q_type q <> Q_COMP_VALUE \/ q_mask q = true ->
  rejects query_parse (query_layout q) AssertNoMsg.
Proof.
  destruct q as [t m [sg cp] l v o]. unfold query_wf, query_parse, query_layout.
  cbn [q_type q_mask q_params q_compare_length q_compare_value q_file_a ar_signed ar_comp].
  intros _ H.
  eapply rejects_bind; [apply accepts_uint; pose proof (qtype_code_u t); pow2; lia|].
  eapply rejects_bind0; [apply accepts_lift; apply qtype_of_code|].
  assert (D : t = Q_COMP_VALUE \/ t <> Q_COMP_VALUE) by (destruct t; auto; right; discriminate).
  destruct D as [->|N].
  - destruct H as [H| ->]; [contradiction|].
    eapply rejects_bind0; [apply accepts_ret|].
    eapply rejects_bind; [apply accepts_bool|]. apply rejects_bind_first. apply rejects_raise.
  - apply rejects_bind_first. destruct t; first [contradiction | apply rejects_raise].
Qed.

(** ** Interface configurations *)
Lemma lora_flags_emits adr ack : emits (yield1 (lora_flags ack adr)) (lora_flag_bits adr ack).
Proof. destruct adr, ack; apply emits_by_check; reflexivity. Qed.
Lemma abp_accepts c : abp_wf c -> accepts abp_parse (abp_layout c) c.
Proof.
  destruct c as [ad ak po ra de ne]. unfold abp_wf, abp_parse, abp_layout, lora_flag_bits.
  cbn [abp_adr abp_ack abp_port abp_rate abp_dev_addr abp_netw_id]. intros (H1 & H2 & H3 & H4).
  rewrite <- !app_assoc.
  eapply accepts_bind; [apply accepts_pad; apply Zbits_length|]. acc1. acc1.
  eapply accepts_bind; [apply accepts_pad; reflexivity|]. acc.
Qed.
Lemma abp_emits c : abp_wf c -> emits (abp_ser c) (abp_layout c).
Proof.
  intros (H1 & H2 & H3 & H4). unfold abp_ser, abp_layout.
  apply emits_app; [apply lora_flags_emits|].
  apply emits_app; [apply emits_yield1; lia|]. apply emits_app; [apply emits_yield1; lia|].
  apply emits_app; apply (emits_pack_be 4); ranges.
Qed.
Lemma otaa_accepts c : otaa_wf c -> accepts otaa_parse (otaa_layout c) c.
Proof.
  destruct c as [ad ak po ra]. unfold otaa_wf, otaa_parse, otaa_layout, lora_flag_bits.
  cbn [otaa_adr otaa_ack otaa_port otaa_rate]. intros (H1 & H2).
  rewrite <- !app_assoc.
  eapply accepts_bind; [apply accepts_pad; apply Zbits_length|]. acc1. acc1.
  eapply accepts_bind; [apply accepts_pad; reflexivity|]. acc.
Qed.
Lemma otaa_emits c : otaa_wf c -> emits (otaa_ser c) (otaa_layout c).
Proof.
  intros (H1 & H2). unfold otaa_ser, otaa_layout.
  apply emits_app; [apply lora_flags_emits|]. apply emits_app; apply emits_yield1; lia.
Qed.
Lemma iftype_of_code t : iftype_of (iftype_code t) = Ok t. Proof. destruct t; reflexivity. Qed.
Lemma iftype_code_u t : 0 <= iftype_code t < 256. Proof. destruct t; cbn; lia. Qed.
Lemma ic_emits i : ic_wf i -> emits (ic_ser i) (ic_layout i).
Proof.
  destruct i as [t c]. unfold ic_wf, ic_ser, ic_layout. cbn [ic_id ic_conf]. intros H.
  apply emits_app; [destruct t; apply emits_by_check; reflexivity|].
  destruct c as [[c|c|c]|]; cbn [ifconfig_ser ifconf_layout ifconf_wf] in *.
  - apply conf_emits; exact H.
  - apply abp_emits; exact H.
  - apply otaa_emits; exact H.
  - apply emits_nil.
Qed.
Lemma ind_emits o : ind_wf o -> emits (indirect_ser o) (ind_layout o).
Proof.
  destruct o as [f a]. unfold ind_wf, indirect_ser, ind_layout. cbn [ii_file ii_overload]. intros [Hf Ha].
  apply emits_app; [apply emits_yield1; lia|]. destruct a; [apply addr_emits; exact Ha | apply emits_nil].
Qed.
