(** Addressee, QoS, configuration, status. *)
From Coq Require Import ZifyBool ZifyNat.
From Verif Require Export LTypes.
Ltac Zify.zify_post_hook ::= Z.div_mod_to_equations.

(** the byte of an NBID addressee that survives the second compression *)
Definition nbid_byte (c : CT) : Z := 32 * ct_exp c + ct_mant c.
Lemma nbid_byte_range c : ct_wf c -> 0 <= nbid_byte c <= 255.
Proof. unfold ct_wf, nbid_byte. lia. Qed.
Lemma nbid_byte_bits c : ct_wf c -> ct_layout c = Zbits 8 (nbid_byte c).
Proof.
  intros [He Hm]. unfold ct_layout, nbid_byte. rewrite Z.mul_comm. symmetry.
  apply (Zbits_split 3 5). ranges.
Qed.
Definition ct_all : list CT :=
  flat_map (fun e => map (fun m => mkCT (Z.of_nat e) (Z.of_nat m)) (seq 0 32)) (seq 0 8).
Lemma ct_all_complete c : ct_wf c -> In c ct_all.
Proof.
  intros [He Hm]. destruct c as [e m]. cbn [ct_exp ct_mant] in *. unfold ct_all.
  apply in_flat_map. exists (Z.to_nat e). split; [apply in_seq; lia|].
  apply in_map_iff. exists (Z.to_nat m). split; [f_equal; lia | apply in_seq; lia].
Qed.
Definition ct_eqb (a b : CT) : bool := (ct_exp a =? ct_exp b) && (ct_mant a =? ct_mant b).
Lemma ct_eqb_eq a b : ct_eqb a b = true <-> a = b.
Proof.
  destruct a as [e m], b as [e' m']. unfold ct_eqb. cbn [ct_exp ct_mant]. split.
  - intros H. f_equal; lia.
  - intros [= -> ->]. lia.
Qed.
(** what compressing an already compressed byte yields *)
Definition recompress (c : CT) : option CT :=
  match ct_compress (nbid_byte c) true with Ok (Some d) => Some d | _ => None end.
Definition recompress_check : bool :=
  forallb (fun c =>
    match ct_compress (nbid_byte c) true with
    | Ok (Some d) => in_range 0 7 (ct_exp d) && in_range 0 31 (ct_mant d)
                     && Bool.eqb (ct_eqb c d) ((nbid_byte c <=? 31) || (nbid_byte c =? 43))
    | _ => false
    end) ct_all.
Lemma recompress_check_true : recompress_check = true.
Proof. vm_compute. reflexivity. Qed.
Lemma recompress_spec c : ct_wf c -> exists d, ct_compress (nbid_byte c) true = Ok (Some d) /\ ct_wf d
  /\ (d = c <-> 0 <= nbid_byte c <= 31 \/ nbid_byte c = 43).
Proof.
  intros H. pose proof recompress_check_true as T. unfold recompress_check in T.
  rewrite forallb_forall in T. specialize (T c (ct_all_complete c H)). revert T.
  destruct (ct_compress (nbid_byte c) true) as [[d|]|]; try discriminate. intros T.
  exists d. split; [reflexivity|]. pose proof (nbid_byte_range c H) as R.
  apply andb_true_iff in T as [T1 T2]. split; [unfold ct_wf; ranges|].
  apply eqb_prop in T2. split.
  - intros ->. assert (E : ct_eqb c c = true) by (apply ct_eqb_eq; reflexivity).
    rewrite E in T2. lia.
  - intros E. symmetry. apply ct_eqb_eq. rewrite T2. lia.
Qed.

(** the result of parsing the layout of [a] *)
Definition addr_reparse (a : Addressee) : Addressee :=
  match ad_id a with
  | IdCT c => match ct_compress (nbid_byte c) true with
              | Ok (Some d) => mkAddr (ad_access_class a) (ad_id_type a) (IdCT d) (ad_nls a)
              | _ => a
              end
  | _ => a
  end.

Lemma addr_accepts_gen r a : length r = 2%nat -> addr_wf a ->
  accepts addr_parse (addr_bits r a) (addr_reparse a).
Proof.
  intros Hr. destruct a as [ac t i m]. unfold addr_wf, addr_parse, addr_bits, addr_reparse.
  cbn [ad_access_class ad_id_type ad_id ad_nls]. intros [Hac Hid].
  eapply accepts_bind; [apply accepts_pad; exact Hr|].
  acc1. acc1. acc1. acc1. acc1.
  unfold addr_id_bits. cbn [ad_id_type ad_id].
  destruct t, i as [|z|c]; try contradiction;
    match goal with |- context [Nat.ltb 0 ?x] =>
      let y := eval vm_compute in (Nat.ltb 0 x) in change (Nat.ltb 0 x) with y end; cbv beta iota zeta.
  - destruct (recompress_spec c Hid) as (d & Hd & Wd & _). rewrite Hd.
    rewrite (nbid_byte_bits c Hid).
    eapply accepts_bind_l.
    { eapply accepts_bind_l; [apply (accepts_uint 8); pose proof (nbid_byte_range c Hid); ranges | apply accepts_ret]. }
    eapply accepts_bind0.
    { eapply accepts_bind0; [apply accepts_lift; exact Hd | apply accepts_ret]. }
    apply accepts_lift. apply validated_ok. cbn [addr_id_ok]. ranges.
  - eapply accepts_bind0; [apply accepts_ret|]. eapply accepts_bind0; [apply accepts_ret|].
    apply accepts_lift. apply validated_ok. cbn [addr_id_ok]. ranges.
  - eapply accepts_bind_l.
    { eapply accepts_bind_l; [apply (accepts_uint 64); ranges | apply accepts_ret]. }
    eapply accepts_bind0; [apply accepts_ret|].
    apply accepts_lift. apply validated_ok. cbn [addr_id_ok]. ranges.
  - eapply accepts_bind_l.
    { eapply accepts_bind_l; [apply (accepts_uint 16); ranges | apply accepts_ret]. }
    eapply accepts_bind0; [apply accepts_ret|].
    apply accepts_lift. apply validated_ok. cbn [addr_id_ok]. ranges.
Qed.
Lemma addr_reparse_stable a : addr_wf a -> (addr_reparse a = a <-> addr_stable a).
Proof.
  destruct a as [ac t i m]. unfold addr_wf, addr_stable, addr_reparse.
  cbn [ad_access_class ad_id_type ad_id ad_nls]. intros [_ Hid].
  destruct i as [|z|c]; try tauto. assert (Hc : ct_wf c) by (destruct t; tauto).
  destruct (recompress_spec c Hc) as (d & Hd & _ & E). rewrite Hd. rewrite <- E. split; congruence.
Qed.
Lemma addr_accepts r a : length r = 2%nat -> addr_wf a -> addr_stable a ->
  accepts addr_parse (addr_bits r a) a.
Proof.
  intros Hr Hw Hs. rewrite <- (proj2 (addr_reparse_stable a Hw) Hs) at 2.
  apply addr_accepts_gen; assumption.
Qed.
Lemma addr_reparse_wf a : addr_wf a -> addr_wf (addr_reparse a).
Proof.
  destruct a as [ac t i m]. unfold addr_wf, addr_reparse.
  cbn [ad_access_class ad_id_type ad_id ad_nls]. intros [Ha Hid].
  destruct i as [|z|c]; try (split; assumption). assert (Hc : ct_wf c) by (destruct t; tauto).
  destruct (recompress_spec c Hc) as (d & Hd & Wd & E). rewrite Hd.
  cbn [ad_access_class ad_id_type ad_id ad_nls]. split; [assumption|]. destruct t; tauto.
Qed.

Lemma skipn_be_bytes k n v : 0 <= v < 2 ^ (8 * Z.of_nat n) ->
  skipn k (be_bytes (k + n) v) = be_bytes n v.
Proof.
  intros H. induction k as [|k IH]; [reflexivity|].
  cbn [Nat.add be_bytes skipn]. apply IH.
Qed.
Lemma addr_first_byte t m : Z.lor 0 (Z.shiftl (idtype_value t) 4) + nls_value m
  = idtype_code t * 2 ^ Z.of_nat 4 + nls_code m.
Proof. destruct t, m; reflexivity. Qed.
Lemma addr_emits a : addr_wf a -> emits (addr_ser a) (addr_layout a).
Proof.
  destruct a as [ac t i m]. unfold addr_wf, addr_ser, addr_layout, addr_bits, addr_id_bits.
  cbn [ad_access_class ad_id_type ad_id ad_nls]. intros [Ha Hid].
  rewrite (app_assoc (Zbits 2 _)), app_assoc.
  apply emits_app.
  { rewrite addr_first_byte. pose proof (idtype_code_u t). pose proof (nls_code_u m).
    apply emits_yield1'; [pow2; lia|].
    rewrite <- (Zbits_split 2 4) by (pow2; lia).
    apply (Zbits_split 2 6 0). pow2. lia. }
  apply emits_app; [apply emits_yield1; lia|].
  destruct t, i as [|z|c]; try contradiction;
    match goal with |- context [Nat.ltb 0 ?x] =>
      let y := eval vm_compute in (Nat.ltb 0 x) in change (Nat.ltb 0 x) with y end;
    cbv beta iota zeta; cbn [rbind].
  - rewrite (nbid_byte_bits c Hid).
    replace (ct_compressed c) with (nbid_byte c).
    2:{ unfold ct_compressed, nbid_byte. rewrite Z.lor_0_l, Z.shiftl_mul_pow2 by lia. lia. }
    pose proof (nbid_byte_range c Hid) as R.
    rewrite pack_be_ok by (pow2; lia). cbn [rbind].
    change (8 - addr_id_length NBID)%nat with 7%nat.
    rewrite (skipn_be_bytes 7 1) by (pow2; lia).
    exists (be_bytes 1 (nbid_byte c)). split; [reflexivity|]. split; [apply be_bytes_is_byte|].
    apply (bytes_bits_be_bytes 1).
  - apply emits_nil.
  - rewrite pack_be_ok by (pow2; lia). cbn [rbind].
    change (8 - addr_id_length UID)%nat with 0%nat. cbn [skipn].
    exists (be_bytes 8 z). split; [reflexivity|]. split; [apply be_bytes_is_byte|].
    apply (bytes_bits_be_bytes 8).
  - rewrite pack_be_ok by (pow2; lia). cbn [rbind].
    change (8 - addr_id_length VID)%nat with 6%nat.
    rewrite (skipn_be_bytes 6 2) by (pow2; lia).
    exists (be_bytes 2 z). split; [reflexivity|]. split; [apply be_bytes_is_byte|].
    apply (bytes_bits_be_bytes 2).
Qed.
Lemma addr_codec : codec (fun a => addr_wf a /\ addr_stable a) addr_layout addr_ser addr_parse.
Proof. intros a [Hw Hs]. split; [apply addr_emits | apply addr_accepts]; auto. Qed.

(** nls nibble 8..15 *)
Lemma addr_rejects r t v ac rest : length r = 2%nat -> 8 <= v <= 15 ->
  rejects addr_parse (r ++ Zbits 2 (idtype_code t) ++ Zbits 4 v ++ Zbits 8 ac ++ rest) ValueError.
Proof.
  intros Hr Hv. unfold addr_parse.
  eapply rejects_bind; [apply accepts_pad; exact Hr|].
  eapply rejects_bind; [acc_leaf|]. eapply rejects_bind0; [acc_leaf|].
  eapply rejects_bind; [acc_leaf|]. apply rejects_bind_first. apply rejects_lift.
  unfold nls_of. repeat match goal with |- (if ?v =? ?c then _ else _) = _ =>
      destruct (Z.eqb_spec v c); [lia|] end. reflexivity.
Qed.

(** ** QoS and configuration *)
Lemma qos_accepts q : accepts qos_parse (qos_layout q) q.
Proof.
  destruct q as [re rt st rc]. unfold qos_parse, qos_layout. cbn [q_resp q_retry q_stop q_record].
  cbn [app]. destruct rt.
  eapply (accepts_bind _ _ [_]); [acc_leaf|]. eapply (accepts_bind _ _ [_]); [acc_leaf|].
  change (false :: false :: false :: ?x) with (Zbits 3 0 ++ x).
  acc1. eapply accepts_bind0; [apply (accepts_lift _ RETRY_NO); reflexivity|]. acc.
Qed.
Lemma qos_emits q : emits (qos_ser q) (qos_layout q).
Proof.
  destruct q as [re rt st rc]. destruct re, rt, st, rc; apply emits_by_check; reflexivity.
Qed.
Lemma qos_codec : codec (fun _ => True) qos_layout qos_ser qos_parse.
Proof. intros h _. split; [apply qos_emits | apply qos_accepts]. Qed.
Lemma conf_accepts c : conf_wf c -> conf_stable c -> accepts conf_parse (conf_layout c) c.
Proof.
  destruct c as [q d a]. unfold conf_wf, conf_stable, conf_parse, conf_layout.
  cbn [cf_qos cf_dorm_to cf_addressee]. intros [Hd Ha] Hs.
  eapply accepts_bind; [apply qos_accepts|]. eapply accepts_bind; [apply ct_accepts; exact Hd|].
  eapply accepts_bind_l; [apply addr_accepts; auto | apply accepts_ret].
Qed.
Lemma conf_emits c : conf_wf c -> emits (conf_ser c) (conf_layout c).
Proof.
  intros [Hd Ha]. unfold conf_ser, conf_layout.
  apply emits_app; [apply qos_emits|]. apply emits_app; [apply ct_emits | apply addr_emits]; assumption.
Qed.
Lemma conf_codec : codec (fun a => conf_wf a /\ conf_stable a) conf_layout conf_ser conf_parse.
Proof. intros a [Hw Hs]. split; [apply conf_emits | apply conf_accepts]; auto. Qed.

(** ** Status *)
Lemma status_accepts s : status_wf s -> st_rx_level s <= 127 -> addr_stable (st_addressee s) ->
  accepts status_parse (status_layout s) s.
Proof.
  destruct s as [cid rx lb trx nls mi re un fi se rt ad]. unfold status_wf, status_parse, status_layout.
  cbn [st_channel_id st_rx_level st_link_budget st_target_rx_level st_nls st_missed st_retry st_unicast
       st_fifo_token st_seq_nr st_response_to st_addressee].
  intros (H1 & H2 & H3 & H4 & H5 & H6 & H7 & H8) Hrx Hst.
  eapply accepts_bind; [apply cid_accepts; exact H1|]. acc1. acc1. acc1.
  cbn [app]. do 4 (eapply (accepts_bind _ _ [_]); [acc_leaf|]).
  change (false :: false :: false :: false :: ?x) with (Zbits 4 0 ++ x).
  acc1. acc1. acc1. eapply accepts_bind; [apply ct_accepts; exact H7|].
  eapply accepts_bind_l; [apply addr_accepts; auto|]. acc.
Qed.
Lemma status_emits s : status_wf s -> emits (status_ser s) (status_layout s).
Proof.
  intros (H1 & H2 & H3 & H4 & H5 & H6 & H7 & H8). unfold status_ser, status_layout.
  apply emits_app; [apply cid_emits; exact H1|].
  do 3 (apply emits_app; [apply emits_yield1; lia|]).
  rewrite (app_assoc [_; _; _; _]). apply emits_app.
  { destruct (st_nls s), (st_missed s), (st_retry s), (st_unicast s); apply emits_by_check; reflexivity. }
  do 2 (apply emits_app; [apply emits_yield1; lia|]).
  apply emits_app; [apply ct_emits | apply addr_emits]; assumption.
Qed.
