(** What the parsers of the small structures do on encodings that are not in
    the image of the serializers. *)
From Coq Require Import ZifyBool ZifyNat.
From Verif Require Export LSp LCt.
Ltac Zify.zify_post_hook ::= Z.div_mod_to_equations.


Lemma band_reserved_spec v : 0 <= v < 8 ->
  (band_reserved v /\ band_of v = Err ValueError) \/ (~ band_reserved v /\ exists b, v = band_code b).
Proof.
  intros H. unfold band_reserved.
  assert (v = 0 \/ v = 1 \/ v = 2 \/ v = 3 \/ v = 4 \/ v = 5 \/ v = 6 \/ v = 7)
    as [-> | [-> | [-> | [-> | [-> | [-> | [-> | ->]]]]]]] by lia;
  [ right; split; [lia|]; exists BAND_NOT_IMPL; reflexivity
  | left; split; [lia | reflexivity]
  | right; split; [lia|]; exists BAND_433; reflexivity
  | right; split; [lia|]; exists BAND_868; reflexivity
  | right; split; [lia|]; exists BAND_915; reflexivity
  | left; split; [lia | reflexivity] ..].
Qed.
Lemma class_total v : 0 <= v < 4 -> exists c, v = class_code c.
Proof.
  intros H. assert (v = 0 \/ v = 1 \/ v = 2 \/ v = 3) as [-> | [-> | [-> | ->]]] by lia;
  [exists LO_RATE | exists LORA | exists NORMAL_RATE | exists HI_RATE]; reflexivity.
Qed.
Lemma coding_total v : 0 <= v < 4 -> exists c, v = coding_code c.
Proof.
  intros H. assert (v = 0 \/ v = 1 \/ v = 2 \/ v = 3) as [-> | [-> | [-> | ->]]] by lia;
  [exists PN9 | exists CodingRFU | exists FEC_PN9 | exists CW]; reflexivity.
Qed.
(** every byte as a channel header *)
Lemma ch_any r ba cl co : 0 <= ba < 8 -> 0 <= cl < 4 -> 0 <= co < 4 ->
  let l := [r] ++ Zbits 3 ba ++ Zbits 2 cl ++ Zbits 2 co in
  (band_reserved ba /\ rejects ch_parse l ValueError)
  \/ (~ band_reserved ba /\ exists h, accepts ch_parse l h
        /\ band_code (ch_band h) = ba /\ class_code (ch_class h) = cl /\ coding_code (ch_coding h) = co).
Proof.
  intros Hb Hc Ho l. destruct (band_reserved_spec ba Hb) as [[R E]|[R [b ->]]].
  - left. split; [exact R|]. unfold l, ch_parse.
    eapply rejects_bind; [apply (accepts_uint_raw 1 [r]); reflexivity|].
    eapply rejects_bind; [apply accepts_uint; pow2; lia|].
    apply rejects_bind_first. apply rejects_lift. exact E.
  - right. split; [exact R|]. destruct (class_total cl Hc) as [c ->]. destruct (coding_total co Ho) as [o ->].
    exists (mkCH o c b). split; [apply (ch_accepts r (mkCH o c b))|]. repeat split.
Qed.

(** ** Channel status identifier *)
Lemma csi_any ba w r i : 0 <= ba < 8 -> 0 <= i < 2048 ->
  let l := Zbits 3 ba ++ [w] ++ [r] ++ Zbits 11 i in
  ((band_reserved ba \/ 1039 < i) /\ rejects csi_parse l ValueError)
  \/ (~ band_reserved ba /\ i <= 1039 /\ exists c, accepts csi_parse l c /\ csi_wf c
        /\ band_code (csi_band c) = ba /\ csi_index c = i
        /\ csi_bandwidth c = if w then kHz25 else kHz200).
Proof.
  intros Hb Hi l. destruct (band_reserved_spec ba Hb) as [[R E]|[R [b ->]]].
  - left. split; [left; exact R|]. unfold l, csi_parse.
    eapply rejects_bind; [apply accepts_uint; pow2; lia|].
    apply rejects_bind_first. apply rejects_lift. exact E.
  - destruct (Z.le_gt_cases i 1039) as [C|C].
    + right. split; [exact R|]. split; [exact C|].
      exists (mkCSI b (if w then kHz25 else kHz200) i).
      assert (W : csi_wf (mkCSI b (if w then kHz25 else kHz200) i)) by (unfold csi_wf; cbn [csi_index]; lia).
      split; [|split; [exact W | repeat split]].
      pose proof (csi_accepts r _ W) as A. unfold csi_bits in A. cbn [csi_band csi_bandwidth csi_index] in A.
      unfold l. destruct w; exact A.
    + left. split; [right; exact C|]. unfold l, csi_parse.
      eapply rejects_bind; [apply accepts_uint; acc_num|].
      eapply rejects_bind0; [acc_leaf|].
      eapply rejects_bind; [apply (accepts_uint_raw 1 [w]); reflexivity|].
      eapply rejects_bind0; [apply (accepts_lift _ (if w then kHz25 else kHz200)); destruct w; reflexivity|].
      eapply rejects_bind; [apply (accepts_uint_raw 1 [r]); reflexivity|].
      rewrite <- (app_nil_r (Zbits 11 i)).
      eapply rejects_bind; [apply accepts_uint; pow2; lia|].
      apply rejects_lift. apply validated_err. ranges.
Qed.

(** ** File properties: the action condition has four values in three bits *)
Lemma prop_any e c r1 r2 st : 0 <= c < 8 -> 0 <= st < 4 ->
  let l := [e] ++ Zbits 3 c ++ [r1; r2] ++ Zbits 2 st in
  (4 <= c /\ rejects prop_parse l ValueError)
  \/ (c < 4 /\ exists p, accepts prop_parse l p /\ pr_enabled p = e
        /\ actcond_code (pr_cond p) = c /\ storage_code (pr_storage p) = st).
Proof.
  intros Hc Hs l. destruct (Z.lt_ge_cases c 4) as [C|C].
  - right. split; [exact C|].
    assert (exists k, c = actcond_code k) as [k ->].
    { assert (c = 0 \/ c = 1 \/ c = 2 \/ c = 3) as [-> | [-> | [-> | ->]]] by lia;
      [exists AC_LIST | exists AC_READ | exists AC_WRITE | exists AC_WRITE_FLUSH]; reflexivity. }
    assert (exists k, st = storage_code k) as [q ->].
    { assert (st = 0 \/ st = 1 \/ st = 2 \/ st = 3) as [-> | [-> | [-> | ->]]] by lia;
      [exists TRANSIENT | exists VOLATILE | exists RESTORABLE | exists PERMANENT]; reflexivity. }
    exists (mkProp e k q). split; [|repeat split].
    apply (prop_accepts [r1; r2] (mkProp e k q)). reflexivity.
  - left. split; [exact C|]. unfold l, prop_parse.
    eapply rejects_bind; [apply accepts_bool|].
    eapply rejects_bind; [apply accepts_uint; pow2; lia|].
    apply rejects_bind_first. apply rejects_lift. unfold actcond_of.
    repeat match goal with |- (if ?v =? ?c then _ else _) = _ =>
      destruct (Z.eqb_spec v c); [lia|] end. reflexivity.
Qed.

(** ** QoS: retry mode 0 only, response modes 3 and 7 undefined *)
Lemma qos_any st rc rt re : 0 <= rt < 8 -> 0 <= re < 8 ->
  let l := [st; rc] ++ Zbits 3 rt ++ Zbits 3 re in
  ((rt <> 0 \/ re = 3 \/ re = 7) /\ rejects qos_parse l ValueError)
  \/ (rt = 0 /\ re <> 3 /\ re <> 7 /\ exists q, accepts qos_parse l q
        /\ q_stop q = st /\ q_record q = rc /\ resp_code (q_resp q) = re).
Proof.
  intros Ht Hr l.
  assert (R : (rt <> 0 \/ re = 3 \/ re = 7) \/ (rt = 0 /\ re <> 3 /\ re <> 7)) by lia.
  destruct R as [R|(-> & R1 & R2)].
  - left. split; [exact R|]. unfold l, qos_parse. cbn [app].
    eapply (rejects_bind _ _ [_]); [acc_leaf|]. eapply (rejects_bind _ _ [_]); [acc_leaf|].
    eapply rejects_bind; [apply accepts_uint; pow2; lia|].
    destruct (Z.eq_dec rt 0) as [->|N].
    + eapply rejects_bind0; [apply (accepts_lift _ RETRY_NO); reflexivity|].
      rewrite <- (app_nil_r (Zbits 3 re)).
      eapply rejects_bind; [apply accepts_uint; pow2; lia|].
      apply rejects_bind_first. apply rejects_lift.
      destruct R as [R|[-> | ->]]; [lia | reflexivity | reflexivity].
    + apply rejects_bind_first. apply rejects_lift. unfold retry_of.
      destruct (Z.eqb_spec rt 0); [lia | reflexivity].
  - right. repeat split; auto.
    assert (exists k, re = resp_code k) as [k ->].
    { assert (re = 0 \/ re = 1 \/ re = 2 \/ re = 4 \/ re = 5 \/ re = 6)
        as [-> | [-> | [-> | [-> | [-> | ->]]]]] by lia;
      [exists RESP_NO | exists RESP_ALL | exists RESP_ANY | exists RESP_NO_RPT
      | exists RESP_ON_ERROR | exists RESP_PREFERRED]; reflexivity. }
    exists (mkQoS k RETRY_NO st rc). split; [|repeat split].
    apply (qos_accepts (mkQoS k RETRY_NO st rc)).
Qed.

(** ** Status: the rx level is read as a signed byte but must not be negative *)
Lemma status_rejects s : status_wf s -> 128 <= st_rx_level s -> rejects status_parse (status_layout s) ValueError.
Proof.
  destruct s as [cid rx lb trx nls mi re un fi se rt ad]. unfold status_wf, status_parse, status_layout.
  cbn [st_channel_id st_rx_level st_link_budget st_target_rx_level st_nls st_missed st_retry st_unicast
       st_fifo_token st_seq_nr st_response_to st_addressee].
  intros (H1 & H2 & H3 & H4 & H5 & H6 & H7 & H8) Hrx.
  eapply rejects_bind; [apply cid_accepts; exact H1|].
  replace (Zbits 8 rx) with (Zbits 8 (rx - 256)).
  2:{ rewrite <- (Zbits_mod 8 rx), <- (Zbits_mod 8 (rx - 256)). f_equal. pow2. lia. }
  eapply rejects_bind; [apply accepts_int; pow2; lia|].
  eapply rejects_bind; [apply accepts_uint; ranges|].
  eapply rejects_bind; [apply accepts_uint; ranges|].
  cbn [app]. do 4 (eapply (rejects_bind _ _ [_]); [acc_leaf|]).
  change (false :: false :: false :: false :: ?x) with (Zbits 4 0 ++ x).
  eapply rejects_bind; [apply accepts_pad; apply Zbits_length|].
  eapply rejects_bind; [apply accepts_uint; ranges|].
  eapply rejects_bind; [apply accepts_uint; ranges|].
  eapply rejects_bind; [apply ct_accepts; exact H7|].
  rewrite <- (app_nil_r (addr_layout ad)).
  eapply rejects_bind; [apply addr_accepts_gen; auto|].
  apply rejects_lift. apply validated_err. ranges.
Qed.
(** no input whatsoever yields a status with a level above 127 *)
Lemma status_level s st s' : status_parse s = Ok (st, s') -> 0 <= st_rx_level st <= 127.
Proof.
  unfold status_parse. intros H. apply bindp_inv in H as (cid & s1 & _ & H).
  apply bindp_inv in H as (rx & s2 & H1 & H). apply read_int_inv in H1 as (B & _); [|lia].
  do 11 (apply bindp_inv in H as (? & ? & _ & H)).
  apply lift_inv in H as [H _].
  unfold mk_status in H. apply validated_inv in H as [V <-]. cbn [st_rx_level]. ranges.
Qed.

(** ** Access profiles with fewer than eight sub bands *)
Lemma read_n_short {A} (p : P A) (f : A -> list bool) l k e :
  Forall (fun x => accepts p (f x) x) l -> (forall ps, p (St ps []) = Err e) ->
  forall ps, read_n (length l + S k) p (St ps (flat_map f l)) = Err e.
Proof.
  intros F He. induction F as [|x l Hx Hl IH]; intros ps; cbn [length Nat.add read_n flat_map].
  - unfold bindp. rewrite He. reflexivity.
  - rewrite (bindp_ok _ _ _ _ _ (Hx ps _)). unfold bindp. rewrite IH. reflexivity.
Qed.
Lemma ap_short a : ap_wf a -> (length (ap_bands a) < 8)%nat ->
  forall ps, ap_parse (St ps (ap_layout a)) = Err ReadError.
Proof.
  destruct a as [h pr bs]. unfold ap_wf, ap_parse, ap_layout. cbn [ap_header ap_profiles ap_bands].
  intros (Lp & Lb & Fp & Fb) L8 ps.
  rewrite (bindp_ok _ _ _ _ _ (ch_accepts false h ps _)).
  assert (A : accepts (read_n 4 sp_parse) (flat_map sp_layout pr) pr).
  { rewrite <- Lp. apply read_n_accepts. eapply Forall_impl; [|exact Fp]. apply sp_accepts. }
  rewrite (bindp_ok _ _ _ _ _ (A _ _)). unfold bindp.
  replace 8%nat with (length bs + S (7 - length bs))%nat by lia.
  rewrite (read_n_short sb_parse sb_layout bs _ ReadError); [reflexivity | | reflexivity].
  eapply Forall_impl; [|exact Fb]. apply sb_accepts.
Qed.
Lemma ap_codec_iff a : ap_wf a ->
  emits (ap_ser a) (ap_layout a) /\ (accepts ap_parse (ap_layout a) a <-> length (ap_bands a) = 8%nat).
Proof.
  intros W. split; [apply ap_emits; exact W|]. split.
  - intros A. specialize (A O []). apply ap_parse_bands in A. apply A.
  - apply ap_accepts. exact W.
Qed.

(** ** NBID addressees *)
Lemma nbid_iff ac c m : 0 <= ac <= 255 -> ct_wf c ->
  let a := mkAddr ac NBID (IdCT c) m in
  (accepts addr_parse (addr_layout a) a <->
     0 <= 32 * ct_exp c + ct_mant c <= 31 \/ 32 * ct_exp c + ct_mant c = 43)
  /\ exists d, ct_wf d /\ accepts addr_parse (addr_layout a) (mkAddr ac NBID (IdCT d) m).
Proof.
  intros Ha Hc a. assert (W : addr_wf a) by (split; [exact Ha | exact Hc]).
  assert (A := addr_accepts_gen [false; false] a eq_refl W). split.
  - split.
    + intros B. apply (addr_reparse_stable a W). apply (accepts_inj _ _ _ _ A B).
    + intros S. apply addr_accepts; [reflexivity | exact W | exact S].
  - destruct (recompress_spec c Hc) as (d & Hd & Wd & _). exists d. split; [exact Wd|].
    unfold addr_reparse in A. cbn [a ad_id ad_access_class ad_id_type ad_nls] in A. rewrite Hd in A. exact A.
Qed.

(** ** CT bytes *)
Lemma ct_byte b : 0 <= b <= 255 ->
  exists c, ct_wf c /\ accepts ct_parse (Zbits 8 b) c /\ ct_ser c = Ok [b]
            /\ ct_exp c = b / 32 /\ ct_mant c = b mod 32 /\ ct_decompress c = ct_value c.
Proof.
  intros H. exists (mkCT (b / 32) (b mod 32)). set (c := mkCT _ _).
  assert (W : ct_wf c) by (unfold c, ct_wf; cbn [ct_exp ct_mant]; lia).
  assert (E : nbid_byte c = b) by (unfold nbid_byte, c; cbn [ct_exp ct_mant]; lia).
  assert (C : ct_compressed c = b).
  { unfold ct_compressed. rewrite Z.lor_0_l, Z.shiftl_mul_pow2 by lia. unfold c. cbn [ct_exp ct_mant]. lia. }
  split; [exact W|]. split; [rewrite <- E, <- nbid_byte_bits by exact W; apply ct_accepts; exact W|].
  split; [unfold ct_ser; rewrite C; apply yield1_ok; lia|]. split; [reflexivity|]. split; [reflexivity|].
  unfold ct_decompress, ct_value. rewrite C. rewrite (land_mod 5 31) by (try reflexivity; lia).
  rewrite Z.shiftr_div_pow2 by lia. change (2 ^ 5) with 32. unfold c. cbn [ct_exp ct_mant]. lia.
Qed.
Lemma ct_values c : ct_wf c -> ct_int c = ct_value c /\ ct_decompress c = ct_value c.
Proof.
  intros W. split; [unfold ct_int, ct_value; lia|].
  assert (C : ct_compressed c = 32 * ct_exp c + ct_mant c).
  { unfold ct_compressed. rewrite Z.lor_0_l, Z.shiftl_mul_pow2 by lia. lia. }
  destruct W as [He Hm]. unfold ct_decompress, ct_value. rewrite C.
  rewrite (land_mod 5 31) by (try reflexivity; lia). rewrite Z.shiftr_div_pow2 by lia. change (2 ^ 5) with 32.
  replace ((32 * ct_exp c + ct_mant c) / 32) with (ct_exp c) by lia.
  replace ((32 * ct_exp c + ct_mant c) mod 32) with (ct_mant c) by lia. lia.
Qed.

Lemma addr_round_trip : codec (fun a => addr_wf a /\ ad_id_type a <> NBID) addr_layout addr_ser addr_parse.
Proof.
  intros a [W N]. apply addr_codec. split; [exact W|]. destruct a as [ac t i m].
  unfold addr_wf, addr_stable in *. cbn [ad_id_type ad_id ad_access_class] in *.
  destruct i as [|z|c]; try exact I. destruct t; tauto.
Qed.
Lemma addr_size a : addr_wf a -> length (addr_layout a) =
  (8 * match ad_id_type a with UID => 10 | VID => 4 | NOID => 2 | NBID => 3 end)%nat.
Proof.
  destruct a as [ac t i m]. unfold addr_wf, addr_layout, addr_bits, addr_id_bits. cbn [ad_id_type ad_id].
  intros [_ W]. destruct t, i; try contradiction; reflexivity.
Qed.
Lemma ct_gap_32 : ~ ct_floor_gap 32.
Proof. intros (j & Hj & Hg). assert (j = 0 \/ 1 <= j) as [->|C] by lia; [lia|].
  assert (4 ^ 1 <= 4 ^ j) by (apply Z.pow_le_mono_r; lia). lia. Qed.
