(** Lemmas for C96 *)
From Coq Require Import ZifyBool ZifyNat.
From Verif Require Import SChange LParse LBits LSerial LTypes LSp LAlp LFiles LReject.
Open Scope list_scope.
Open Scope Z_scope.
Ltac Zify.zify_post_hook ::= Z.div_mod_to_equations.

Lemma pack_inv n v l : pack_be n v = Ok l -> 0 <= v < 2 ^ (8 * Z.of_nat n) /\ l = be_bytes n v.
Proof. unfold pack_be. destruct ((0 <=? v) && (v <? 2 ^ (8 * Z.of_nat n))) eqn:E; [|discriminate]. intros H. injection H as <-. split; [|reflexivity]. apply andb_prop in E. lia. Qed.
Lemma pack_b_inv v l : pack_b v = Ok l -> -128 <= v <= 127.
Proof. unfold pack_b. destruct ((-128 <=? v) && (v <=? 127)) eqn:E; [|discriminate]. intros _. lia. Qed.
Ltac inv :=
  repeat match goal with
  | H : _ +++ _ = Ok _ |- _ => apply rapp_inv in H; let x := fresh "x" in let y := fresh "y" in let H1 := fresh H in let H2 := fresh H in destruct H as (x & y & H1 & H2 & ->)
  | H : yield1 _ = Ok _ |- _ => apply yield1_inv in H; destruct H as [H ->]
  | H : pack_be ?n ?v = Ok _ |- _ => apply pack_inv in H; destruct H as [H _];
       match type of H with context [8 * Z.of_nat ?k] => let e := eval vm_compute in (2 ^ (8 * Z.of_nat k)) in change (2 ^ (8 * Z.of_nat k)) with e in H end
  | H : pack_b _ = Ok _ |- _ => apply pack_b_inv in H
  | H : yields _ = Ok _ |- _ => apply yields_inv in H; destruct H as [_ H]
  end.

Lemma len_strict : refuses_bad len_wf length_ser.
Proof.
  intros [v] bs H. unfold length_ser in H. cbn [len_value] in H. unfold len_wf, len_max. cbn [len_value]. cbv zeta in H.
  destruct (Z.ltb_spec 4194303 v) as [H3|H3].
  - replace (16383 <? v) with true in H by lia. replace (63 <? v) with true in H by lia. cbn [Z.eqb Pos.eqb] in H.
    destruct (pack_be 4 v) as [l|] eqn:E; [|discriminate H]. apply pack_inv in E. destruct E as [R ->]. change (2 ^ (8 * Z.of_nat 4)) with 4294967296 in R.
    change (Z.shiftl (4 - 1) 6) with 192 in H. change (be_bytes 4 v) with ((v / 16777216) mod 256 :: be_bytes 3 v) in H.
    set (l := be_bytes 3 v) in H; clearbody l. cbn [rbind] in H. inv.
    lia.
  - destruct (Z.ltb_spec 16383 v) as [H2|H2]; [lia|]. destruct (Z.ltb_spec 63 v) as [H1|H1]; [lia|].
    cbn [Z.eqb Pos.eqb] in H. change (Z.shiftl (1 - 1) 6) with 0 in H. inv. lia.
Qed.
Lemma off_strict : refuses_bad off_wf offset_ser.
Proof. intros o bs H. unfold offset_ser in H. inv. split; [assumption|]. eapply len_strict. eassumption. Qed.
Lemma dr_strict : refuses_bad dr_wf dr_ser.
Proof. intros o bs H. unfold dr_ser in H. inv. split; [eapply off_strict | eapply len_strict]; eassumption. Qed.
Lemma fid_strict : refuses_bad (fun f => 0 <= fid_id f <= 255) fid_ser.
Proof. intros f bs H. unfold fid_ser in H. inv. assumption. Qed.
Lemma tag_strict : refuses_bad tag_wf tag_ser.
Proof. intros f bs H. unfold tag_ser in H. inv. assumption. Qed.
Lemma fh_strict : refuses_bad fh_wf fh_ser.
Proof. intros f bs H. unfold fh_ser in H. inv. unfold fh_wf. lia. Qed.
Lemma fho_strict : refuses_bad fho_wf fho_ser.
Proof. intros f bs H. unfold fho_ser in H. inv. split; [assumption | eapply fh_strict; eassumption]. Qed.
Lemma query_strict : refuses_bad query_wf query_ser.
Proof.
  intros f bs H. unfold query_ser in H. inv.
  refine (conj _ (conj _ _)); [eapply len_strict; eassumption | assumption | eapply off_strict; eassumption].
Qed.
Lemma cid_strict : refuses_bad cid_wf cid_ser.
Proof. intros f bs H. unfold cid_ser in H. inv. unfold cid_wf. lia. Qed.
Lemma sb_strict : refuses_bad sb_wf sb_ser.
Proof. intros f bs H. unfold sb_ser in H. inv. unfold sb_wf. lia. Qed.
Lemma abp_strict : refuses_bad abp_wf abp_ser.
Proof. intros f bs H. unfold abp_ser in H. inv. unfold abp_wf. lia. Qed.
Lemma otaa_strict : refuses_bad otaa_wf otaa_ser.
Proof. intros f bs H. unfold otaa_ser in H. inv. unfold otaa_wf. lia. Qed.
Lemma uid_strict : refuses_bad uid_wf uid_ser.
Proof. intros f bs H. unfold uid_ser in H. inv. unfold uid_wf. lia. Qed.
Lemma vid_strict : refuses_bad vid_wf vid_ser.
Proof. intros f bs H. unfold vid_ser in H. inv. unfold vid_wf, word_ok, byte_ok. lia. Qed.
Lemma dc_strict : refuses_bad dc_wf dll_config_ser.
Proof. intros f bs H. unfold dll_config_ser in H. inv. unfold dc_wf, byte_ok. lia. Qed.
Lemma ds_strict : refuses_bad ds_wf dll_status_ser.
Proof. intros f bs H. unfold dll_status_ser in H. inv. unfold ds_wf, word_ok, byte_ok, long_ok. lia. Qed.
Lemma em_strict : refuses_bad em_wf eng_ser.
Proof.
  intros f bs H. unfold eng_ser in H. inv. unfold em_wf, byte_ok. split; [lia|]. split; [lia|]. split; [eapply cid_strict; eassumption | lia].
Qed.

(** ** Compressed time *)
Lemma ct_byte c : ct_compressed c = 32 * ct_exp c + ct_mant c.
Proof. unfold ct_compressed. rewrite Z.lor_0_l, Z.shiftl_mul_pow2 by lia. change (2 ^ 5) with 32. lia. Qed.
Lemma ct_sent c bs : ct_ser c = Ok bs <-> is_byte (32 * ct_exp c + ct_mant c) /\ bs = [32 * ct_exp c + ct_mant c].
Proof.
  unfold ct_ser. rewrite ct_byte. unfold is_byte. split.
  - intros H. apply yield1_inv in H. destruct H as [H ->]. split; [lia | reflexivity].
  - intros [H ->]. apply yield1_ok. lia.
Qed.
Lemma ct_read b : is_byte b -> accepts ct_parse (bytes_bits [b]) (ct_of_byte b).
Proof.
  intros B. assert (W : ct_wf (ct_of_byte b)) by (unfold is_byte in B; unfold ct_wf, ct_of_byte; cbn [ct_exp ct_mant]; lia).
  destruct (ct_codec _ W) as [E A]. destruct E as (bs & E & F & L). apply ct_sent in E. destruct E as [_ ->].
  rewrite <- L in A. unfold ct_of_byte in A at 1 2. cbn [ct_exp ct_mant] in A. replace (32 * (b / 32) + b mod 32) with b in A by (unfold is_byte in B; lia). exact A.
Qed.
Lemma ct_same c : let b := 32 * ct_exp c + ct_mant c in is_byte b -> (ct_of_byte b = c <-> ct_wf c).
Proof.
  intros b B. unfold is_byte, b in *. clear b. destruct c as [e m]. unfold ct_of_byte, ct_wf. cbn [ct_exp ct_mant] in *. split.
  - intros H. injection H as H1 H2. lia.
  - intros [H1 H2]. f_equal; lia.
Qed.

(** ** Addressees *)
Lemma be_mod n v k : (n <= k)%nat -> be_bytes n (v mod 2 ^ (8 * Z.of_nat k)) = be_bytes n v.
Proof.
  induction n as [|n IH]; intros L; [reflexivity|]. cbn [be_bytes]. rewrite IH by lia. f_equal.
  replace (8 * Z.of_nat k) with (8 * Z.of_nat n + (8 + 8 * Z.of_nat (k - S n))) by lia.
  rewrite Z.pow_add_r by lia. rewrite Z.rem_mul_r by (apply Z.pow_nonzero || apply Z.pow_pos_nonneg; lia).
  rewrite Z.add_comm, Z.mul_comm, Z.div_add_l by (apply Z.pow_nonzero; lia).
  rewrite (Z.div_small (v mod _)) by (apply Z.mod_pos_bound, Z.pow_pos_nonneg; lia). rewrite Z.add_0_r.
  rewrite Z.pow_add_r by lia. rewrite Z.rem_mul_r by (try apply Z.pow_pos_nonneg; lia).
  change (2 ^ 8) with 256. rewrite (Z.mul_comm 256), Z.mod_add by lia. apply Z.mod_mod. lia.
Qed.
Lemma skip_be m n v : skipn m (be_bytes (m + n) v) = be_bytes n v.
Proof. induction m as [|m IH]; [reflexivity|]. cbn [Nat.add be_bytes skipn]. exact IH. Qed.

Lemma addr_changed a z : ad_id_type a = VID -> ad_id a = IdInt z ->
  (0 <= z < 2 ^ 64 -> addr_ser a = addr_ser (with_id a (z mod 65536)))
  /\ (~ (0 <= z < 2 ^ 64) -> forall bs, addr_ser a <> Ok bs).
Proof.
  destruct a as [ac t i m]. unfold addr_ser, with_id. cbn [ad_id_type ad_id ad_access_class ad_nls]. intros -> ->.
  cbn [addr_id_length Nat.ltb Nat.leb]. split.
  - intros R. cbn [rbind]. rewrite !pack_be_ok by (change (2 ^ (8 * Z.of_nat 8)) with 18446744073709551616; change (2 ^ 64) with 18446744073709551616 in R; lia).
    cbn [rbind]. do 3 f_equal. change (skipn (8 - 2) (be_bytes 8 z)) with (skipn 6 (be_bytes (6 + 2) z)).
    change (skipn (8 - 2) (be_bytes 8 (z mod 65536))) with (skipn 6 (be_bytes (6 + 2) (z mod 65536))).
    rewrite !skip_be. symmetry. exact (be_mod 2 z 2 (le_n _)).
  - intros R bs H. inv. cbn [rbind] in *. destruct (pack_be 8 z) eqn:E; [|discriminate]. apply pack_inv in E. apply R. exact (proj1 E).
Qed.
Lemma addr_uid_strict a z bs : ad_id_type a = UID -> ad_id a = IdInt z -> addr_ser a = Ok bs -> 0 <= z < 2 ^ 64.
Proof.
  destruct a as [ac t i m]. unfold addr_ser. cbn [ad_id_type ad_id ad_access_class ad_nls]. intros -> -> H.
  inv. cbn [addr_id_length Nat.ltb Nat.leb rbind] in *. destruct (pack_be 8 z) eqn:E; [|discriminate]. apply pack_inv in E. exact (proj1 E).
Qed.

(** ** Channel indices *)
Lemma csi_changed c : csi_ser c = csi_ser (with_index c (csi_index c mod 2048)).
Proof.
  destruct c as [b w i]. unfold csi_ser, with_index. cbn [csi_band csi_bandwidth csi_index].
  assert (E1 : Z.land (Z.shiftr i 8) 7 = Z.land (Z.shiftr (i mod 2048) 8) 7).
  { change 7 with (Z.ones 3). rewrite !Z.land_ones, !Z.shiftr_div_pow2 by lia. change (2 ^ 8) with 256. change (2 ^ 3) with 8. lia. }
  assert (E2 : Z.land i 255 = Z.land (i mod 2048) 255).
  { change 255 with (Z.ones 8). rewrite !Z.land_ones by lia. change (2 ^ 8) with 256. lia. }
  rewrite E1, E2. reflexivity.
Qed.
Lemma csi_emits' c : 0 <= csi_index c < 2048 -> emits (csi_ser c) (csi_layout c).
Proof.
  intros H. destruct c as [b w i]. cbn [csi_index] in H.
  unfold csi_ser, csi_layout, csi_bits. cbn [csi_band csi_bandwidth csi_index].
  rewrite (land_mod 3 7), (land_mod 8 255) by (try reflexivity; lia).
  rewrite Z.shiftr_div_pow2 by lia. change (2 ^ 8) with 256. change (2 ^ 3) with 8.
  rewrite (Z.mod_small (i / 256)) by lia.
  set (hi := Z.shiftl (band_value b) 5 + Z.shiftl (bandwidth_value w) 4 + Z.shiftl 0 3).
  assert (Hh : exists h, 0 <= h < 32 /\ hi = h * 8 /\
     Zbits 3 (band_code b) ++ [match w with kHz25 => true | kHz200 => false end] ++ [false] = Zbits 5 h).
  { exists (hi / 8). destruct b, w; cbv; repeat split; congruence. }
  destruct Hh as (h & Hh & -> & E).
  replace (Zbits 3 _ ++ _) with (Zbits 5 h ++ Zbits 11 i) by (rewrite <- E; rewrite <- !app_assoc; reflexivity).
  rewrite <- (Zbits_byte_split i) by lia.
  apply emits_app; apply emits_yield1; lia.
Qed.
Lemma csi_change c : let i := csi_index c mod 2048 in
  exists bs, csi_ser c = Ok bs
  /\ (i <= 1039 -> accepts csi_parse (bytes_bits bs) (with_index c i))
  /\ (1039 < i -> rejects csi_parse (bytes_bits bs) ValueError).
Proof.
  cbv zeta. set (i := csi_index c mod 2048). assert (I : 0 <= i < 2048) by (unfold i; lia).
  assert (W : 0 <= csi_index (with_index c i) < 2048) by exact I.
  destruct (csi_emits' _ W) as (bs & E & F & L). exists bs. rewrite csi_changed. fold i. split; [exact E|]. rewrite L. split.
  - intros S. apply csi_accepts. unfold csi_wf, with_index. cbn [csi_index]. lia.
  - intros S. destruct c as [b w k]. unfold csi_layout, csi_bits, with_index in *. cbn [csi_band csi_bandwidth csi_index] in *.
    assert (Q : 0 <= band_code b < 8) by (destruct b; cbn; lia).
    pose proof (csi_any (band_code b) (match w with kHz25 => true | kHz200 => false end) false i Q I) as K. cbv zeta in K.
    destruct K as [[_ K]|(_ & K & _)]; [exact K | lia].
Qed.

(** ** Data *)
Lemma data_sent o n data bs : data_ser (mkData o (mkLength n) data) = Ok bs ->
  off_wf o /\ len_wf (mkLength n) /\ Forall is_byte data
  /\ exists head, bs = head ++ data /\ Forall is_byte head /\ bytes_bits head = off_layout o ++ len_layout (mkLength n).
Proof.
  unfold data_ser. cbn [d_offset d_length d_data]. intros H.
  apply rapp_inv in H as (b1 & b2 & E1 & H & ->). apply rapp_inv in H as (b3 & b4 & E2 & E3 & ->).
  apply yields_inv in E3 as [-> F]. pose proof (off_strict _ _ E1) as W1. pose proof (len_strict _ _ E2) as W2.
  refine (conj W1 (conj W2 (conj _ _))); [exact F|].
  destruct (off_codec _ W1) as [(c1 & G1 & F1 & L1) _]. destruct (len_codec _ W2) as [(c2 & G2 & F2 & L2) _].
  replace c1 with b1 in * by congruence. replace c2 with b3 in * by congruence.
  exists (b1 ++ b3). rewrite app_assoc. split; [reflexivity|]. split; [apply Forall_app; tauto|].
  rewrite bytes_bits_app. congruence.
Qed.
Lemma Forall_firstn' {A} (Q : A -> Prop) k l : Forall Q l -> Forall Q (firstn k l).
Proof. intros F. rewrite <- (firstn_skipn k l) in F. apply Forall_app in F. tauto. Qed.
Lemma is_bytes_b l : Forall is_byte l -> forallb is_BYTE l = true.
Proof. intros F. apply forallb_forall. intros x I. rewrite Forall_forall in F. specialize (F x I). unfold is_byte in F. unfold is_BYTE, in_range. lia. Qed.
Lemma data_changed o n data bs rest :
  data_ser (mkData o (mkLength n) data) = Ok bs -> Forall is_byte rest ->
  let all := data ++ rest in let k := Z.to_nat n in
  (zlen all < n -> data_parse (stream_of (bs ++ rest)) = Err ReadError)
  /\ (n <= zlen all -> exists p, data_parse (stream_of (bs ++ rest))
        = Ok (mkData o (mkLength n) (firstn k all), St p (bytes_bits (skipn k all)))).
Proof.
  intros H FR all k. apply data_sent in H as (W1 & W2 & FD & head & -> & FH & LH).
  assert (FA : Forall is_byte all) by (apply Forall_app; tauto).
  assert (N : 0 <= n <= len_max) by exact W2.
  destruct (off_codec _ W1) as [_ A1]. destruct (len_codec _ W2) as [_ A2].
  assert (EP : exists p, data_parse (stream_of ((head ++ data) ++ rest)) =
    match read_bytes n (St p (bytes_bits all)) with Ok (bs, s) => lift (mk_data bs o) s | Err e => Err e end).
  { unfold data_parse, stream_of, bindp. rewrite <- app_assoc. fold all. rewrite bytes_bits_app, LH, <- app_assoc.
    rewrite A1, A2. cbn [len_value]. eexists. reflexivity. }
  destruct EP as [p EP]. rewrite EP. clear EP.
  split.
  - intros S. unfold read_bytes. cbn [bits]. unfold zlen in *. rewrite bytes_bits_length.
    replace (Z.of_nat (8 * length all) <? 8 * n) with true by lia. reflexivity.
  - intros S.
    assert (Z1 : zlen (firstn k all) = n) by (unfold zlen, k in *; rewrite firstn_length; lia).
    pose proof (read_bytes_app p (firstn k all) (skipn k all) (Forall_firstn' _ k all FA)) as K.
    rewrite Z1, firstn_skipn in K. exists (p + 8 * length (firstn k all))%nat. rewrite K.
    unfold lift, mk_data. rewrite Z1. unfold mk_length, in_range. unfold len_max in N.
    replace ((0 <=? n) && (n <=? 1073741823)) with true by lia. unfold validated at 2. cbn [rbind].
    rewrite (is_bytes_b (firstn k all)) by (apply Forall_firstn'; exact FA). reflexivity.
Qed.

Lemma data_filled o data : op_ser (WriteFileData (mkData o (mkLength 0) data)) = Ok []
  /\ forall f, op_ser (ReturnFileData (mkData o (mkLength 0) data) f) = Ok [].
Proof. split; reflexivity. Qed.
