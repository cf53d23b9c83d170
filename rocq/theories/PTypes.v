(** Properties C23-C30, C32, C33: the small structures. *)
From Verif Require Import STypes LReject LStatus.

(** C23 *)
Theorem C23_compress_rounds_up : forall v, 0 <= v <= ct_max ->
  exists c, ct_compress v true = Ok (Some c) /\ ct_wf c /\ ct_fits v (ct_exp c) /\ v <= ct_value c
    /\ (forall d, ct_wf d -> v <= ct_value d -> ct_value c <= ct_value d).
Proof. exact ct_ceil_optimal. Qed.
Print Assumptions C23_compress_rounds_up.
Theorem C23_compress_exact : forall c, ct_wf c ->
  exists d, ct_compress (ct_value c) true = Ok (Some d) /\ ct_value d = ct_value c.
Proof. exact ct_ceil_exact. Qed.
Print Assumptions C23_compress_exact.
Theorem C23_compress_monotone : forall v w c d, 0 <= v <= w ->
  ct_compress v true = Ok (Some c) -> ct_compress w true = Ok (Some d) -> ct_value c <= ct_value d.
Proof. exact ct_ceil_monotone. Qed.
Print Assumptions C23_compress_monotone.
Theorem C23_compress_too_large : forall v ceil, ct_max < v -> ct_compress v ceil = Ok None.
Proof. exact ct_compress_above. Qed.
Print Assumptions C23_compress_too_large.
Theorem C23_compress_negative : forall v ceil, v < 0 -> ct_compress v ceil = Err ValueError.
Proof. exact ct_compress_neg. Qed.
Print Assumptions C23_compress_negative.
Example C23_case : 0 <= 1000 <= ct_max /\ ct_compress 1000 true = Ok (Some (mkCT 3 16)) /\ ct_value (mkCT 3 16) = 1024.
Proof. repeat split; discriminate. Qed.
Example C23_case_last : ct_compress ct_max true = Ok (Some (mkCT 7 31)) /\ ct_compress (ct_max + 1) true = Ok None.
Proof. split; reflexivity. Qed.

(** C24 *)
Theorem C24_compress_down_below : forall v, 0 <= v <= ct_max ->
  exists c, ct_compress v false = Ok (Some c) /\ ct_wf c /\ ct_fits v (ct_exp c)
    /\ ct_mant c = v / 4 ^ ct_exp c /\ ct_value c <= v < ct_value c + 4 ^ ct_exp c.
Proof. exact ct_floor_spec. Qed.
Print Assumptions C24_compress_down_below.
Theorem C24_compress_down_optimal_iff : forall v c, 0 <= v <= ct_max -> ct_compress v false = Ok (Some c) ->
  ((forall d, ct_wf d -> ct_value d <= v -> ct_value d <= ct_value c) <-> ~ ct_floor_gap v).
Proof. exact ct_floor_optimal_iff. Qed.
Print Assumptions C24_compress_down_optimal_iff.
Theorem C24_compress_down_optimal_refuted : exists v c d,
  0 <= v <= ct_max /\ ct_compress v false = Ok (Some c) /\ ct_wf d /\ ct_value d <= v /\ ct_value c < ct_value d.
Proof. exists 125, (mkCT 2 7), (mkCT 1 31). vm_compute. repeat split; discriminate. Qed.
Print Assumptions C24_compress_down_optimal_refuted.
Theorem C24_compress_down_monotone_refuted : exists v w c d,
  0 <= v <= w /\ w <= ct_max /\ ct_compress v false = Ok (Some c) /\ ct_compress w false = Ok (Some d)
  /\ ct_value d < ct_value c.
Proof. exists 124, 125, (mkCT 1 31), (mkCT 2 7). vm_compute. repeat split; discriminate. Qed.
Print Assumptions C24_compress_down_monotone_refuted.
Example C24_gap : ct_floor_gap 125 /\ ~ ct_floor_gap 32.
Proof. split; [exists 1; vm_compute; repeat split; discriminate | exact ct_gap_32]. Qed.

(** C25 *)
Theorem C25_ct_byte : forall b, 0 <= b <= 255 ->
  exists c, ct_wf c /\ accepts ct_parse (Zbits 8 b) c /\ ct_ser c = Ok [b]
            /\ ct_exp c = b / 32 /\ ct_mant c = b mod 32 /\ ct_decompress c = ct_value c.
Proof. exact ct_byte. Qed.
Print Assumptions C25_ct_byte.
Theorem C25_ct_round_trip : codec ct_wf ct_layout ct_ser ct_parse.
Proof. exact ct_codec. Qed.
Print Assumptions C25_ct_round_trip.
Theorem C25_ct_constructor : forall e m, mk_ct e m = Ok (mkCT e m) <-> ct_wf (mkCT e m).
Proof. exact mk_ct_iff. Qed.
Print Assumptions C25_ct_constructor.
Theorem C25_ct_parse_canonical : canonical ct_wf ct_layout ct_parse.
Proof. exact ct_canonical. Qed.
Print Assumptions C25_ct_parse_canonical.
Theorem C25_ct_value : forall c, ct_wf c -> ct_int c = ct_value c /\ ct_decompress c = ct_value c.
Proof. exact ct_values. Qed.
Print Assumptions C25_ct_value.
Example C25_case : ct_wf (mkCT 5 17) /\ ct_ser (mkCT 5 17) = Ok [177] /\ ct_value (mkCT 5 17) = 17408.
Proof. vm_compute. repeat split; discriminate. Qed.

(** C26 *)
Theorem C26_addressee_round_trip :
  codec (fun a => addr_wf a /\ ad_id_type a <> NBID) addr_layout addr_ser addr_parse.
Proof. exact addr_round_trip. Qed.
Print Assumptions C26_addressee_round_trip.
Theorem C26_addressee_size : forall a, addr_wf a -> length (addr_layout a) =
  (8 * match ad_id_type a with UID => 10 | VID => 4 | NOID => 2 | NBID => 3 end)%nat.
Proof. exact addr_size. Qed.
Print Assumptions C26_addressee_size.
Theorem C26_addressee_reserved_nls : forall rfu t v ac rest, length rfu = 2%nat -> 8 <= v <= 15 ->
  rejects addr_parse (rfu ++ Zbits 2 (idtype_code t) ++ Zbits 4 v ++ Zbits 8 ac ++ rest) ValueError.
Proof. exact addr_rejects. Qed.
Print Assumptions C26_addressee_reserved_nls.
Theorem C26_addressee_reserved_bits_ignored : forall rfu a, length rfu = 2%nat -> addr_wf a ->
  addr_stable a -> accepts addr_parse (addr_bits rfu a) a.
Proof. exact addr_accepts. Qed.
Print Assumptions C26_addressee_reserved_bits_ignored.
Example C26_case : let a := mkAddr 33 UID (IdInt 17294106256055009280) AES_CCM_64 in
  addr_wf a /\ ad_id_type a <> NBID /\ addr_ser a = Ok [38; 33; 240; 1; 2; 3; 4; 5; 0; 0].
Proof. vm_compute. repeat split; discriminate. Qed.

(** C27 *)
Theorem C27_nbid_survives_iff : forall ac c m, 0 <= ac <= 255 -> ct_wf c ->
  let a := mkAddr ac NBID (IdCT c) m in
  (accepts addr_parse (addr_layout a) a <->
     0 <= 32 * ct_exp c + ct_mant c <= 31 \/ 32 * ct_exp c + ct_mant c = 43)
  /\ exists d, ct_wf d /\ accepts addr_parse (addr_layout a) (mkAddr ac NBID (IdCT d) m).
Proof. exact nbid_iff. Qed.
Print Assumptions C27_nbid_survives_iff.
Theorem C27_nbid_serialized : forall a, addr_wf a -> emits (addr_ser a) (addr_layout a).
Proof. exact addr_emits. Qed.
Print Assumptions C27_nbid_serialized.
Theorem C27_nbid_round_trip_refuted : exists a bs b s,
  addr_wf a /\ addr_ser a = Ok bs /\ addr_parse (stream_of bs) = Ok (b, s) /\ b <> a.
Proof.
  exists (mkAddr 1 NBID (IdCT (mkCT 1 8)) NLS_NONE). do 3 eexists.
  repeat split; try (vm_compute; discriminate); [vm_compute; reflexivity .. | discriminate].
Qed.
Print Assumptions C27_nbid_round_trip_refuted.
Example C27_case : ct_wf (mkCT 1 11) /\ 32 * ct_exp (mkCT 1 11) + ct_mant (mkCT 1 11) = 43.
Proof. vm_compute. repeat split; discriminate. Qed.

(** C28 *)
Theorem C28_qos_round_trip : codec (fun _ => True) qos_layout qos_ser qos_parse.
Proof. exact qos_codec. Qed.
Print Assumptions C28_qos_round_trip.
Theorem C28_qos_every_byte : forall st rc rt re, 0 <= rt < 8 -> 0 <= re < 8 ->
  let l := [st; rc] ++ Zbits 3 rt ++ Zbits 3 re in
  ((rt <> 0 \/ re = 3 \/ re = 7) /\ rejects qos_parse l ValueError)
  \/ (rt = 0 /\ re <> 3 /\ re <> 7 /\ exists q, accepts qos_parse l q
        /\ q_stop q = st /\ q_record q = rc /\ resp_code (q_resp q) = re).
Proof. exact qos_any. Qed.
Print Assumptions C28_qos_every_byte.
Theorem C28_configuration_round_trip :
  codec (fun c => conf_wf c /\ conf_stable c) conf_layout conf_ser conf_parse.
Proof. exact conf_codec. Qed.
Print Assumptions C28_configuration_round_trip.
Example C28_case : let c := mkConf (mkQoS RESP_PREFERRED RETRY_NO true false) (mkCT 2 20)
    (mkAddr 1 VID (IdInt 4660) NLS_NONE) in
  conf_wf c /\ conf_stable c /\ conf_ser c = Ok [134; 84; 48; 1; 18; 52].
Proof. vm_compute. repeat split; discriminate. Qed.

(** C29 *)
Theorem C29_status_serialized : forall s, status_wf s -> emits (status_ser s) (status_layout s).
Proof. exact status_emits. Qed.
Print Assumptions C29_status_serialized.
Theorem C29_status_round_trip : forall s, status_wf s -> st_rx_level s <= 127 ->
  addr_stable (st_addressee s) -> accepts status_parse (status_layout s) s.
Proof. exact status_accepts. Qed.
Print Assumptions C29_status_round_trip.
Theorem C29_status_high_level_rejected : forall s, status_wf s -> 128 <= st_rx_level s ->
  rejects status_parse (status_layout s) ValueError.
Proof. exact status_rejects. Qed.
Print Assumptions C29_status_high_level_rejected.
Theorem C29_status_level_never_above : forall s st s', status_parse s = Ok (st, s') -> 0 <= st_rx_level st <= 127.
Proof. exact status_level. Qed.
Print Assumptions C29_status_level_never_above.
(** Any received bytes: with 128..255 in the place of the level (after the three
    bytes of the channel) the outcome is that for a valid level, except that a
    status that would be read raises ValueError. *)
Theorem C29_any_high_level : forall h v w rest ps, length h = 24%nat -> 128 <= v <= 255 -> 0 <= w <= 127 ->
  status_parse (St ps (h ++ Zbits 8 v ++ rest)) =
  match status_parse (St ps (h ++ Zbits 8 w ++ rest)) with Ok _ => Err ValueError | Err e => Err e end.
Proof. exact high_level_any. Qed.
Print Assumptions C29_any_high_level.
Definition C29_sample (rx : Z) : Status :=
  mkStatus (mkChannelID (mkCH FEC_PN9 NORMAL_RATE BAND_868) 16) rx 70 80 true false true false 200 1
    (mkCT 0 20) (mkAddr 1 UID (IdInt 81985529216486895) NLS_NONE).
Example C29_case : status_wf (C29_sample 70) /\ status_wf (C29_sample 200)
  /\ (exists st s', status_parse (St 0 (status_layout (C29_sample 70))) = Ok (st, s') /\ st = C29_sample 70).
Proof. split; [|split]; [vm_compute; repeat split; discriminate .. |]. do 2 eexists. split; vm_compute; reflexivity. Qed.

(** C30 *)
Theorem C30_channel_header_round_trip : codec (fun _ => True) ch_layout ch_ser ch_parse.
Proof. exact ch_codec. Qed.
Print Assumptions C30_channel_header_round_trip.
Theorem C30_channel_header_every_byte : forall r ba cl co, 0 <= ba < 8 -> 0 <= cl < 4 -> 0 <= co < 4 ->
  let l := [r] ++ Zbits 3 ba ++ Zbits 2 cl ++ Zbits 2 co in
  (band_reserved ba /\ rejects ch_parse l ValueError)
  \/ (~ band_reserved ba /\ exists h, accepts ch_parse l h
        /\ band_code (ch_band h) = ba /\ class_code (ch_class h) = cl /\ coding_code (ch_coding h) = co).
Proof. exact ch_any. Qed.
Print Assumptions C30_channel_header_every_byte.
Theorem C30_channel_id_round_trip : codec cid_wf cid_layout cid_ser cid_parse.
Proof. exact cid_codec. Qed.
Print Assumptions C30_channel_id_round_trip.
Theorem C30_channel_id_reserved_bit_ignored : forall r c, cid_wf c -> accepts cid_parse (cid_bits r c) c.
Proof. exact cid_accepts. Qed.
Print Assumptions C30_channel_id_reserved_bit_ignored.
Example C30_case : let c := mkChannelID (mkCH FEC_PN9 HI_RATE BAND_433) 1039 in
  cid_wf c /\ cid_ser c = Ok [46; 4; 15] /\ band_reserved 5.
Proof. vm_compute. repeat split; try discriminate. right. left. reflexivity. Qed.

(** C32 *)
Theorem C32_subband_round_trip : codec sb_wf sb_layout sb_ser sb_parse.
Proof. exact sb_codec. Qed.
Print Assumptions C32_subband_round_trip.
Theorem C32_subband_parse_canonical : canonical sb_wf sb_layout sb_parse.
Proof. exact sb_canonical. Qed.
Print Assumptions C32_subband_parse_canonical.
Theorem C32_channel_status_identifier_round_trip : codec csi_wf csi_layout csi_ser csi_parse.
Proof. exact csi_codec. Qed.
Print Assumptions C32_channel_status_identifier_round_trip.
Theorem C32_channel_status_identifier_every_word : forall ba w r i, 0 <= ba < 8 -> 0 <= i < 2048 ->
  let l := Zbits 3 ba ++ [w] ++ [r] ++ Zbits 11 i in
  ((band_reserved ba \/ 1039 < i) /\ rejects csi_parse l ValueError)
  \/ (~ band_reserved ba /\ i <= 1039 /\ exists c, accepts csi_parse l c /\ csi_wf c
        /\ band_code (csi_band c) = ba /\ csi_index c = i
        /\ csi_bandwidth c = if w then kHz25 else kHz200).
Proof. exact csi_any. Qed.
Print Assumptions C32_channel_status_identifier_every_word.
Theorem C32_sub_profile_round_trip : codec sp_wf sp_layout sp_ser sp_parse.
Proof. exact sp_codec. Qed.
Print Assumptions C32_sub_profile_round_trip.
Theorem C32_sub_profile_parse_canonical : canonical sp_wf sp_layout sp_parse.
Proof. exact sp_canonical. Qed.
Print Assumptions C32_sub_profile_parse_canonical.
Theorem C32_file_permissions_round_trip : codec (fun _ => True) perm_layout perm_ser perm_parse.
Proof. exact perm_codec. Qed.
Print Assumptions C32_file_permissions_round_trip.
Theorem C32_file_properties_round_trip : codec (fun _ => True) prop_layout prop_ser prop_parse.
Proof. exact prop_codec. Qed.
Print Assumptions C32_file_properties_round_trip.
Theorem C32_file_properties_every_byte : forall e c r1 r2 st, 0 <= c < 8 -> 0 <= st < 4 ->
  let l := [e] ++ Zbits 3 c ++ [r1; r2] ++ Zbits 2 st in
  (4 <= c /\ rejects prop_parse l ValueError)
  \/ (c < 4 /\ exists p, accepts prop_parse l p /\ pr_enabled p = e
        /\ actcond_code (pr_cond p) = c /\ storage_code (pr_storage p) = st).
Proof. exact prop_any. Qed.
Print Assumptions C32_file_properties_every_byte.
Theorem C32_file_header_round_trip : codec fh_wf fh_layout fh_ser fh_parse.
Proof. exact fh_codec. Qed.
Print Assumptions C32_file_header_round_trip.
Theorem C32_file_header_parse_inverse : forall s h s', fh_parse s = Ok (h, s') ->
  fh_wf h /\ exists r, length r = 2%nat /\ bits s = fh_bits r h ++ bits s' /\ pos s' = (pos s + 96)%nat.
Proof. exact fh_inv. Qed.
Print Assumptions C32_file_header_parse_inverse.
Example C32_case_subband : let b := mkSubBand 0 65535 (-20) 86 255 in
  sb_wf b /\ sb_ser b = Ok [0; 0; 255; 255; 236; 86; 255].
Proof. vm_compute. repeat split; discriminate. Qed.
Example C32_case_csi : let c := mkCSI BAND_868 kHz25 1039 in csi_wf c /\ csi_ser c = Ok [116; 15].
Proof. vm_compute. repeat split; discriminate. Qed.
Example C32_case_header : let h := mkFH (mkPerm true false true true false true false false)
    (mkProp true AC_WRITE PERMANENT) 65 66 256 4294967295 in
  fh_wf h /\ fh_ser h = Ok [180; 163; 65; 66; 0; 0; 1; 0; 255; 255; 255; 255].
Proof. vm_compute. repeat split; discriminate. Qed.

(** C33 *)
Theorem C33_access_profile_round_trip_iff : forall a, ap_wf a ->
  emits (ap_ser a) (ap_layout a) /\ (accepts ap_parse (ap_layout a) a <-> length (ap_bands a) = 8%nat).
Proof. exact ap_codec_iff. Qed.
Print Assumptions C33_access_profile_round_trip_iff.
Theorem C33_access_profile_short : forall a, ap_wf a -> (length (ap_bands a) < 8)%nat ->
  forall ps, ap_parse (St ps (ap_layout a)) = Err ReadError.
Proof. exact ap_short. Qed.
Print Assumptions C33_access_profile_short.
Theorem C33_access_profile_always_65_bytes : forall s a s', ap_parse s = Ok (a, s') ->
  length (ap_bands a) = 8%nat /\ pos s' = (pos s + 520)%nat.
Proof. exact ap_parse_bands. Qed.
Print Assumptions C33_access_profile_always_65_bytes.
Example C33_case : let ap n := mkAP (mkCH PN9 NORMAL_RATE BAND_868)
    (repeat (mkSubProfile 1 (mkCT 1 2)) 4) (repeat (mkSubBand 0 10 14 86 255) n) in
  ap_wf (ap 8%nat) /\ ap_wf (ap 3%nat).
Proof. vm_compute. repeat split; repeat constructor; discriminate. Qed.
