(** Properties C38-C43, C49, C50: system files. *)
From Verif Require Import SContent LContent STable LTable LExact LFirmware.

(** C38 *)
Theorem C38_uid : codec uid_wf uid_layout uid_ser uid_parse.
Proof. exact uid_codec. Qed.
Print Assumptions C38_uid.
Theorem C38_vid : codec vid_wf vid_layout vid_ser vid_parse.
Proof. exact vid_codec. Qed.
Print Assumptions C38_vid.
Theorem C38_dll_config : codec dc_wf dc_layout dll_config_ser dll_config_parse.
Proof. exact dc_codec. Qed.
Print Assumptions C38_dll_config.
Theorem C38_dll_status : codec ds_wf ds_layout dll_status_ser dll_status_parse.
Proof. exact ds_codec. Qed.
Print Assumptions C38_dll_status.
Theorem C38_engineering_mode : forall f, em_wf f ->
  emits (eng_ser f) (em_layout f) /\ forall ps rest, exists rest', eng_parse (St ps (em_layout f ++ rest)) = Ok (f, rest').
Proof. exact em_round_trip. Qed.
Print Assumptions C38_engineering_mode.
Theorem C38_phy_status : codec ps_wf ps_layout phy_status_ser phy_status_parse.
Proof. exact ps_codec. Qed.
Print Assumptions C38_phy_status.
(** any of them, handed over as bytes *)
Theorem C38_declared_length : forall f bs n, survives f -> file_ser f = Ok bs -> sys_size f = Some n ->
  (forall p, f <> F_PhyStatus p) -> zlen bs = n.
Proof. exact survives_size. Qed.
Print Assumptions C38_declared_length.
(** what is read is well-formed and differs from its own layout at most in the reserved bits *)
Theorem C38_uid_canonical : canonical uid_wf uid_layout uid_parse.
Proof. exact uid_canonical. Qed.
Print Assumptions C38_uid_canonical.
Theorem C38_vid_canonical : canonical vid_wf vid_layout vid_parse.
Proof. exact vid_canonical. Qed.
Print Assumptions C38_vid_canonical.
Theorem C38_dll_config_canonical : forall s f s', dll_config_parse s = Ok (f, s') ->
  dc_wf f /\ exists r, 0 <= r <= 65535 /\ bits s = dc_bits r f ++ bits s' /\ pos s' = (pos s + 56)%nat.
Proof. exact dc_inv. Qed.
Print Assumptions C38_dll_config_canonical.
Theorem C38_dll_status_canonical : forall s f s', dll_status_parse s = Ok (f, s') ->
  ds_wf f /\ exists r, bits s = ds_bits r f ++ bits s' /\ pos s' = (pos s + 128)%nat.
Proof. exact ds_inv. Qed.
Print Assumptions C38_dll_status_canonical.
Theorem C38_engineering_mode_canonical : forall s f s', eng_parse s = Ok (f, s') ->
  em_wf f /\ exists r, bits s = em_bits r f ++ bits s' /\ pos s' = (pos s + 56)%nat.
Proof. exact em_inv. Qed.
Print Assumptions C38_engineering_mode_canonical.
Example C38_case : 
  let f := mkEng EM_PER_RX 9 8 (mkChannelID (mkCH FEC_PN9 NORMAL_RATE BAND_868) 7) (-6) in
  em_wf f /\ eng_ser f = Ok [3; 9; 8; 58; 0; 7; 250; 0; 0] /\ survives (F_Eng f).
Proof. refine (conj _ (conj eq_refl _)); unfold survives, em_wf, byte_ok, cid_wf; cbn; lia. Qed.
Example C38_case_status :
  let f := mkDllStatus 1 2 3 (mkCH PN9 LO_RATE BAND_433) 260 5 6 7 in
  ds_wf f /\ dll_status_ser f = Ok [1; 2; 3; 32; 1; 4; 0; 5; 0; 0; 0; 6; 0; 0; 0; 7].
Proof. refine (conj _ eq_refl); unfold ds_wf, byte_ok, word_ok, long_ok; cbn; lia. Qed.

(** C39 *)
Theorem C39_firmware_bytes : forall f, fw_wf f -> emits (fw_ser f) (fw_layout f) /\ length (fw_layout f) = (8 * 17)%nat.
Proof. exact fw_size. Qed.
Print Assumptions C39_firmware_bytes.
Theorem C39_firmware_read_back : forall f, fw_wf f -> accepts fw_parse (fw_layout f) (fw_padded f).
Proof. exact fw_accepts. Qed.
Print Assumptions C39_firmware_read_back.
Theorem C39_firmware_round_trip : forall f, fw_wf f ->
  (accepts fw_parse (fw_layout f) f <-> length (fw_app f) = 6%nat /\ length (fw_git f) = 7%nat).
Proof. exact fw_survives. Qed.
Print Assumptions C39_firmware_round_trip.
Theorem C39_firmware_canonical : canonical fw_wf fw_layout fw_parse.
Proof. exact fw_canonical. Qed.
Print Assumptions C39_firmware_canonical.
(** Text that is not ASCII is refused, in both directions. *)
Theorem C39_firmware_not_ascii_read : forall p a b c d app git rest,
  Forall is_byte [a; b; c; d] -> Forall is_byte app -> Forall is_byte git ->
  length app = 6%nat -> length git = 7%nat -> ~ Forall (fun c => c <= 127) (app ++ git) ->
  fw_parse (St p (bytes_bits ([a; b; c; d] ++ app ++ git ++ rest))) = Err UnicodeError.
Proof. exact fw_parse_text. Qed.
Print Assumptions C39_firmware_not_ascii_read.
Theorem C39_firmware_not_ascii_written : forall f,
  Forall byte_ok [fw_major f; fw_minor f; fw_fs_major f; fw_fs_minor f] ->
  ~ Forall (fun c => 0 <= c <= 127) (fw_app f ++ fw_git f) -> fw_ser f = Err UnicodeError.
Proof. exact fw_ser_text. Qed.
Print Assumptions C39_firmware_not_ascii_written.
Example C39_case_not_ascii :
  fw_parse (stream_of [1; 2; 3; 4; 97; 112; 112; 32; 32; 233; 49; 50; 51; 52; 53; 54; 55]) = Err UnicodeError
  /\ fw_ser (mkFw 1 2 3 4 [233] []) = Err UnicodeError.
Proof. split; reflexivity. Qed.
Example C39_case : let f := mkFw 1 2 3 4 [97; 112; 112] [49; 50; 51; 52; 53; 54; 55] in
  fw_wf f /\ fw_padded f = mkFw 1 2 3 4 [97; 112; 112; 32; 32; 32] [49; 50; 51; 52; 53; 54; 55].
Proof. split; [unfold fw_wf, ascii_text, byte_ok; cbn; repeat split; try lia; repeat constructor; lia | reflexivity]. Qed.

(** C40 *)
Theorem C40_construction_stores_exponent : forall g r p t s o b sf ga pa f,
  mk_factory g r p t s o b sf ga pa = Ok f ->
  2 <= s /\ exists n, bits_needed s n /\ f = mkFactory g r p t (n - 1) o b sf ga pa.
Proof. exact fs_stores. Qed.
Print Assumptions C40_construction_stores_exponent.
Theorem C40_factory_bytes : forall f, fs_wf f -> emits (factory_ser f) (fs_layout f) /\ length (fs_layout f) = (8 * 56)%nat.
Proof. exact fs_size. Qed.
Print Assumptions C40_factory_bytes.
Theorem C40_small_exponent_unreadable : forall f, fs_wf f -> fs_smoothing f <= 1 ->
  rejects factory_parse (fs_layout f) ValueError.
Proof. exact fs_small_rejected. Qed.
Print Assumptions C40_small_exponent_unreadable.
Theorem C40_large_exponent_changed : forall f, fs_wf f -> 2 <= fs_smoothing f ->
  exists n, bits_needed (fs_smoothing f) n /\ n - 1 < fs_smoothing f
  /\ accepts factory_parse (fs_layout f) (fs_set_smoothing f (n - 1)).
Proof. exact fs_large_changed. Qed.
Print Assumptions C40_large_exponent_changed.
Theorem C40_no_file_survives : forall f, fs_wf f -> ~ accepts factory_parse (fs_layout f) f.
Proof. exact fs_never_survives. Qed.
Print Assumptions C40_no_file_survives.
Theorem C40_serializable_iff : forall g r p t s o b sf ga pa f, mk_factory g r p t s o b sf ga pa = Ok f ->
  length r = 9%nat -> length p = 6%nat -> length t = 3%nat ->
  (serializable (factory_ser f) <-> 0 <= g /\ 0 <= o /\ Forall byte_ok t).
Proof. exact fs_serializable. Qed.
Print Assumptions C40_serializable_iff.
Theorem C40_constructed_are_wf : forall g r p t s o b sf ga pa f l, mk_factory g r p t s o b sf ga pa = Ok f ->
  length r = 9%nat -> length p = 6%nat -> length t = 3%nat -> factory_ser f = Ok l -> fs_wf f.
Proof. exact fs_constructed_wf. Qed.
Print Assumptions C40_constructed_are_wf.
Example C40_case :
  exists f, mk_factory 0 [10468; 78646; 125868; 9600; 4800; 55555; 50000; 166667; 41667] [5; 5; 7; 3; 3; 3] [15; 10; 10] 8 0 125000 9 2 40 = Ok f
  /\ fs_smoothing f = 2 /\ fs_wf f.
Proof.
  eexists. split; [vm_compute; reflexivity|]. split; [reflexivity|]. unfold fs_wf, byte_ok, word_ok, long_ok; cbn.
  repeat split; try lia; repeat constructor; lia.
Qed.
Example C40_case_refused : exists f, mk_factory (-1) [1; 2; 3; 4; 5; 6; 7; 8; 9] [1; 2; 3; 4; 5; 6] [1; 2; 300] 8 (-1) 0 9 2 40 = Ok f
  /\ factory_ser f = Err ValueError.
Proof. eexists. split; [vm_compute; reflexivity|]. vm_compute. reflexivity. Qed.

(** C41 *)
Theorem C41_key_accepted_iff : forall k, (exists f, mk_key k = Ok f) <-> 0 <= k <= 2 ^ 128.
Proof. exact key_construct. Qed.
Print Assumptions C41_key_accepted_iff.
Theorem C41_key_refused : forall k, ~ 0 <= k <= 2 ^ 128 -> mk_key k = Err ValueError.
Proof. exact key_refused. Qed.
Print Assumptions C41_key_refused.
Theorem C41_key_bytes : forall rfu k f, mk_key k = Ok f ->
  exists l, key_ser rfu f = Ok (l ++ repeat 0 rfu) /\ length l = 16%nat /\ Forall is_byte l /\ le_value l = k mod 2 ^ 128.
Proof. exact key_roundup. Qed.
Print Assumptions C41_key_bytes.
(** the three key files: 16 bytes, and 24 zero bytes after those of the two authentication keys *)
Theorem C41_key_files : forall k f, mk_key k = Ok f ->
  exists l, length l = 16%nat /\ Forall is_byte l /\ le_value l = k mod 2 ^ 128
    /\ file_ser (F_SecKey f) = Ok l
    /\ file_ser (F_RootKey f) = Ok (l ++ repeat 0 24)
    /\ file_ser (F_UserKey f) = Ok (l ++ repeat 0 24).
Proof. exact key_files. Qed.
Print Assumptions C41_key_files.
Theorem C41_key_too_large : forall rfu f g, mk_key (2 ^ 128) = Ok f -> mk_key 0 = Ok g -> f <> g /\ key_ser rfu f = key_ser rfu g.
Proof. exact key_overflow. Qed.
Print Assumptions C41_key_too_large.
Theorem C41_key_never_parsed : forall rfu s f s', key_parse rfu s <> Ok (f, s').
Proof. exact key_never_parsed. Qed.
Print Assumptions C41_key_never_parsed.
Theorem C41_key_content_refused : forall rfu l, Forall is_byte l -> length l = (16 + rfu)%nat ->
  rejects (key_parse (Z.of_nat rfu)) (bytes_bits l) ValueError.
Proof. exact key_reject. Qed.
Print Assumptions C41_key_content_refused.
Example C41_case : exists f, mk_key 66051 = Ok f /\ key_ser 0 f = Ok [3; 2; 1; 0; 0; 0; 0; 0; 0; 0; 0; 0; 0; 0; 0; 0].
Proof. eexists. split; [vm_compute; reflexivity|]. vm_compute. reflexivity. Qed.
Example C41_case_too_large : exists f, mk_key (2 ^ 128) = Ok f.
Proof. eexists. vm_compute. reflexivity. Qed.

(** C42 *)
Theorem C42_defaults_accumulate : forall ops up rx tx duty n h o,
  construct_default (phy_run heap_initial ops) up rx tx duty n = (h, Ok o) ->
  view h o = mkPhyStatus up rx tx duty n (repeat csi_default (Z.to_nat (Z.max (ids_high ops) n)))
                                         (repeat 0 (Z.to_nat (Z.max (noise_high ops) n))).
Proof. exact default_result. Qed.
Print Assumptions C42_defaults_accumulate.
(** the entries added: no band, 25 kHz, channel 0, noise 0 *)
Theorem C42_added_entries : forall up rx tx duty n ids noise f,
  mk_phy_status up rx tx duty n ids noise = Ok f ->
  ps_ids f = ids ++ repeat (mkCSI BAND_NOT_IMPL kHz25 0) (Z.to_nat (n - zlen ids))
  /\ ps_noise f = noise ++ repeat 0 (Z.to_nat (n - zlen noise)).
Proof. exact added_entries. Qed.
Print Assumptions C42_added_entries.
Theorem C42_acceptance_depends_on_history : forall ops up rx tx duty n,
  (exists h o, construct_default (phy_run heap_initial ops) up rx tx duty n = (h, Ok o)) <->
  long_ok up /\ long_ok rx /\ long_ok tx /\ 0 <= duty <= 1000 /\ 0 <= n <= 255 /\ ids_high ops <= 255 /\ noise_high ops <= 255.
Proof. exact default_accepted. Qed.
Print Assumptions C42_acceptance_depends_on_history.
Theorem C42_poisoned_defaults : forall ops up rx tx duty n, 255 < ids_high ops \/ 255 < noise_high ops ->
  snd (construct_default (phy_run heap_initial ops) up rx tx duty n) = Err ValueError.
Proof. exact default_refused. Qed.
Print Assumptions C42_poisoned_defaults.
Theorem C42_caller_lists_extended : forall h up rx tx duty n i j l l',
  nth_error (h_ids h) (S i) = Some l -> nth_error (h_noise h) (S j) = Some l' ->
  ids_at (phy_step h (Construct up rx tx duty n (Some i) (Some j))) (S i) = l ++ repeat csi_default (Z.to_nat (n - zlen l))
  /\ noise_at (phy_step h (Construct up rx tx duty n (Some i) (Some j))) (S j) = l' ++ repeat 0 (Z.to_nat (n - zlen l')).
Proof. exact caller_list_extended. Qed.
Print Assumptions C42_caller_lists_extended.
(** what is not affected: the bytes *)
Theorem C42_bytes_independent_of_history : forall ops up rx tx duty n h o,
  construct_default (phy_run heap_initial ops) up rx tx duty n = (h, Ok o) ->
  phy_status_ser (view h o) = phy_status_ser (mkPhyStatus up rx tx duty n (repeat csi_default (Z.to_nat n)) (repeat 0 (Z.to_nat n))).
Proof. exact default_bytes. Qed.
Print Assumptions C42_bytes_independent_of_history.
Theorem C42_bytes_stable : forall h up rx tx duty n ri rn h' o ops, construct h up rx tx duty n ri rn = (h', Ok o) ->
  (ri < length (h_ids h))%nat -> (rn < length (h_noise h))%nat ->
  phy_status_ser (view (phy_run h' ops) o) = phy_status_ser (view h' o).
Proof. exact object_stable. Qed.
Print Assumptions C42_bytes_stable.
Example C42_case_leak :
  let h := phy_run heap_initial [Construct 0 0 0 0 3 None None] in
  exists h' o, construct_default h 0 0 0 0 1 = (h', Ok o) /\ length (ps_noise (view h' o)) = 3%nat
  /\ exists h'' o', construct_default heap_initial 0 0 0 0 1 = (h'', Ok o') /\ length (ps_noise (view h'' o')) = 1%nat.
Proof. do 2 eexists. split; [vm_compute; reflexivity|]. split; [reflexivity|]. do 2 eexists. split; [vm_compute; reflexivity | reflexivity]. Qed.
Example C42_case_poison :
  snd (construct_default (phy_run heap_initial [Construct 0 0 0 0 256 None None]) 0 0 0 0 0) = Err ValueError.
Proof. vm_compute. reflexivity. Qed.

(** C43 *)
Theorem C43_content_iff : forall d f, data_wf d ->
  (try_parse_system_file d = Some f <-> content (off_id (d_offset d)) (d_data d) f).
Proof. exact content_iff. Qed.
Print Assumptions C43_content_iff.
Theorem C43_sent_file_is_recognised : forall d f id bs, data_wf d -> survives f -> sys_id f = Some id -> file_ser f = Ok bs ->
  off_id (d_offset d) = id -> d_data d = bs -> try_parse_system_file d = Some f.
Proof. exact content_survives. Qed.
Print Assumptions C43_sent_file_is_recognised.
Theorem C43_content_id : forall d f, data_wf d -> try_parse_system_file d = Some f ->
  (exists p, f = F_AccessProfile p) \/ sys_id f = Some (off_id (d_offset d)).
Proof. exact content_id. Qed.
Print Assumptions C43_content_id.
Theorem C43_profile_number_lost : forall d p, data_wf d -> try_parse_system_file d = Some (F_AccessProfile p) -> apf_spec p = 0.
Proof. exact content_profile. Qed.
Print Assumptions C43_profile_number_lost.
Theorem C43_many_channels_not_recognised : forall d f bs, data_wf d -> ps_wf f -> 10 < ps_len f -> phy_status_ser f = Ok bs ->
  off_id (d_offset d) = 9 -> d_data d = bs -> try_parse_system_file d = None.
Proof. exact content_large_phy. Qed.
Print Assumptions C43_many_channels_not_recognised.
Theorem C43_keys_never_recognised : forall d, data_wf d ->
  (off_id (d_offset d) = 14 \/ off_id (d_offset d) = 24 \/ off_id (d_offset d) = 25) -> try_parse_system_file d = None.
Proof. exact content_key. Qed.
Print Assumptions C43_keys_never_recognised.
Example C43_case_offset_ignored :
  let d := mkData (mkOffset 6 (mkLength 2)) (mkLength 3) [1; 2; 3] in
  data_wf d /\ try_parse_system_file d = Some (F_Vid (mkVid 258 3)).
Proof. unfold data_wf, off_wf, len_wf, len_max; cbn. repeat split; try lia. repeat constructor; lia. Qed.
Example C43_case_too_long :
  let d := mkData (mkOffset 6 (mkLength 0)) (mkLength 4) [1; 2; 3; 4] in data_wf d /\ try_parse_system_file d = None.
Proof. unfold data_wf, off_wf, len_wf, len_max; cbn. repeat split; try lia. repeat constructor; lia. Qed.

(** C49 *)
Theorem C49_small_types : 
  (forall e m c, mk_ct e m = Ok c -> ct_wf c /\ serializable (ct_ser c))
  /\ (forall h i c, mk_channel_id h i = Ok c -> cid_wf c /\ serializable (cid_ser c))
  /\ (forall b w i c, mk_csi b w i = Ok c -> csi_wf c /\ serializable (csi_ser c))
  /\ (forall st en ei cca duty c, mk_subband st en ei cca duty = Ok c -> sb_wf c /\ serializable (sb_ser c))
  /\ (forall b e m c p, mk_ct e m = Ok c -> mk_sub_profile b c = Ok p -> sp_wf p /\ serializable (sp_ser p))
  /\ (forall p q a i s l h, mk_fh p q a i s l = Ok h -> fh_wf h /\ serializable (fh_ser h))
  /\ (forall q, serializable (qos_ser q)).
Proof. exact (conj ser_ct (conj ser_cid (conj ser_csi (conj ser_sb (conj ser_sp (conj ser_fh qos_serializable)))))). Qed.
Print Assumptions C49_small_types.
Theorem C49_addressee : forall ac t i m a, (forall c, i = IdCT c -> exists e n, mk_ct e n = Ok c) ->
  mk_addr ac t i m = Ok a -> addr_wf a /\ serializable (addr_ser a).
Proof. exact ser_addr_built. Qed.
Print Assumptions C49_addressee.
Theorem C49_access_profile : forall h ps bs a, Forall sp_wf ps -> Forall sb_wf bs ->
  mk_access_profile h ps bs = Ok a -> ap_wf a /\ serializable (ap_ser a).
Proof. exact ser_ap. Qed.
Print Assumptions C49_access_profile.
Theorem C49_file_operands :
  (forall v l, mk_length v = Ok l -> len_wf l /\ serializable (length_ser l))
  /\ (forall i l o, len_wf l -> mk_offset i l = Ok o -> off_wf o /\ serializable (offset_ser o))
  /\ (forall bs o d, off_wf o -> mk_data bs o = Ok d -> data_wf d /\ serializable (data_ser d))
  /\ (forall n o d, off_wf o -> mk_data_request n o = Ok d -> dr_wf d /\ serializable (dr_ser d))
  /\ (forall i h f, fh_wf h -> mk_fho i h = Ok f -> fho_wf f /\ serializable (fho_ser f)).
Proof. exact (conj ser_length (conj ser_offset (conj ser_data (conj ser_dr ser_fho)))). Qed.
Print Assumptions C49_file_operands.
Theorem C49_system_files :
  (forall u f, mk_uid u = Ok f -> serializable (uid_ser f))
  /\ (forall v c f, mk_vid v c = Ok f -> serializable (vid_ser f))
  /\ (forall lv bu no h ix ra sc ti f, mk_dll_status lv bu no h ix ra sc ti = Ok f -> serializable (dll_status_ser f))
  /\ (forall m fl ti c ei f, cid_wf c -> mk_eng m fl ti c ei = Ok f -> em_wf f /\ serializable (eng_ser f))
  /\ (forall rfu k f, mk_key k = Ok f -> serializable (key_ser rfu f)).
Proof. exact (conj ser_uid (conj ser_vid (conj ser_ds (conj ser_eng ser_key)))). Qed.
Print Assumptions C49_system_files.
Theorem C49_firmware : forall a b c d app git f,
  Forall (fun x => 0 <= x <= 127) app -> Forall (fun x => 0 <= x <= 127) git ->
  mk_fw a b c d app git = Ok f -> serializable (fw_ser f).
Proof. exact ser_fw. Qed.
Print Assumptions C49_firmware.
Theorem C49_dll_config_unchecked : forall ac lq nf rx tx,
  ((exists f, mk_dll_config ac lq nf rx tx = Ok f) <-> 0 <= ac <= 255)
  /\ forall f, mk_dll_config ac lq nf rx tx = Ok f ->
     (serializable (dll_config_ser f) <-> byte_ok lq /\ byte_ok nf /\ byte_ok rx /\ byte_ok tx).
Proof. exact dc_unchecked. Qed.
Print Assumptions C49_dll_config_unchecked.
(** an access profile file may be made without a profile; it cannot be written then *)
Theorem C49_access_profile_file : forall sp,
  ((exists f, mk_apf sp None = Ok f) <-> 0 <= sp <= 14)
  /\ forall f, mk_apf sp None = Ok f -> file_ser (F_AccessProfile f) = Err TypeError.
Proof. exact apf_without_profile. Qed.
Print Assumptions C49_access_profile_file.
(** nor can an interface status without a status *)
Theorem C49_interface_status : forall id, 0 <= id <= 255 -> iso_ser (mkISO id None) = Err TypeError.
Proof. exact iso_without_status. Qed.
Print Assumptions C49_interface_status.
(** the noise values of a PHY status file are not checked on construction *)
Theorem C49_phy_status : forall up rx tx duty n ids noise f,
  mk_phy_status up rx tx duty n ids noise = Ok f -> Forall csi_wf ids ->
  (serializable (phy_status_ser f) <-> Forall byte_ok (firstn (Z.to_nat n) noise))
  /\ (~ serializable (phy_status_ser f) -> phy_status_ser f = Err ValueError).
Proof. exact phy_status_serialized. Qed.
Print Assumptions C49_phy_status.
Theorem C49_output_is_bytes : forall l,
  (forall c, command_ser c = Ok l -> Forall is_byte l) /\ (forall f, file_ser f = Ok l -> Forall is_byte l).
Proof. exact only_bytes. Qed.
Print Assumptions C49_output_is_bytes.
Example C49_phy_case : exists f, mk_phy_status 1 2 3 4 2 [] [5; 256] = Ok f /\ phy_status_ser f = Err ValueError.
Proof. eexists. split; [vm_compute; reflexivity|]. vm_compute. reflexivity. Qed.
Example C49_refuted : exists f, mk_dll_config 1 256 0 0 0 = Ok f /\ dll_config_ser f = Err ValueError.
Proof. eexists. split; [vm_compute; reflexivity|]. vm_compute. reflexivity. Qed.

(** C50 *)
Theorem C50_read : forall rnd f t conf id n, 0 <= rnd <= 255 -> conf_ok t conf ->
  sys_id f = Some id -> 0 <= id <= 255 -> sys_size f = Some n -> 0 <= n <= len_max ->
  creates (create_read_sys rnd f t conf) rnd t conf
    (act_bits false false (ReadFileData (mkDataRequest (mkOffset id (mkLength 0)) (mkLength n)))).
Proof. exact create_read_sys_ok. Qed.
Print Assumptions C50_read.
Theorem C50_write : forall rnd f t conf id n bs, 0 <= rnd <= 255 -> conf_ok t conf ->
  sys_id f = Some id -> 0 <= id <= 255 -> sys_size f = Some n -> file_ser f = Ok bs ->
  zlen bs <= len_max -> bs <> [] ->
  creates (create_write_sys rnd f t conf) rnd t conf
    (act_bits false false (WriteFileData (mkData (mkOffset id (mkLength 0)) (mkLength (zlen bs)) bs))).
Proof. exact create_write_sys_ok. Qed.
Print Assumptions C50_write.
Theorem C50_write_unserializable : forall rnd f t conf e id n, sys_id f = Some id -> 0 <= id <= 255 -> sys_size f = Some n ->
  file_ser f = Err e -> conf = None \/ t <> IF_HOST -> create_write_sys rnd f t conf = Err e.
Proof. exact create_sys_unserializable. Qed.
Print Assumptions C50_write_unserializable.
Theorem C50_placeholders_refused : forall rnd n t conf,
  create_read_sys rnd (F_NotImpl None n) t conf = Err ValueError /\ create_write_sys rnd (F_NotImpl None n) t conf = Err ValueError.
Proof. exact create_sys_enum. Qed.
Print Assumptions C50_placeholders_refused.
(** every entry of the table has its own index as id, or is a placeholder *)
Theorem C50_table : forall id f, system_file id = Some f ->
  (sys_id f = Some id \/ (sys_id f = None /\ exists n, f = F_NotImpl None n))
  /\ exists n, sys_size f = Some n /\ 0 <= n <= 65.
Proof. exact table_ids. Qed.
Print Assumptions C50_table.
Theorem C50_table_domain : forall id, 0 <= id <= 46 <-> system_file id <> None.
Proof. exact system_file_small. Qed.
Print Assumptions C50_table_domain.
(** the contents of the entries, and what writing an entry does *)
Theorem C50_table_contents : forall id f, system_file id = Some f ->
  match table_content id with
  | Some bs => file_ser f = Ok bs
  | None => (exists p, f = F_AccessProfile p /\ file_ser f = Err TypeError)
            \/ (exists n, f = F_NotImpl None n /\ file_ser f = Ok (zeros (Z.to_nat (ni_length n))))
  end.
Proof. exact table_contents. Qed.
Print Assumptions C50_table_contents.
Theorem C50_table_written : forall id f bs rnd t conf, system_file id = Some f -> table_content id = Some bs -> 0 <= rnd <= 255 -> conf_ok t conf ->
  creates (create_write_sys rnd f t conf) rnd t conf
    (act_bits false false (WriteFileData (mkData (mkOffset id (mkLength 0)) (mkLength (zlen bs)) bs))).
Proof. exact table_written. Qed.
Print Assumptions C50_table_written.
Theorem C50_table_not_written : forall id f rnd t conf, system_file id = Some f -> table_content id = None -> conf = None \/ t <> IF_HOST ->
  create_write_sys rnd f t conf = Err (if id <? 32 then ValueError else TypeError).
Proof. exact table_not_written. Qed.
Print Assumptions C50_table_not_written.
Example C50_case : (let! c := create_write_sys 17 (F_Vid (mkVid 258 3)) IF_HOST None in command_ser c)
  = Ok [180; 17; 4; 6; 0; 3; 1; 2; 3].
Proof. vm_compute. reflexivity. Qed.
Example C50_case_read : (let! c := create_read_sys 17 (F_Uid (mkUid 0)) IF_HOST None in command_ser c) = Ok [180; 17; 1; 0; 0; 8].
Proof. vm_compute. reflexivity. Qed.
