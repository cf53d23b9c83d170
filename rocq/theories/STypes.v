(** Wire formats of the small D7A structures, written down independently of
    the code: code points, value ranges and bit layouts. *)
From Verif Require Export SCodec MCt MPhy MSp MFs MProfile.

Definition u (w : nat) (v : Z) : Prop := 0 <= v < 2 ^ Z.of_nat w.

(** ** Compressed time: 3 bit exponent, 5 bit mantissa, value mant * 4^exp *)
Definition ct_wf (c : CT) : Prop := 0 <= ct_exp c <= 7 /\ 0 <= ct_mant c <= 31.
Definition ct_layout (c : CT) : list bool := Zbits 3 (ct_exp c) ++ Zbits 5 (ct_mant c).
Definition ct_value (c : CT) : Z := ct_mant c * 4 ^ ct_exp c.

(** the largest one, 31 * 4^7 *)
Definition ct_max : Z := 507904.
(** [i] is the smallest exponent whose range holds [v] *)
Definition ct_fits (v i : Z) : Prop := 0 <= i <= 7 /\ v <= 31 * 4 ^ i /\ (i = 0 \/ 31 * 4 ^ (i - 1) < v).
(** the times between 31 * 4^j and 32 * 4^j *)
Definition ct_floor_gap (v : Z) : Prop := exists j, 0 <= j <= 6 /\ 31 * 4 ^ j < v < 32 * 4 ^ j.

(** ** Channel header: RFU bit, band, class, coding *)
Definition band_code (b : ChannelBand) : Z :=
  match b with BAND_NOT_IMPL => 0 | BAND_433 => 2 | BAND_868 => 3 | BAND_915 => 4 end.
(** the unused bit patterns of the band field *)
Definition band_reserved (v : Z) : Prop := v = 1 \/ v = 5 \/ v = 6 \/ v = 7.
Definition class_code (c : ChannelClass) : Z :=
  match c with LO_RATE => 0 | LORA => 1 | NORMAL_RATE => 2 | HI_RATE => 3 end.
Definition coding_code (c : ChannelCoding) : Z :=
  match c with PN9 => 0 | CodingRFU => 1 | FEC_PN9 => 2 | CW => 3 end.
(** [rfu] is the reserved bit *)
Definition ch_bits (rfu : bool) (h : ChannelHeader) : list bool :=
  [rfu] ++ Zbits 3 (band_code (ch_band h)) ++ Zbits 2 (class_code (ch_class h))
  ++ Zbits 2 (coding_code (ch_coding h)).
Definition ch_layout : ChannelHeader -> list bool := ch_bits false.

(** ** Channel id: header and 16 bit index *)
Definition cid_wf (c : ChannelID) : Prop := 0 <= cid_index c <= 65535.
Definition cid_bits (rfu : bool) (c : ChannelID) : list bool :=
  ch_bits rfu (cid_header c) ++ Zbits 16 (cid_index c).
Definition cid_layout : ChannelID -> list bool := cid_bits false.

(** ** Channel status identifier: 3 bits band, 1 bit bandwidth, RFU, 11 bits index *)
Definition csi_wf (c : ChannelStatusIdentifier) : Prop := 0 <= csi_index c <= 1039.
Definition csi_bits (rfu : bool) (c : ChannelStatusIdentifier) : list bool :=
  Zbits 3 (band_code (csi_band c)) ++ [match csi_bandwidth c with kHz25 => true | kHz200 => false end]
  ++ [rfu] ++ Zbits 11 (csi_index c).
Definition csi_layout : ChannelStatusIdentifier -> list bool := csi_bits false.

(** ** Sub band: two 16 bit indices, signed EIRP, CCA, duty *)
Definition sb_wf (b : SubBand) : Prop :=
  0 <= sb_start b <= 65535 /\ 0 <= sb_end b <= 65535 /\ -128 <= sb_eirp b <= 127
  /\ 0 <= sb_cca b <= 255 /\ 0 <= sb_duty b <= 255.
Definition sb_layout (b : SubBand) : list bool :=
  Zbits 16 (sb_start b) ++ Zbits 16 (sb_end b) ++ Zbits 8 (sb_eirp b) ++ Zbits 8 (sb_cca b)
  ++ Zbits 8 (sb_duty b).

(** ** Sub profile: subband bitmap, scan automation period *)
Definition sp_wf (p : SubProfile) : Prop := 0 <= sp_bitmap p <= 255 /\ ct_wf (sp_period p).
Definition sp_layout (p : SubProfile) : list bool := Zbits 8 (sp_bitmap p) ++ ct_layout (sp_period p).

(** ** Access profile: channel header, four sub profiles, sub bands *)
Definition ap_wf (a : AccessProfile) : Prop :=
  length (ap_profiles a) = 4%nat /\ (length (ap_bands a) <= 8)%nat
  /\ Forall sp_wf (ap_profiles a) /\ Forall sb_wf (ap_bands a).
Definition ap_layout (a : AccessProfile) : list bool :=
  ch_layout (ap_header a) ++ flat_map sp_layout (ap_profiles a) ++ flat_map sb_layout (ap_bands a).

(** ** File permissions, properties, header *)
Definition perm_layout (p : FilePermissions) : list bool :=
  [fp_encrypted p; fp_executable p; fp_user_r p; fp_user_w p; fp_user_x p;
   fp_guest_r p; fp_guest_w p; fp_guest_x p].
Definition actcond_code (c : ActionCondition) : Z :=
  match c with AC_LIST => 0 | AC_READ => 1 | AC_WRITE => 2 | AC_WRITE_FLUSH => 3 end.
Definition storage_code (c : StorageClass) : Z :=
  match c with TRANSIENT => 0 | VOLATILE => 1 | RESTORABLE => 2 | PERMANENT => 3 end.
Definition prop_bits (rfu : list bool) (p : FileProperties) : list bool :=
  [pr_enabled p] ++ Zbits 3 (actcond_code (pr_cond p)) ++ rfu ++ Zbits 2 (storage_code (pr_storage p)).
Definition prop_layout : FileProperties -> list bool := prop_bits [false; false].
Definition fh_wf (h : FileHeader) : Prop :=
  0 <= fh_alp_file h <= 255 /\ 0 <= fh_if_file h <= 255
  /\ 0 <= fh_size h <= 4294967295 /\ 0 <= fh_alloc h <= 4294967295.
Definition fh_bits (rfu : list bool) (h : FileHeader) : list bool :=
  perm_layout (fh_perm h) ++ prop_bits rfu (fh_prop h) ++ Zbits 8 (fh_alp_file h)
  ++ Zbits 8 (fh_if_file h) ++ Zbits 32 (fh_size h) ++ Zbits 32 (fh_alloc h).
Definition fh_layout : FileHeader -> list bool := fh_bits [false; false].

(** ** Addressee: two RFU bits, id type, nls method, access class, id *)
Definition idtype_code (t : IdType) : Z :=
  match t with NBID => 0 | NOID => 1 | UID => 2 | VID => 3 end.
Definition nls_code (m : NlsMethod) : Z :=
  match m with NLS_NONE => 0 | AES_CTR => 1 | AES_CBC_MAC_128 => 2 | AES_CBC_MAC_64 => 3
  | AES_CBC_MAC_32 => 4 | AES_CCM_128 => 5 | AES_CCM_64 => 6 | AES_CCM_32 => 7 end.
Definition addr_wf (a : Addressee) : Prop :=
  0 <= ad_access_class a <= 255 /\
  match ad_id_type a, ad_id a with
  | NOID, IdNone => True
  | VID, IdInt z => 0 <= z <= 65535
  | UID, IdInt z => 0 <= z <= 18446744073709551615
  | NBID, IdCT c => ct_wf c
  | _, _ => False
  end.
Definition addr_id_bits (a : Addressee) : list bool :=
  match ad_id_type a, ad_id a with
  | VID, IdInt z => Zbits 16 z
  | UID, IdInt z => Zbits 64 z
  | NBID, IdCT c => ct_layout c
  | _, _ => []
  end.
Definition addr_bits (rfu : list bool) (a : Addressee) : list bool :=
  rfu ++ Zbits 2 (idtype_code (ad_id_type a)) ++ Zbits 4 (nls_code (ad_nls a))
  ++ Zbits 8 (ad_access_class a) ++ addr_id_bits a.
Definition addr_layout : Addressee -> list bool := addr_bits [false; false].
(** the addressees the parser gives back unchanged: all but most NBID ones *)
Definition addr_stable (a : Addressee) : Prop :=
  match ad_id a with
  | IdCT c => let byte := 32 * ct_exp c + ct_mant c in 0 <= byte <= 31 \/ byte = 43
  | _ => True
  end.

(** ** QoS: stop-on-error, record, retry mode, response mode *)
Definition resp_code (m : ResponseMode) : Z :=
  match m with RESP_NO => 0 | RESP_ALL => 1 | RESP_ANY => 2 | RESP_NO_RPT => 4
  | RESP_ON_ERROR => 5 | RESP_PREFERRED => 6 end.
Definition qos_layout (q : QoS) : list bool :=
  [q_stop q; q_record q] ++ Zbits 3 0 ++ Zbits 3 (resp_code (q_resp q)).

(** ** D7ASP interface configuration *)
Definition conf_wf (c : Configuration) : Prop := ct_wf (cf_dorm_to c) /\ addr_wf (cf_addressee c).
Definition conf_stable (c : Configuration) : Prop := addr_stable (cf_addressee c).
Definition conf_layout (c : Configuration) : list bool :=
  qos_layout (cf_qos c) ++ ct_layout (cf_dorm_to c) ++ addr_layout (cf_addressee c).

(** ** D7ASP status *)
Definition status_wf (s : Status) : Prop :=
  cid_wf (st_channel_id s) /\ 0 <= st_rx_level s <= 255 /\ 0 <= st_link_budget s <= 255
  /\ 0 <= st_target_rx_level s <= 255 /\ 0 <= st_fifo_token s <= 255 /\ 0 <= st_seq_nr s <= 255
  /\ ct_wf (st_response_to s) /\ addr_wf (st_addressee s).
Definition status_layout (s : Status) : list bool :=
  cid_layout (st_channel_id s) ++ Zbits 8 (st_rx_level s) ++ Zbits 8 (st_link_budget s)
  ++ Zbits 8 (st_target_rx_level s) ++ [st_nls s; st_missed s; st_retry s; st_unicast s]
  ++ Zbits 4 0 ++ Zbits 8 (st_fifo_token s) ++ Zbits 8 (st_seq_nr s)
  ++ ct_layout (st_response_to s) ++ addr_layout (st_addressee s).
