(** Contents and wire formats of the D7A system files, written down
    independently of the code. *)
From Verif Require Export STypes MSysFiles MPhyStatusHeap.

Definition byte_ok (v : Z) : Prop := 0 <= v <= 255.
Definition word_ok (v : Z) : Prop := 0 <= v <= 65535.
Definition long_ok (v : Z) : Prop := 0 <= v <= 4294967295.

(** ** UID: 8 bytes *)
Definition uid_wf (f : UidFile) : Prop := 0 <= uid_uid f <= 18446744073709551615.
Definition uid_layout (f : UidFile) : list bool := Zbits 64 (uid_uid f).
(** ** VID: 2 bytes and a control byte *)
Definition vid_wf (f : VidFile) : Prop := word_ok (vid_vid f) /\ byte_ok (vid_control f).
Definition vid_layout (f : VidFile) : list bool := Zbits 16 (vid_vid f) ++ Zbits 8 (vid_control f).
(** ** DLL configuration: access class, 2 reserved bytes, 4 single bytes *)
Definition dc_wf (f : DllConfigFile) : Prop :=
  byte_ok (dc_access_class f) /\ byte_ok (dc_lq_filter f) /\ byte_ok (dc_nf_ctrl f)
  /\ byte_ok (dc_rx_nf f) /\ byte_ok (dc_tx_nf f).
Definition dc_bits (rfu : Z) (f : DllConfigFile) : list bool :=
  Zbits 8 (dc_access_class f) ++ Zbits 16 rfu ++ Zbits 8 (dc_lq_filter f) ++ Zbits 8 (dc_nf_ctrl f)
  ++ Zbits 8 (dc_rx_nf f) ++ Zbits 8 (dc_tx_nf f).
Definition dc_layout : DllConfigFile -> list bool := dc_bits 0.
(** ** DLL status: 3 bytes, channel header, two words, two long words *)
Definition ds_wf (f : DllStatusFile) : Prop :=
  byte_ok (ds_level f) /\ byte_ok (ds_budget f) /\ byte_ok (ds_noise f) /\ word_ok (ds_index f)
  /\ word_ok (ds_ratio f) /\ long_ok (ds_scan f) /\ long_ok (ds_timeout f).
Definition ds_bits (rfu : bool) (f : DllStatusFile) : list bool :=
  Zbits 8 (ds_level f) ++ Zbits 8 (ds_budget f) ++ Zbits 8 (ds_noise f) ++ ch_bits rfu (ds_header f)
  ++ Zbits 16 (ds_index f) ++ Zbits 16 (ds_ratio f) ++ Zbits 32 (ds_scan f) ++ Zbits 32 (ds_timeout f).
Definition ds_layout : DllStatusFile -> list bool := ds_bits false.
(** ** Engineering mode: mode, flags, timeout, channel id, signed EIRP, 2 reserved bytes *)
Definition em_code (m : EngMode) : Z :=
  match m with EM_OFF => 0 | EM_CONT_TX => 1 | EM_TRANSIENT_TX => 2 | EM_PER_RX => 3 | EM_PER_TX => 4 end.
Definition em_wf (f : EngineeringModeFile) : Prop :=
  byte_ok (em_flags f) /\ byte_ok (em_timeout f) /\ cid_wf (em_channel f) /\ -128 <= em_eirp f <= 127.
Definition em_bits (rfu : bool) (f : EngineeringModeFile) : list bool :=
  Zbits 8 (em_code (em_mode f)) ++ Zbits 8 (em_flags f) ++ Zbits 8 (em_timeout f)
  ++ cid_bits rfu (em_channel f) ++ Zbits 8 (em_eirp f).
Definition em_layout (f : EngineeringModeFile) : list bool := em_bits false f ++ Zbits 16 0.
(** ** Firmware version: 4 version bytes, 6 and 7 ASCII characters, blank padded *)
Definition ascii_text (max : nat) (l : list Z) : Prop := Forall (fun c => 0 <= c <= 127) l /\ (length l <= max)%nat.
Definition padded (n : nat) (l : list Z) : list Z := l ++ repeat 32 (n - length l).
Definition fw_wf (f : FirmwareVersionFile) : Prop :=
  byte_ok (fw_major f) /\ byte_ok (fw_minor f) /\ byte_ok (fw_fs_major f) /\ byte_ok (fw_fs_minor f)
  /\ ascii_text 6 (fw_app f) /\ ascii_text 7 (fw_git f).
Definition fw_layout (f : FirmwareVersionFile) : list bool :=
  Zbits 8 (fw_major f) ++ Zbits 8 (fw_minor f) ++ Zbits 8 (fw_fs_major f) ++ Zbits 8 (fw_fs_minor f)
  ++ bytes_bits (padded 6 (fw_app f)) ++ bytes_bits (padded 7 (fw_git f)).
Definition fw_padded (f : FirmwareVersionFile) : FirmwareVersionFile :=
  mkFw (fw_major f) (fw_minor f) (fw_fs_major f) (fw_fs_minor f) (padded 6 (fw_app f)) (padded 7 (fw_git f)).
(** ** Factory settings: gain, 9 long words, 9 bytes, smoothing and offset,
    bandwidth, spreading factor, filter, ramp time *)
Definition fs_wf (f : FactorySettings) : Prop :=
  0 <= fs_gain f <= 127 /\ Forall long_ok (fs_rates f) /\ length (fs_rates f) = 9%nat
  /\ Forall byte_ok (fs_pre f) /\ length (fs_pre f) = 6%nat
  /\ Forall byte_ok (fs_tol f) /\ length (fs_tol f) = 3%nat
  /\ byte_ok (fs_smoothing f) /\ 0 <= fs_offset f <= 125 /\ long_ok (fs_lora_bw f)
  /\ 6 <= fs_lora_sf f <= 12 /\ 0 <= fs_gaussian f <= 3 /\ word_ok (fs_paramp f).
Definition fs_layout (f : FactorySettings) : list bool :=
  Zbits 8 (fs_gain f) ++ flat_map (Zbits 32) (fs_rates f) ++ flat_map (Zbits 8) (fs_pre f)
  ++ flat_map (Zbits 8) (fs_tol f) ++ Zbits 8 (fs_smoothing f) ++ Zbits 8 (fs_offset f)
  ++ Zbits 32 (fs_lora_bw f) ++ Zbits 8 (fs_lora_sf f) ++ Zbits 8 (fs_gaussian f) ++ Zbits 16 (fs_paramp f).
Definition fs_set_smoothing (f : FactorySettings) (s : Z) : FactorySettings :=
  mkFactory (fs_gain f) (fs_rates f) (fs_pre f) (fs_tol f) s (fs_offset f) (fs_lora_bw f)
            (fs_lora_sf f) (fs_gaussian f) (fs_paramp f).
(** the smallest exponent whose power of two is at least [v] *)
Definition bits_needed (v n : Z) : Prop := 0 <= n /\ v <= 2 ^ n /\ (n = 0 \/ 2 ^ (n - 1) < v).
(** ** Keys: 16 bytes, least significant first *)
Fixpoint le_value (l : list Z) : Z := match l with [] => 0 | b :: r => b + 256 * le_value r end.
(** ** PHY status: three long words, duty cycle, count, then count entries *)
Definition ps_wf (f : PhyStatusFile) : Prop :=
  long_ok (ps_up f) /\ long_ok (ps_rx f) /\ long_ok (ps_tx f) /\ 0 <= ps_duty f <= 1000
  /\ 0 <= ps_len f <= 255 /\ zlen (ps_ids f) = ps_len f /\ zlen (ps_noise f) = ps_len f
  /\ Forall csi_wf (ps_ids f) /\ Forall byte_ok (ps_noise f).
Definition ps_entry (e : ChannelStatusIdentifier * Z) : list bool := csi_layout (fst e) ++ Zbits 8 (snd e).
Definition ps_layout (f : PhyStatusFile) : list bool :=
  Zbits 32 (ps_up f) ++ Zbits 32 (ps_rx f) ++ Zbits 32 (ps_tx f) ++ Zbits 16 (ps_duty f)
  ++ Zbits 8 (ps_len f) ++ flat_map ps_entry (combine (ps_ids f) (ps_noise f)).
(** the longest list length asked for with the default list *)
Definition ids_high (ops : list PhyOp) : Z :=
  fold_right (fun op m => match op with Construct _ _ _ _ n None _ => Z.max n m | _ => m end) 0 ops.
Definition noise_high (ops : list PhyOp) : Z :=
  fold_right (fun op m => match op with Construct _ _ _ _ n _ None => Z.max n m | _ => m end) 0 ops.
