(** d7a/system_files *)
From Verif Require Import MBase MCt MPhy MSp MFs MProfile MOperands.

(** ** UidFile, uid.py:31-49 *)
Record UidFile := mkUid { uid_uid : Z }.
Definition mk_uid (u : Z) : res UidFile :=
  validated (in_range 0 18446744073709551615 u) (mkUid u).
Definition uid_parse : P UidFile := do u <- read_uint 64; lift (mk_uid u).
Definition uid_ser (f : UidFile) : res (list Z) := pack_be 8 (uid_uid f).

(** ** VidFile, vid.py:31-53 *)
Record VidFile := mkVid { vid_vid : Z; vid_control : Z }.
Definition mk_vid (v c : Z) : res VidFile :=
  validated (in_range 0 65535 v && in_range 0 255 c) (mkVid v c).
Definition vid_parse : P VidFile :=
  do v <- read_uint 16; do c <- read_uint 8; lift (mk_vid v c).
Definition vid_ser (f : VidFile) : res (list Z) :=
  pack_be 2 (vid_vid f) +++ yield1 (vid_control f).

(** ** DllConfigFile, dll_config.py:31-68.  The schema keys "LQ_filter",
    "NF_CTRL", "RX_NF_method_parameter" and "TX_NF_method_parameter" name no
    attribute, so only the access class is checked. *)
Record DllConfigFile := mkDllConfig
  { dc_access_class : Z; dc_lq_filter : Z; dc_nf_ctrl : Z; dc_rx_nf : Z; dc_tx_nf : Z }.
Definition mk_dll_config (ac lq nf rx tx : Z) : res DllConfigFile :=
  validated (in_range 0 255 ac) (mkDllConfig ac lq nf rx tx).
(** dll_config.py:50-59 *)
Definition dll_config_parse : P DllConfigFile :=
  do ac <- read_uint 8;
  do _ <- read_uint 16;
  do lq <- read_uint 8;
  do nf <- read_uint 8;
  do rx <- read_uint 8;
  do tx <- read_uint 8;
  lift (mk_dll_config ac lq nf rx tx).
(** dll_config.py:61-68 *)
Definition dll_config_ser (f : DllConfigFile) : res (list Z) :=
  yield1 (dc_access_class f) +++ pack_be 2 0 +++ yield1 (dc_lq_filter f)
  +++ yield1 (dc_nf_ctrl f) +++ yield1 (dc_rx_nf f) +++ yield1 (dc_tx_nf f).

(** ** DllStatusFile, dll_status.py:32-85 *)
Record DllStatusFile := mkDllStatus
  { ds_level : Z; ds_budget : Z; ds_noise : Z; ds_header : ChannelHeader; ds_index : Z;
    ds_ratio : Z; ds_scan : Z; ds_timeout : Z }.
Definition mk_dll_status (lv bu no : Z) (h : ChannelHeader) (ix ra sc ti : Z) : res DllStatusFile :=
  validated (in_range 0 255 lv && in_range 0 255 bu && in_range 0 255 no && in_range 0 65535 ix
             && in_range 0 65535 ra && in_range 0 4294967295 sc && in_range 0 4294967295 ti)
            (mkDllStatus lv bu no h ix ra sc ti).
Definition dll_status_parse : P DllStatusFile :=
  do lv <- read_uint 8;
  do bu <- read_uint 8;
  do no <- read_uint 8;
  do h <- ch_parse;
  do ix <- read_uint 16;
  do ra <- read_uint 16;
  do sc <- read_uint 32;
  do ti <- read_uint 32;
  lift (mk_dll_status lv bu no h ix ra sc ti).
Definition dll_status_ser (f : DllStatusFile) : res (list Z) :=
  yield1 (ds_level f) +++ yield1 (ds_budget f) +++ yield1 (ds_noise f) +++ ch_ser (ds_header f)
  +++ pack_be 2 (ds_index f) +++ pack_be 2 (ds_ratio f) +++ pack_be 4 (ds_scan f)
  +++ pack_be 4 (ds_timeout f).

(** ** EngineeringModeFile, engineering_mode.py:34-98 *)
Inductive EngMode := EM_OFF | EM_CONT_TX | EM_TRANSIENT_TX | EM_PER_RX | EM_PER_TX.
Definition engmode_value (m : EngMode) : Z :=
  match m with EM_OFF => 0 | EM_CONT_TX => 1 | EM_TRANSIENT_TX => 2 | EM_PER_RX => 3 | EM_PER_TX => 4 end.
Definition engmode_of (v : Z) : res EngMode :=
  if v =? 0 then Ok EM_OFF else if v =? 1 then Ok EM_CONT_TX else if v =? 2 then Ok EM_TRANSIENT_TX
  else if v =? 3 then Ok EM_PER_RX else if v =? 4 then Ok EM_PER_TX else Err ValueError.
Record EngineeringModeFile := mkEng
  { em_mode : EngMode; em_flags : Z; em_timeout : Z; em_channel : ChannelID; em_eirp : Z }.
Definition mk_eng (m : EngMode) (fl ti : Z) (c : ChannelID) (ei : Z) : res EngineeringModeFile :=
  validated (in_range 0 255 fl && in_range 0 255 ti && in_range (-128) 127 ei) (mkEng m fl ti c ei).
(** engineering_mode.py:80-87: the last two bytes of the file are not read *)
Definition eng_parse : P EngineeringModeFile :=
  do v <- read_uint 8; do m <- lift (engmode_of v);
  do fl <- read_uint 8;
  do ti <- read_uint 8;
  do c <- cid_parse;
  do ei <- read_int 8;
  lift (mk_eng m fl ti c ei).
Definition eng_ser (f : EngineeringModeFile) : res (list Z) :=
  yield1 (engmode_value (em_mode f)) +++ yield1 (em_flags f) +++ yield1 (em_timeout f)
  +++ cid_ser (em_channel f) +++ pack_b (em_eirp f) +++ yield1 0 +++ yield1 0.

(** ** FirmwareVersionFile, firmware_version.py:31-84.  Strings are lists of
    character codes. *)
Record FirmwareVersionFile := mkFw
  { fw_major : Z; fw_minor : Z; fw_fs_major : Z; fw_fs_minor : Z; fw_app : list Z; fw_git : list Z }.
Definition mk_fw (a b c d : Z) (app git : list Z) : res FirmwareVersionFile :=
  validated (in_range 0 255 a && in_range 0 255 b && in_range 0 255 c && in_range 0 255 d
             && Nat.leb (length app) 6 && Nat.leb (length git) 7) (mkFw a b c d app git).
(** [x.decode("ascii")] / [x.encode("ASCII")] *)
Definition ascii_only (l : list Z) : res (list Z) :=
  if forallb (in_range 0 127) l then Ok l else Err UnicodeError.
(** [str.ljust(n)] *)
Definition ljust (n : nat) (l : list Z) : list Z := l ++ repeat 32 (n - length l).
Definition fw_parse : P FirmwareVersionFile :=
  do a <- read_uint 8;
  do b <- read_uint 8;
  do c <- read_uint 8;
  do d <- read_uint 8;
  do l <- read_bytes 6; do app <- lift (ascii_only l);
  do l <- read_bytes 7; do git <- lift (ascii_only l);
  lift (mk_fw a b c d app git).
Definition fw_ser (f : FirmwareVersionFile) : res (list Z) :=
  yield1 (fw_major f) +++ yield1 (fw_minor f) +++ yield1 (fw_fs_major f) +++ yield1 (fw_fs_minor f)
  +++ (let! l := ascii_only (fw_app f) in yields (ljust 6 l))
  +++ (let! l := ascii_only (fw_git f) in yields (ljust 7 l)).

(** ** FactorySettingsFile, factory_settings.py:32-179.  The schema key
    "preamble_tol" names no attribute: the three preamble_tol_* fields are not
    checked.  The nine 32 bit rates of lines 36-44 are kept in one list of
    length nine, in schema order. *)
Record FactorySettings := mkFactory
  { fs_gain : Z;
    fs_rates : list Z;      (* rx_bw_low/normal/high, bitrate_lo, fdev_lo, bitrate_normal, fdev_normal, bitrate_hi, fdev_hi *)
    fs_pre : list Z;        (* preamble_size lo/normal/hi, preamble_detector_size lo/normal/hi *)
    fs_tol : list Z;        (* preamble_tol lo/normal/hi *)
    fs_smoothing : Z; fs_offset : Z; fs_lora_bw : Z; fs_lora_sf : Z; fs_gaussian : Z; fs_paramp : Z }.
(** [int(ceil(log(x, 2)))-1], factory_settings.py:88; [log] of a value <= 0 is
    a [ValueError].  [Z.log2_up] agrees with the float computation for
    1 <= x < 2^21 (beyond 2^29 the float result can be one too large). *)
Definition smooth (x : Z) : res Z := if x <=? 0 then Err ValueError else Ok (Z.log2_up x - 1).
Definition mk_factory (gain : Z) (rates pre tol : list Z) (smoothing offset bw sf gauss paramp : Z)
  : res FactorySettings :=
  let! sm := smooth smoothing in
  validated (in_range (-128) 127 gain && forallb (in_range 0 4294967295) rates
             && forallb (in_range 0 255) pre && in_range 0 255 sm && in_range (-126) 125 offset
             && in_range 0 4294967295 bw && in_range 6 12 sf && in_range 0 3 gauss
             && in_range 0 65535 paramp)
            (mkFactory gain rates pre tol sm offset bw sf gauss paramp).
(** factory_settings.py:97-141 *)
Definition factory_parse : P FactorySettings :=
  do gain <- read_int 8;
  do rates <- read_n 9 (read_uint 32);
  do pre <- read_n 6 (read_uint 8);
  do tol <- read_n 3 (read_uint 8);
  do sm <- read_uint 8;
  do off <- read_uint 8;
  do bw <- read_uint 32;
  do sf <- read_uint 8;
  do gauss <- read_uint 8;
  do paramp <- read_uint 16;
  lift (mk_factory gain rates pre tol sm off bw sf gauss paramp).
(** factory_settings.py:143-179 *)
Definition factory_ser (f : FactorySettings) : res (list Z) :=
  yield1 (fs_gain f) +++ rconcat (map (pack_be 4) (fs_rates f)) +++ yields (fs_pre f)
  +++ yields (fs_tol f) +++ yield1 (fs_smoothing f) +++ yield1 (fs_offset f)
  +++ pack_be 4 (fs_lora_bw f) +++ yield1 (fs_lora_sf f) +++ yield1 (fs_gaussian f)
  +++ pack_be 2 (fs_paramp f).

(** ** Key files: security_key.py, root_authentication_key.py,
    user_authentication_key.py.  [Types.BITS(128)] has the maximum
    [math.pow(2,128)-1], which is the float 2^128. *)
Record KeyFile := mkKey { key_key : Z }.
Definition mk_key (k : Z) : res KeyFile :=
  validated (in_range 0 340282366920938463463374607431768211456 k) (mkKey k).
(** [(self.key & (0xff << pos*8)) >> pos*8 for pos in range(16)] *)
Definition key_bytes (k : Z) : list Z :=
  map (fun p => Z.shiftr (Z.land k (Z.shiftl 255 (8 * Z.of_nat p))) (8 * Z.of_nat p)) (seq 0 16).
Definition key_ser (rfu : nat) (f : KeyFile) : res (list Z) :=
  yields (key_bytes (key_key f)) +++ yields (repeat 0 rfu).
(** [parse] passes the 16 byte [str] as key; the schema wants an integer, so the
    constructor raises [ValueError] *)
Definition key_parse (rfu : Z) : P KeyFile :=
  do _ <- read_bytes 16;
  do _ <- read_bytes rfu;
  raise ValueError.

(** ** PhyStatusFile, phy_status.py:31-90: one construction with explicit
    lists; sharing of the lists is modelled in MPhyStatusHeap.v *)
Record PhyStatusFile := mkPhyStatus
  { ps_up : Z; ps_rx : Z; ps_tx : Z; ps_duty : Z; ps_len : Z;
    ps_ids : list ChannelStatusIdentifier; ps_noise : list Z }.
(** [if len(l) != n: l.extend([x] * (n - len(l)))] — a negative repeat count
    gives the empty list *)
Definition py_extend {A} (x : A) (n : Z) (l : list A) : list A :=
  l ++ repeat x (Z.to_nat (n - zlen l)).
Definition mk_phy_status (up rx tx duty n : Z) (ids : list ChannelStatusIdentifier) (noise : list Z)
  : res PhyStatusFile :=
  let ids := py_extend csi_default n ids in
  let noise := py_extend 0 n noise in
  validated (in_range 0 4294967295 up && in_range 0 4294967295 rx && in_range 0 4294967295 tx
             && in_range 0 1000 duty && in_range 0 255 n
             && (zlen ids <=? 255) && (zlen noise <=? 255))
            (mkPhyStatus up rx tx duty n ids noise).
(** phy_status.py:60-75 *)
Definition phy_status_parse : P PhyStatusFile :=
  do up <- read_uint 32;
  do rx <- read_uint 32;
  do tx <- read_uint 32;
  do duty <- read_uint 16;
  do n <- read_uint 8;
  do l <- read_n (Z.to_nat n) (do c <- csi_parse; do x <- read_uint 8; ret (c, x));
  lift (mk_phy_status up rx tx duty n (map fst l) (map snd l)).
(** phy_status.py:77-90: indexing [counter] past the end of a list is an
    [IndexError] *)
Fixpoint phy_status_items (n : nat) (ids : list ChannelStatusIdentifier) (noise : list Z)
  : res (list Z) :=
  match n with
  | O => Ok []
  | S k => match ids, noise with
           | c :: ids', x :: noise' => csi_ser c +++ yield1 x +++ phy_status_items k ids' noise'
           | c :: ids', [] => let! _ := csi_ser c in Err IndexError
           | [], _ => Err IndexError
           end
  end.
Definition phy_status_ser (f : PhyStatusFile) : res (list Z) :=
  pack_be 4 (ps_up f) +++ pack_be 4 (ps_rx f) +++ pack_be 4 (ps_tx f) +++ pack_be 2 (ps_duty f)
  +++ yield1 (ps_len f) +++ phy_status_items (Z.to_nat (ps_len f)) (ps_ids f) (ps_noise f).

(** ** AccessProfileFile, system_files/access_profile.py:30-48 *)
Record AccessProfileFile := mkAPF { apf_spec : Z; apf_profile : option AccessProfile }.
Definition mk_apf (sp : Z) (p : option AccessProfile) : res AccessProfileFile :=
  validated (in_range 0 14 sp) (mkAPF sp p).
Definition apf_parse : P AccessProfileFile :=
  do p <- ap_parse; lift (mk_apf 0 (Some p)).
Definition apf_ser (f : AccessProfileFile) : res (list Z) :=
  match apf_profile f with Some p => ap_ser p | None => Err TypeError end.

(** ** NotImplementedFile, not_implemented.py:31-43.  It has no [parse]. *)
Record NotImplFile := mkNotImpl { ni_length : Z; ni_data : list Z }.

(** ** InterfaceConfigurationFile, interface_configuration.py:33-51 *)
Record IfConfigFile := mkICF { icf_conf : InterfaceConfiguration; icf_id : Z }.
Definition icf_ser (f : IfConfigFile) : res (list Z) := ic_ser (icf_conf f).
(** declared length; the attribute does not exist for HOST and SERIAL *)
Definition icf_length (f : IfConfigFile) : res Z :=
  match ic_id (icf_conf f) with
  | IF_D7ASP => Ok 13 | IF_OTAA => Ok 36 | IF_ABP => Ok 44
  | _ => Err AttributeError
  end.

(** ** Any system file *)
Inductive SysFile :=
| F_Uid (f : UidFile) | F_Factory (f : FactorySettings) | F_Fw (f : FirmwareVersionFile)
| F_Eng (f : EngineeringModeFile) | F_Vid (f : VidFile) | F_PhyStatus (f : PhyStatusFile)
| F_DllConfig (f : DllConfigFile) | F_DllStatus (f : DllStatusFile)
| F_SecKey (f : KeyFile) | F_RootKey (f : KeyFile) | F_UserKey (f : KeyFile)
| F_AccessProfile (f : AccessProfileFile) | F_NotImpl (id : option Z) (f : NotImplFile)
| F_IfConfig (f : IfConfigFile).

(** [bytearray(file)] *)
Definition file_ser (f : SysFile) : res (list Z) :=
  match f with
  | F_Uid f => uid_ser f | F_Factory f => factory_ser f | F_Fw f => fw_ser f
  | F_Eng f => eng_ser f | F_Vid f => vid_ser f | F_PhyStatus f => phy_status_ser f
  | F_DllConfig f => dll_config_ser f | F_DllStatus f => dll_status_ser f
  | F_SecKey f => key_ser 0 f | F_RootKey f => key_ser 24 f | F_UserKey f => key_ser 24 f
  | F_AccessProfile f => apf_ser f | F_NotImpl _ f => yields (ni_data f) | F_IfConfig f => icf_ser f
  end.

(** [file.length]: second argument of [File.__init__] in each class *)
Definition file_length (f : SysFile) : res Z :=
  match f with
  | F_Uid _ => Ok 8 | F_Factory _ => Ok 56 | F_Fw _ => Ok 17 | F_Eng _ => Ok 9 | F_Vid _ => Ok 3
  | F_PhyStatus _ => Ok (15 + 3 * 10) | F_DllConfig _ => Ok 7 | F_DllStatus _ => Ok 16
  | F_SecKey _ => Ok 16 | F_RootKey _ => Ok 40 | F_UserKey _ => Ok 40
  | F_AccessProfile _ => Ok 65 | F_NotImpl _ f => Ok (ni_length f) | F_IfConfig f => icf_length f
  end.

(** [file.id]: an integer, or (most [NotImplementedFile] entries of
    system_files.py:46-73) the enum member itself, written [None] here;
    system_file_ids.py:27-75 *)
Definition file_id (f : SysFile) : res (option Z) :=
  match f with
  | F_Uid _ => Ok (Some 0) | F_Factory _ => Ok (Some 1) | F_Fw _ => Ok (Some 2)
  | F_Eng _ => Ok (Some 5) | F_Vid _ => Ok (Some 6) | F_PhyStatus _ => Ok (Some 9)
  | F_DllConfig _ => Ok (Some 10) | F_DllStatus _ => Ok (Some 11) | F_SecKey _ => Ok (Some 14)
  | F_RootKey _ => Ok (Some 24) | F_UserKey _ => Ok (Some 25)
  | F_AccessProfile f => Ok (Some (32 + apf_spec f))
  | F_NotImpl i _ => Ok i
  | F_IfConfig f => match icf_length f with Ok _ => Ok (Some (icf_id f)) | Err e => Err e end
  end.

(** [NotImplementedFile(id, n)] *)
Definition not_impl (id : option Z) (n : Z) : SysFile :=
  F_NotImpl id (mkNotImpl n (repeat 0 (Z.to_nat n))).

(** The dictionary SystemFiles.files, system_files.py:41-89, indexed by the
    numeric file id ([SystemFileIds(id)] raises [ValueError] above 0x2F and
    0x2F has no entry).  Only id, length and class of the entries are used. *)
Definition system_file (id : Z) : option SysFile :=
  if id =? 0 then Some (F_Uid (mkUid 0))
  else if id =? 1 then
    Some (F_Factory (mkFactory 0 [10468; 78646; 125868; 9600; 4800; 55555; 50000; 166667; 41667]
                               [5; 5; 7; 3; 3; 3] [15; 10; 10] 2 0 125000 9 2 40))
  else if id =? 2 then Some (F_Fw (mkFw 0 0 0 0 [] []))
  else if id =? 3 then Some (not_impl (Some 3) 19)
  else if id =? 4 then Some (not_impl None 9)
  else if id =? 5 then Some (F_Eng (mkEng EM_OFF 0 0 (mkChannelID (mkCH PN9 LO_RATE BAND_868) 0) 0))
  else if id =? 6 then Some (F_Vid (mkVid 65535 0))
  else if id =? 7 then Some (not_impl None 0)
  else if id =? 8 then Some (not_impl None 9)
  else if id =? 9 then Some (F_PhyStatus (mkPhyStatus 0 0 0 0 0 [] []))
  else if id =? 10 then Some (F_DllConfig (mkDllConfig 0 0 0 0 0))
  else if id =? 11 then Some (F_DllStatus (mkDllStatus 0 0 0 (mkCH FEC_PN9 LO_RATE BAND_868) 0 0 0 0))
  else if id =? 12 then Some (not_impl None 1)
  else if id =? 13 then Some (not_impl None 5)
  else if id =? 14 then Some (F_SecKey (mkKey 0))
  else if id =? 15 then Some (not_impl None 4)
  else if id =? 16 then Some (not_impl None 20)
  else if id =? 17 then Some (not_impl None 1)
  else if id =? 18 then Some (not_impl None 6)
  else if id =? 19 then Some (not_impl None 10)
  else if (20 <=? id) && (id <=? 22) then Some (not_impl None 0)
  else if id =? 23 then Some (not_impl None 1)
  else if id =? 24 then Some (F_RootKey (mkKey 0))
  else if id =? 25 then Some (F_UserKey (mkKey 0))
  else if (26 <=? id) && (id <=? 31) then Some (not_impl None 0)
  else if (32 <=? id) && (id <=? 46) then Some (F_AccessProfile (mkAPF (id - 32) None))
  else None.

(** [systemfile_type.parse(...)]: the static [parse] of the entry's class *)
Definition file_parse (f : SysFile) : P SysFile :=
  match f with
  | F_Uid _ => do x <- uid_parse; ret (F_Uid x)
  | F_Factory _ => do x <- factory_parse; ret (F_Factory x)
  | F_Fw _ => do x <- fw_parse; ret (F_Fw x)
  | F_Eng _ => do x <- eng_parse; ret (F_Eng x)
  | F_Vid _ => do x <- vid_parse; ret (F_Vid x)
  | F_PhyStatus _ => do x <- phy_status_parse; ret (F_PhyStatus x)
  | F_DllConfig _ => do x <- dll_config_parse; ret (F_DllConfig x)
  | F_DllStatus _ => do x <- dll_status_parse; ret (F_DllStatus x)
  | F_SecKey _ => do x <- key_parse 0; ret (F_SecKey x)
  | F_RootKey _ => do x <- key_parse 24; ret (F_RootKey x)
  | F_UserKey _ => do x <- key_parse 24; ret (F_UserKey x)
  | F_AccessProfile _ => do x <- apf_parse; ret (F_AccessProfile x)
  | F_NotImpl _ _ => raise AttributeError
  | F_IfConfig _ => raise AttributeError
  end.
