(** What the configuration programs are asked to do. *)
From Verif Require Export SCommand SFiles SContent SOta MPrograms.

(** a write of [content] (less than 16384 bytes) at the beginning of file [id]:
    operation, file, offset, length, content.  Lengths from 64 on take two
    bytes, the first of them starting with 01 *)
Definition write_bits (id : Z) (content : list bool) : list bool :=
  let n := zlen content / 8 in
  Zbits 8 4 ++ Zbits 8 id ++ Zbits 8 0 ++ (if n <? 64 then Zbits 8 n else [false; true] ++ Zbits 14 n) ++ content.
(** forward over D7ASP: response mode preferred, no dormant timeout, to 2
    neighbours, access class 0x11 *)
Definition neighbours_bits : list bool := bytes_bits [50; 215; 6; 0; 0; 17; 2].

(** ** Engineering mode *)
(** options 255 mean "not given" *)
Definition factory_given (o : EngOptions) : bool := negb ((eo_gaussian o =? 255) && (eo_paramp o =? 255)).
Definition eng_options_ok (o : EngOptions) : Prop :=
  -128 <= eo_eirp o <= 127 /\ 0 <= eo_timeout o <= 255
  /\ (factory_given o = true -> 0 <= eo_gaussian o <= 3 /\ 0 <= eo_paramp o <= 65535).
(** the mode to be set on channel [ch] *)
Definition eng_requested (o : EngOptions) (ch : ChannelID) : EngineeringModeFile :=
  mkEng (eo_mode o) 0
        (match eo_mode o, eo_timeout o with EM_PER_TX, 0 => 255 | _, t => t end) ch (eo_eirp o).
(** the library's default settings (RSSI smoothing over 8 samples is stored as 2) with these two *)
Definition default_settings (gaussian paramp : Z) : FactorySettings :=
  mkFactory 0 [10468; 78646; 125868; 9600; 4800; 55555; 50000; 166667; 41667] [5; 5; 7; 3; 3; 3] [15; 10; 10]
            2 0 125000 9 gaussian paramp.
Definition switched_off (f : EngineeringModeFile) : EngineeringModeFile :=
  mkEng EM_OFF (em_flags f) (em_timeout f) (em_channel f) (em_eirp f).
(** file [id] of a node that carries out [c] starts with [content] afterwards *)
Definition node_gets (c : Command) (id : Z) (content : list bool) : Prop :=
  forall file, exists rest, bytes_bits (node_receives id file (command_received c)) = content ++ rest.
Definition node_keeps (c : Command) (id : Z) : Prop := forall file, node_receives id file (command_received c) = file.

(** a run of the program *)
Definition eng_run (lib : bool) (s : Session) (rnd : Z) (o : EngOptions) (c : Command) (rounds : list (list DeviceEvent))
  (s' : Session) (log : list (Command * list Msg)) (st : EngState) : Prop :=
  usable_session s /\ 0 <= rnd <= 255 /\ engineering_command rnd o = Ok c
  /\ engineering lib s c rounds = (s', log, st).
(** every response of the call carries a tag response *)
Definition all_tag_responses (call : Command * list Msg) : Prop :=
  forall m, In m (snd call) -> exists a, m = MCmd a /\ c_error a <> None.

(** ** Access profile *)
Definition profile_options_ok (o : ProfileOptions) : Prop :=
  -128 <= po_eirp o <= 127 /\ 0 <= po_specifier o <= 14 /\ 0 <= po_period o <= ct_max /\ 0 <= po_bitmap o <= 255.
(** the shortest period that can be expressed and is not below the one asked for *)
Definition shortest_period (v : Z) (c : CT) : Prop :=
  ct_wf c /\ v <= ct_value c /\ forall d, ct_wf d -> v <= ct_value d -> ct_value c <= ct_value d.
Definition profile_requested (o : ProfileOptions) (ch : ChannelID) (period : CT) : AccessProfile :=
  mkAP (cid_header ch) (repeat (mkSubProfile (po_bitmap o) period) 4)
       (repeat (mkSubBand (cid_index ch) (cid_index ch) (po_eirp o) 86 255) 8).

(** ** Factory settings *)
(** nine rates, six preamble sizes, three tolerances; the smoothing within the
    reach of the model *)
Definition settings_shape (o : SettingsOptions) : Prop :=
  length (so_rates o) = 9%nat /\ length (so_pre o) = 6%nat /\ length (so_tol o) = 3%nat /\ so_smoothing o < 2097152.
Definition settings_ok (o : SettingsOptions) : Prop :=
  0 <= so_gain o <= 127 /\ Forall long_ok (so_rates o) /\ Forall byte_ok (so_pre o) /\ Forall byte_ok (so_tol o)
  /\ 2 <= so_smoothing o /\ 0 <= so_offset o <= 125 /\ long_ok (so_bw o) /\ 6 <= so_sf o <= 12
  /\ 0 <= so_gaussian o <= 3 /\ word_ok (so_paramp o).
(** the settings to be written; averages over [2^n] samples are stored as [n-1] *)
Definition settings_requested (o : SettingsOptions) (n : Z) : FactorySettings :=
  mkFactory (so_gain o) (so_rates o) (so_pre o) (so_tol o) (n - 1) (so_offset o) (so_bw o) (so_sf o)
            (so_gaussian o) (so_paramp o).
