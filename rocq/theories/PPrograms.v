(** The configuration programs in examples/: property C70. *)
From Coq Require Import String.
From Verif Require Import SPrograms LPrograms.
Open Scope string_scope.
Open Scope list_scope.
Open Scope Z_scope.

(** *** engineering_mode.py *)
(** when it builds a command, and what it sends then *)
Theorem C70_engineering_accepted : forall rnd o,
  (exists c, engineering_command rnd o = Ok c) <-> (exists ch, cid_from_string (eo_channel o) = Ok ch) /\ eng_options_ok o.
Proof. exact engineering_accepted. Qed.
Print Assumptions C70_engineering_accepted.
Theorem C70_engineering_refused : forall rnd o ch, cid_from_string (eo_channel o) = Ok ch -> ~ eng_options_ok o ->
  engineering_command rnd o = Err ValueError.
Proof. exact engineering_refused. Qed.
Print Assumptions C70_engineering_refused.
Theorem C70_engineering_bytes : forall rnd o ch, 0 <= rnd <= 255 -> cid_from_string (eo_channel o) = Ok ch -> eng_options_ok o ->
  exists c, engineering_command rnd o = Ok c /\ c_tag c = Some rnd
  /\ emits (command_ser c)
       (tag_bits true rnd ++ (if eo_forward o then neighbours_bits else [])
        ++ (if factory_given o then write_bits 1 (fs_layout (default_settings (eo_gaussian o) (eo_paramp o))) else [])
        ++ write_bits 5 (em_layout (eng_requested o ch))).
Proof. exact engineering_bytes. Qed.
Print Assumptions C70_engineering_bytes.
(** a node that carries it out has the mode that was asked for; apart from it
    only the factory settings may change *)
Theorem C70_engineering_mode_set : forall rnd o ch c file, cid_from_string (eo_channel o) = Ok ch -> engineering_command rnd o = Ok c ->
  parses eng_parse (node_receives 5 file (command_received c)) (eng_requested o ch).
Proof. exact engineering_mode_set. Qed.
Print Assumptions C70_engineering_mode_set.
Theorem C70_engineering_node : forall rnd o ch c, cid_from_string (eo_channel o) = Ok ch -> engineering_command rnd o = Ok c ->
  node_gets c 5 (em_layout (eng_requested o ch))
  /\ (if factory_given o then node_gets c 1 (fs_layout (default_settings (eo_gaussian o) (eo_paramp o))) else node_keeps c 1)
  /\ forall id, id <> 1 -> id <> 5 -> node_keeps c id.
Proof. exact engineering_node. Qed.
Print Assumptions C70_engineering_node.
(** "first set factory settings paramp" on its own never works *)
Theorem C70_paramp_alone_refuted : forall rnd o, eo_gaussian o = 255 -> eo_paramp o <> 255 ->
  forall c, engineering_command rnd o <> Ok c.
Proof. exact paramp_alone. Qed.
Print Assumptions C70_paramp_alone_refuted.
(** "first set factory settings gaussian" on its own also sets paramp, to 255,
    and all other settings, to the defaults *)
Theorem C70_gaussian_alone_refuted : forall rnd o ch c, cid_from_string (eo_channel o) = Ok ch -> engineering_command rnd o = Ok c ->
  eo_gaussian o <> 255 -> eo_paramp o = 255 -> node_gets c 1 (fs_layout (default_settings (eo_gaussian o) 255)).
Proof. exact gaussian_alone. Qed.
Print Assumptions C70_gaussian_alone_refuted.
(** Ctrl-C switches the mode off and changes nothing else *)
Theorem C70_cleanup : forall rnd f, 0 <= rnd <= 255 -> em_wf f -> exists c, cleanup_command rnd f = Ok c
  /\ emits (command_ser c) (tag_bits true rnd ++ write_bits 5 (em_layout (switched_off f)))
  /\ (forall file, parses eng_parse (node_receives 5 file (command_received c)) (switched_off f))
  /\ forall id, id <> 5 -> node_keeps c id.
Proof. exact cleanup_node. Qed.
Print Assumptions C70_cleanup.

(** the loop: the same command is sent once per round; it ends with the first
    call that was confirmed *)
Theorem C70_loop_sends : forall lib s rnd o c rounds s' log st, eng_run lib s rnd o c rounds s' log st ->
  Forall (fun x => fst x = c) log
  /\ exists bytes, se_sent s' = se_sent s ++ bytes /\ received_over lib bytes (repeat (command_received c) (length log)).
Proof. exact eng_run_sends. Qed.
Print Assumptions C70_loop_sends.
Theorem C70_loop_done : forall lib s rnd o c rounds s' log, eng_run lib s rnd o c rounds s' log EngDone ->
  exists l x, log = l ++ [x] /\ Forall (fun y => ~ confirmed y) l /\ confirmed x.
Proof. exact eng_run_done. Qed.
Print Assumptions C70_loop_done.
Theorem C70_loop_running : forall lib s rnd o c rounds s' log, eng_run lib s rnd o c rounds s' log EngRunning ->
  length log = length rounds /\ Forall (fun y => ~ confirmed y) log.
Proof. exact eng_run_running. Qed.
Print Assumptions C70_loop_running.
(** it raises exactly when a message with its tag carries no tag response *)
Theorem C70_loop_raised : forall lib s rnd o c rounds s' log e, eng_run lib s rnd o c rounds s' log (EngRaised e) ->
  e = AttributeError /\ exists l x, log = l ++ [x] /\ Forall all_tag_responses l /\ ~ all_tag_responses x.
Proof. exact eng_run_raised. Qed.
Print Assumptions C70_loop_raised.

(** *** change_access_profile.py *)
Theorem C70_profile_bytes : forall rnd o ch, 0 <= rnd <= 255 -> cid_from_string (po_channel o) = Ok ch -> profile_options_ok o ->
  exists c t, profile_command rnd o = Ok c /\ shortest_period (po_period o) t
  /\ emits (command_ser c) (tag_bits true rnd ++ write_bits (32 + po_specifier o) (ap_layout (profile_requested o ch t)))
  /\ accepts ap_parse (ap_layout (profile_requested o ch t)) (profile_requested o ch t).
Proof. exact profile_bytes. Qed.
Print Assumptions C70_profile_bytes.
Theorem C70_profile_refused : forall rnd o ch, cid_from_string (po_channel o) = Ok ch -> ~ profile_options_ok o ->
  profile_command rnd o = Err ValueError.
Proof. exact profile_refused. Qed.
Print Assumptions C70_profile_refused.

(** *** write_factory_settings.py *)
Theorem C70_settings_bytes : forall rnd o, 0 <= rnd <= 255 -> settings_shape o -> settings_ok o ->
  exists c n, settings_command rnd o = Ok c /\ bits_needed (so_smoothing o) n
  /\ emits (command_ser c) (tag_bits true rnd ++ (if so_forward o then neighbours_bits else [])
                            ++ write_bits 1 (fs_layout (settings_requested o n))).
Proof. exact settings_bytes. Qed.
Print Assumptions C70_settings_bytes.
(** negative gains and RSSI offsets, which the schema allows, are among the refused ones *)
Theorem C70_settings_refused : forall rnd o, settings_shape o -> ~ settings_ok o -> settings_command rnd o = Err ValueError.
Proof. exact settings_refused. Qed.
Print Assumptions C70_settings_refused.

(** *** interface_configuration.py never gets as far as sending anything *)
Theorem C70_interface_configuration_refuted : forall rnd id, interface_configuration_command rnd id = Err ValueError.
Proof. exact interface_configuration_fails. Qed.
Print Assumptions C70_interface_configuration_refuted.

Definition C70_options : EngOptions := mkEngOptions "868NP016" EM_PER_TX (-10) 0 true 40 1.
Example C70_case : cid_from_string (eo_channel C70_options) = Ok (mkChannelID (mkCH PN9 NORMAL_RATE BAND_868) 16)
  /\ eng_options_ok C70_options
  /\ (let! c := engineering_command 9 C70_options in command_ser c)
     = Ok ([180; 9; 50; 215; 6; 0; 0; 17; 2; 4; 1; 0; 56]
           ++ [0; 0; 0; 40; 228; 0; 1; 51; 54; 0; 1; 235; 172; 0; 0; 37; 128; 0; 0; 18; 192; 0; 0; 217; 3; 0; 0; 195; 80; 0; 2; 139; 11;
               0; 0; 162; 195; 5; 5; 7; 3; 3; 3; 15; 10; 10; 2; 0; 0; 1; 232; 72; 9; 1; 0; 40]
           ++ [4; 5; 0; 9; 4; 0; 255; 56; 0; 16; 246; 0; 0]).
Proof.
  refine (conj eq_refl (conj _ _)).
  - unfold eng_options_ok. cbn. lia.
  - vm_compute. reflexivity.
Qed.
Definition C70_rounds (last : Z) : list (list DeviceEvent) :=
  [[DBytes (frame 0 2 [227; 7])]; [DBytes (frame 1 2 [last; 7] ++ frame 2 2 [163; 7])]].
Definition C70_local : EngOptions := mkEngOptions "868NP016" EM_OFF 0 0 false 255 255.
Lemma C70_setting c last s' log st : engineering_command 7 C70_local = Ok c ->
  engineering true (new_session false false false) c (C70_rounds last) = (s', log, st) ->
  eng_run true (new_session false false false) 7 C70_local c (C70_rounds last) s' log st.
Proof. intros C E. refine (conj _ (conj _ (conj C E))); [split; [unfold is_byte; cbn; lia | reflexivity] | lia]. Qed.
(** an error, then success *)
Example C70_case_loop : exists c s' log, eng_run true (new_session false false false) 7 C70_local c (C70_rounds 163) s' log EngDone
  /\ length log = 2%nat.
Proof. destruct (engineering_command 7 C70_local) as [c|] eqn:C; [|vm_compute in C; discriminate]. vm_compute in C. injection C as <-.
  eexists _, _, _. split; [apply C70_setting; [vm_compute; reflexivity | vm_compute; reflexivity] | reflexivity]. Qed.
(** an error, then a tag request of somebody else with the same tag before the confirmation *)
Example C70_case_raised : exists c s' log, eng_run true (new_session false false false) 7 C70_local c (C70_rounds 180) s' log (EngRaised AttributeError)
  /\ length log = 2%nat.
Proof. destruct (engineering_command 7 C70_local) as [c|] eqn:C; [|vm_compute in C; discriminate]. vm_compute in C. injection C as <-.
  eexists _, _, _. split; [apply C70_setting; [vm_compute; reflexivity | vm_compute; reflexivity] | reflexivity]. Qed.
Example C70_case_profile : let o := mkProfileOptions "433HF005" 14 2 1000 1 in
  profile_options_ok o /\ cid_from_string (po_channel o) = Ok (mkChannelID (mkCH FEC_PN9 HI_RATE BAND_433) 5)
  /\ exists c bs, profile_command 1 o = Ok c /\ command_ser c = Ok bs /\ firstn 12 bs = [180; 1; 4; 34; 0; 64; 65; 46; 1; 112; 1; 112].
Proof.
  refine (conj _ (conj eq_refl _)); [unfold profile_options_ok, ct_max; cbn; lia|].
  eexists _, _. split; [vm_compute; reflexivity|]. split; vm_compute; reflexivity.
Qed.
Example C70_case_settings :
  let o := mkSettingsOptions 3 [10468; 78646; 125868; 9600; 4800; 55555; 50000; 166667; 41667] [4; 5; 7; 3; 3; 3] [15; 10; 10] 8 0 125000 9 2 40 false in
  settings_shape o /\ settings_ok o.
Proof. cbn. unfold settings_shape, settings_ok, long_ok, byte_ok, word_ok. cbn. repeat split; try lia; repeat constructor; cbn; lia. Qed.
