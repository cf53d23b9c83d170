(** C65: the command line tool for hexadecimal text *)
From Verif Require Import MBase MSysFiles MAlp MSerial MDll SSerial SCommand SDll SContent MHexTool SHexTool LHexTool.

(** The text is understood exactly when it is the given bytes, two digits each in
    either case, with blanks anywhere and white space around it; … *)
Theorem C65_text_understood_iff : forall text bs, tool_bytes text = Ok bs <-> written bs text.
Proof. exact tool_bytes_iff. Qed.
Print Assumptions C65_text_understood_iff.
(** … every other text ends the tool with a [TypeError]. *)
Theorem C65_other_text_refused : forall lib type file_id text, (forall bs, ~ written bs text) ->
  tool lib type file_id text = Err TypeError.
Proof. exact tool_refuses. Qed.
Print Assumptions C65_other_text_refused.

(** The bytes of a command are shown as the command a receiver gets, whoever
    sent it: this library … *)
Theorem C65_shows_sent_command : forall lib file_id text c bs,
  command_wf c -> command_ser c = Ok bs -> written bs text ->
  tool lib T_alp file_id text = Ok (PrCommand (command_received c)).
Proof. exact tool_alp. Qed.
Print Assumptions C65_shows_sent_command.
(** … or a device. *)
Theorem C65_shows_device_command : forall lib file_id text ls acts bs,
  Forall2 incoming ls acts -> one_tag acts -> one_status acts -> bytes_bits bs = concat ls -> written bs text ->
  tool lib T_alp file_id text = Ok (PrCommand (command_of false None true acts)).
Proof. exact tool_alp_incoming. Qed.
Print Assumptions C65_shows_device_command.

(** A recording of serial frames is shown as all the commands in it, in order. *)
Theorem C65_shows_serial_recording : forall lib file_id text commands s fs s',
  is_byte (sp_up s) -> Forall (fun c => command_wf c /\ command_bytes c <= 255) commands ->
  sends s (map command_ser commands) fs s' -> written (concat fs) text ->
  exists r, tool lib T_serial file_id text = Ok (PrMessages r)
    /\ pr_msgs r = map (fun c => (1, MCmd (command_received c))) commands /\ pr_errors r = [].
Proof. intros lib id text. exact (tool_serial lib id text). Qed.
Print Assumptions C65_shows_serial_recording.

(** A system file is shown as it is … *)
Theorem C65_shows_system_file : forall lib text f id bs,
  readable f -> sys_id f = Some id -> file_ser f = Ok bs -> written bs text ->
  tool lib T_systemfile (Some id) text = Ok (PrFile f).
Proof. exact tool_file_of. Qed.
Print Assumptions C65_shows_system_file.
(** … but only files with these identifiers. *)
Theorem C65_other_files_never_shown : forall lib file_id text f,
  tool lib T_systemfile file_id text = Ok (PrFile f) -> exists id, file_id = Some id /\ In id shown_ids.
Proof. exact tool_ids. Qed.
Print Assumptions C65_other_files_never_shown.
(** A missing or unknown file number, and the number 47, which has a name but no
    file. *)
Theorem C65_unknown_file_numbers : forall lib file_id text bs, written bs text ->
  ((forall id, file_id = Some id -> ~ 0 <= id <= 47) -> tool lib T_systemfile file_id text = Err ValueError)
  /\ (file_id = Some 47 -> tool lib T_systemfile file_id text = Err KeyError).
Proof. exact tool_file_numbers. Qed.
Print Assumptions C65_unknown_file_numbers.

(** The types for frames never show anything: a correct frame ends the tool with
    a [ValueError]. *)
Theorem C65_frames_never_shown : forall lib (foreground : bool) file_id text,
  exists e, tool lib (if foreground then T_fg else T_bg) file_id text = Err e.
Proof. exact tool_frames. Qed.
Print Assumptions C65_frames_never_shown.
Theorem C65_correct_frame_refuted : forall lib (foreground : bool) file_id text bs f,
  is_frame foreground bs f -> written bs text ->
  tool lib (if foreground then T_fg else T_bg) file_id text = Err ValueError.
Proof. exact tool_good_frame. Qed.
Print Assumptions C65_correct_frame_refuted.

(** Non-vacuity: " B4 19 81\n" and "b419 81" are spellings of the same bytes;
    "b4 1" and "b4\t19" are none. *)
Example C65_case : written [180; 25; 129] [32; 66; 52; 32; 49; 57; 32; 56; 49; 10]
  /\ written [180; 25; 129] [98; 52; 49; 57; 32; 56; 49]
  /\ (forall bs, ~ written bs [98; 52; 32; 49]) /\ (forall bs, ~ written bs [98; 52; 9; 49; 57]).
Proof. exact tool_case. Qed.
Example C65_case_command : exists c, tool true T_alp None [48; 49; 32; 52; 48; 32; 48; 48; 32; 48; 56] = Ok (PrCommand c)
  /\ c_actions c = [mkAction (Regular false false) (ReadFileData (mkDataRequest (mkOffset 64 (mkLength 0)) (mkLength 8)))].
Proof. eexists. vm_compute. split; reflexivity. Qed.
