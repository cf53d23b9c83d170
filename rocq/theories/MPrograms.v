(** examples/engineering_mode.py, change_access_profile.py,
    write_factory_settings.py and interface_configuration.py: the commands they
    build from their command line options, and the loop of the first *)
From Verif Require Import MBase MCt MPhy MProfile MSp MSysFiles MOperands MAlp MSerial MModem MConnect.
From Coq Require Import String.
Import ListNotations.

(** [RegularAction(operation=WriteFileData(operand=Data(offset=Offset(id=file.id),
    data=list(file))))] for a file with a numeric id, engineering_mode.py:64-73,
    138-147,150-159.  [list(file)] does not check its elements and [Data] does;
    both failures are a [ValueError]. *)
Definition write_action (f : SysFile) : res Action :=
  let! o := sys_offset f in
  let! bs := file_ser f in
  let! d := mk_data bs o in
  mk_action (Regular false false) (WriteFileData d).

(** engineering_mode.py:118-129, write_factory_settings.py:112-119: broadcast to
    neighbours.  [Addressee(id=None)] of type NBID is refused. *)
Definition broadcast_configuration : res Configuration :=
  let! n := ct_compress 2 true in
  let! a := mk_addr 17 NBID (match n with Some c => IdCT c | None => IdNone end) NLS_NONE in
  Ok (mkConf (mkQoS RESP_PREFERRED RETRY_NO false false) (mkCT 0 0) a).

(** *** engineering_mode.py *)

(** the options, lines 80-91; [-x] (only print) and the serial port are left
    out.  The mode is one of the five [choices]. *)
Record EngOptions := mkEngOptions
  { eo_channel : string; eo_mode : EngMode; eo_eirp : Z; eo_timeout : Z; eo_forward : bool;
    eo_paramp : Z; eo_gaussian : Z }.

(** lines 95-102 *)
Definition eng_file (o : EngOptions) : res EngineeringModeFile :=
  let! ch := cid_from_string (eo_channel o) in
  let timeout := match eo_mode o with
                 | EM_PER_TX => if eo_timeout o =? 0 then 255 else eo_timeout o
                 | _ => eo_timeout o
                 end in
  mk_eng (eo_mode o) 0 timeout ch (eo_eirp o).

(** [FactorySettingsFile(gaussian=g, paramp=p)], factory_settings.py:61-69 *)
Definition factory_with (g p : Z) : res FactorySettings :=
  mk_factory 0 [10468; 78646; 125868; 9600; 4800; 55555; 50000; 166667; 41667] [5; 5; 7; 3; 3; 3] [15; 10; 10]
             8 0 125000 9 g p.

(** lines 115-159 *)
Definition engineering_command (rnd : Z) (o : EngOptions) : res Command :=
  let! em := eng_file o in
  let! c := mk_command rnd [] true None true in
  let! c := if eo_forward o
            then let! conf := broadcast_configuration in add_forward_action c IF_D7ASP (Some (CfgD7 conf))
            else Ok c in
  let! c := if negb (eo_gaussian o =? 255) || negb (eo_paramp o =? 255)
            then let! f := factory_with (eo_gaussian o) (eo_paramp o) in
                 let! a := write_action (F_Factory f) in
                 Ok (add_action c a)
            else Ok c in
  let! a := write_action (F_Eng em) in
  Ok (add_action c a).

(** what Ctrl-C sends, [cleanup], lines 60-75: the assignment to [mode] is not
    validated *)
Definition cleanup_command (rnd : Z) (em : EngineeringModeFile) : res Command :=
  let! c := mk_command rnd [] true None true in
  let! a := write_action (F_Eng (mkEng EM_OFF (em_flags em) (em_timeout em) (em_channel em) (em_eirp em))) in
  Ok (add_action c a).

(** one pass over the answers, lines 169-173.  An answer without tag response
    has no [completed_with_error]; it is looked at in both branches. *)
Fixpoint look_at_answers (answers : list Msg) (done : bool) : res bool :=
  match answers with
  | [] => Ok done
  | MCmd a :: rest =>
      match c_error a with
      | None => Err AttributeError
      | Some e => look_at_answers rest (if c_completed a && negb e then true else done)
      end
  | _ :: _ => Err AttributeError
  end.

Inductive EngState := EngDone | EngRaised (e : exn) | EngRunning.
(** the loop, lines 161-173; a round is what the device does until
    [execute_command] returns.  The result also lists the calls that returned. *)
Fixpoint engineering (lib : bool) (s : Session) (c : Command) (rounds : list (list DeviceEvent))
  : Session * list (Command * list Msg) * EngState :=
  match rounds with
  | [] => (s, [], EngRunning)
  | es :: rounds =>
      match execute s c 10 with
      | (s, Err e) => (s, [], EngRaised e)
      | (s, Ok _) =>
          let s := fold_left (device lib) es s in
          let answers := execute_result s in
          match look_at_answers answers false with
          | Err e => (s, [(c, answers)], EngRaised e)
          | Ok true => (s, [(c, answers)], EngDone)
          | Ok false => match engineering lib s c rounds with
                        | (s', log, st) => (s', (c, answers) :: log, st)
                        end
          end
      end
  end.

(** *** change_access_profile.py *)

(** the options, lines 57-61 *)
Record ProfileOptions := mkProfileOptions
  { po_channel : string; po_eirp : Z; po_specifier : Z; po_period : Z; po_bitmap : Z }.
(** [SubProfile(scan_automation_period=None)] is refused by the schema,
    sub_profile.py:32-35 *)
Definition period_sub_profile (bitmap : Z) (period : option CT) : res SubProfile :=
  match period with Some c => mk_sub_profile bitmap c | None => Err ValueError end.
(** lines 65-86 *)
Definition profile_command (rnd : Z) (o : ProfileOptions) : res Command :=
  let! ch := cid_from_string (po_channel o) in
  let! period := ct_compress (po_period o) true in
  let! sp := period_sub_profile (po_bitmap o) period in
  let! sb := mk_subband (cid_index ch) (cid_index ch) (po_eirp o) 86 255 in
  let! ap := mk_access_profile (mkCH (ch_coding (cid_header ch)) (ch_class (cid_header ch)) (ch_band (cid_header ch)))
                               [sp; sp; sp; sp] [sb; sb; sb; sb; sb; sb; sb; sb] in
  let! f := mk_apf (po_specifier o) (Some ap) in
  create_write_sys rnd (F_AccessProfile f) IF_HOST None.

(** *** write_factory_settings.py *)

(** the options, lines 33-57; [so_rates], [so_pre] and [so_tol] in the order of
    [FactorySettings] *)
Record SettingsOptions := mkSettingsOptions
  { so_gain : Z; so_rates : list Z; so_pre : list Z; so_tol : list Z; so_smoothing : Z; so_offset : Z;
    so_bw : Z; so_sf : Z; so_gaussian : Z; so_paramp : Z; so_forward : bool }.
(** lines 67-130; [list(fsFile)] as in [write_action] *)
Definition settings_command (rnd : Z) (o : SettingsOptions) : res Command :=
  let! f := mk_factory (so_gain o) (so_rates o) (so_pre o) (so_tol o) (so_smoothing o) (so_offset o)
                       (so_bw o) (so_sf o) (so_gaussian o) (so_paramp o) in
  let! bs := factory_ser f in
  if so_forward o
  then let! conf := broadcast_configuration in create_write rnd 1 bs 0 IF_D7ASP (Some (CfgD7 conf))
  else create_write rnd 1 bs 0 IF_HOST None.

(** *** interface_configuration.py *)

(** lines 62-103; [id] is the file id option.  (Given on the command line it is
    a string, which is not modelled: the configuration is built first.) *)
Definition interface_configuration_command (rnd : Z) (id : Z) : res Command :=
  let! n := mk_ct 0 3 in
  let! a := mk_addr 1 UID (IdCT n) NLS_NONE in
  let i := mkIC IF_D7ASP (Some (CfgD7 (mkConf (mkQoS RESP_PREFERRED RETRY_NO false false) (mkCT 0 0) a))) in
  let! bs := file_ser (F_IfConfig (mkICF i id)) in
  create_write rnd id bs 0 IF_HOST None.
