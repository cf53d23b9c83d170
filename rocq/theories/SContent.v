(** Which system file content a returned file data operand carries. *)
From Verif Require Export SCommand SFiles.

Definition parses {A} (p : P A) (data : list Z) (x : A) : Prop :=
  exists rest, p (stream_of data) = Ok (x, rest).
(** [f] is the parse of [data] as the file [id], not longer than declared *)
Definition content (id : Z) (data : list Z) (f : SysFile) : Prop :=
  match f with
  | F_Uid x => id = 0 /\ zlen data <= 8 /\ parses uid_parse data x
  | F_Factory x => id = 1 /\ zlen data <= 56 /\ parses factory_parse data x
  | F_Fw x => id = 2 /\ zlen data <= 17 /\ parses fw_parse data x
  | F_Eng x => id = 5 /\ zlen data <= 9 /\ parses eng_parse data x
  | F_Vid x => id = 6 /\ zlen data <= 3 /\ parses vid_parse data x
  | F_PhyStatus x => id = 9 /\ zlen data <= 45 /\ parses phy_status_parse data x
  | F_DllConfig x => id = 10 /\ zlen data <= 7 /\ parses dll_config_parse data x
  | F_DllStatus x => id = 11 /\ zlen data <= 16 /\ parses dll_status_parse data x
  | F_AccessProfile x => 32 <= id <= 46 /\ zlen data <= 65 /\ parses apf_parse data x
  | _ => False
  end.
(** numeric id of a file, when it has one *)
Definition sys_id (f : SysFile) : option Z :=
  match f with
  | F_Uid _ => Some 0 | F_Factory _ => Some 1 | F_Fw _ => Some 2 | F_Eng _ => Some 5 | F_Vid _ => Some 6
  | F_PhyStatus _ => Some 9 | F_DllConfig _ => Some 10 | F_DllStatus _ => Some 11 | F_SecKey _ => Some 14
  | F_RootKey _ => Some 24 | F_UserKey _ => Some 25 | F_AccessProfile p => Some (32 + apf_spec p)
  | F_NotImpl i _ => i | F_IfConfig c => Some (icf_id c)
  end.
(** declared size *)
Definition sys_size (f : SysFile) : option Z :=
  match f with
  | F_Uid _ => Some 8 | F_Factory _ => Some 56 | F_Fw _ => Some 17 | F_Eng _ => Some 9 | F_Vid _ => Some 3
  | F_PhyStatus _ => Some 45 | F_DllConfig _ => Some 7 | F_DllStatus _ => Some 16 | F_SecKey _ => Some 16
  | F_RootKey _ | F_UserKey _ => Some 40 | F_AccessProfile _ => Some 65
  | F_NotImpl _ n => Some (ni_length n)
  | F_IfConfig c => match ic_id (icf_conf c) with
                    | IF_D7ASP => Some 13 | IF_OTAA => Some 36 | IF_ABP => Some 44 | _ => None end
  end.
Definition serializable (r : res (list Z)) : Prop := exists l, r = Ok l.
(** files that come back exactly as they were sent *)
Definition survives (f : SysFile) : Prop :=
  match f with
  | F_Uid x => uid_wf x | F_Vid x => vid_wf x | F_DllConfig x => dc_wf x | F_DllStatus x => ds_wf x
  | F_Eng x => em_wf x
  | F_Fw x => fw_wf x /\ length (fw_app x) = 6%nat /\ length (fw_git x) = 7%nat
  | F_PhyStatus x => ps_wf x /\ ps_len x <= 10
  | _ => False
  end.
