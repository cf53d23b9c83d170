(** Objects as references: which object is a part of which.  Python's default
    arguments are evaluated once, when the class is defined, so all objects made
    with the default of a parameter have the same object as a part; arguments
    are stored as they are, without a copy.

    The store is a list; a reference is an index.  Objects are never removed.
    Operation objects are not separate from their actions, the time inside an
    NBID addressee and a LoRaWAN configuration are not separate objects. *)
From Verif Require Import MBase MCt MSp MOperands MAlp.

Definition Ref := nat.
(** the operation of an action; [OtherOp]: operations whose operands are not
    followed into the store *)
Inductive OpRef :=
| RRead (r : Ref) | RWrite (r : Ref) | RReturn (r : Ref) (parsed : option MSysFiles.SysFile) | RForward (r : Ref)
| OtherOp (o : Operation).
Inductive Obj :=
| OCT (c : CT)                              (* types/ct.py:44-49 *)
| OQoS (q : QoS)                            (* sp/qos.py:50-55 *)
| OAddr (a : Addressee)                     (* d7anp/addressee.py *)
| OConf (qos dorm_to addressee : Ref)       (* sp/configuration.py:45-49 *)
| OLora (c : IfConfig)                      (* alp/operands/lorawan_interface_configuration_*.py *)
| OLen (l : Length)                         (* alp/operands/length.py:37-39 *)
| OOff (id : Z) (offset : Ref)              (* alp/operands/offset.py:39-42 *)
| OBytes (l : list Z)                       (* a list of bytes *)
| OData (offset length data : Ref)          (* alp/operands/file.py:40-44 *)
| OReq (offset length : Ref)                (* alp/operands/file.py:71-74 *)
| OIface (t : InterfaceType) (conf : option Ref)   (* alp/operands/interface_configuration.py *)
| OAct (k : ActKind) (o : OpRef)            (* alp/action.py:45-50 *)
| OCmd (actions : list Ref) (rest : Command).      (* alp/command.py:65-93; the actions of [rest] are not used *)
Definition Store := list Obj.

(** ** The value of an object: what reading all its attributes gives *)
Definition the_ct (h : Store) (r : Ref) : option CT := match nth_error h r with Some (OCT c) => Some c | _ => None end.
Definition the_qos (h : Store) (r : Ref) : option QoS := match nth_error h r with Some (OQoS q) => Some q | _ => None end.
Definition the_addr (h : Store) (r : Ref) : option Addressee := match nth_error h r with Some (OAddr a) => Some a | _ => None end.
Definition the_len (h : Store) (r : Ref) : option Length := match nth_error h r with Some (OLen l) => Some l | _ => None end.
Definition the_bytes (h : Store) (r : Ref) : option (list Z) := match nth_error h r with Some (OBytes l) => Some l | _ => None end.
Definition the_off (h : Store) (r : Ref) : option Offset :=
  match nth_error h r with
  | Some (OOff i l) => match the_len h l with Some l => Some (mkOffset i l) | None => None end
  | _ => None
  end.
Definition the_conf (h : Store) (r : Ref) : option IfConfig :=
  match nth_error h r with
  | Some (OConf q d a) =>
      match the_qos h q, the_ct h d, the_addr h a with
      | Some q, Some d, Some a => Some (CfgD7 (mkConf q d a))
      | _, _, _ => None
      end
  | Some (OLora c) => Some c
  | _ => None
  end.
Definition the_data (h : Store) (r : Ref) : option Data :=
  match nth_error h r with
  | Some (OData o l d) =>
      match the_off h o, the_len h l, the_bytes h d with
      | Some o, Some l, Some d => Some (mkData o l d)
      | _, _, _ => None
      end
  | _ => None
  end.
Definition the_req (h : Store) (r : Ref) : option DataRequest :=
  match nth_error h r with
  | Some (OReq o l) =>
      match the_off h o, the_len h l with Some o, Some l => Some (mkDataRequest o l) | _, _ => None end
  | _ => None
  end.
Definition the_iface (h : Store) (r : Ref) : option InterfaceConfiguration :=
  match nth_error h r with
  | Some (OIface t None) => Some (mkIC t None)
  | Some (OIface t (Some c)) => match the_conf h c with Some c => Some (mkIC t (Some c)) | None => None end
  | _ => None
  end.
Definition the_op (h : Store) (o : OpRef) : option Operation :=
  match o with
  | RRead r => option_map ReadFileData (the_req h r)
  | RWrite r => option_map WriteFileData (the_data h r)
  | RReturn r p => option_map (fun d => ReturnFileData d p) (the_data h r)
  | RForward r => option_map Forward (the_iface h r)
  | OtherOp o => Some o
  end.
Definition the_action (h : Store) (r : Ref) : option Action :=
  match nth_error h r with
  | Some (OAct k o) => option_map (mkAction k) (the_op h o)
  | _ => None
  end.
Fixpoint all_some {A} (l : list (option A)) : option (list A) :=
  match l with
  | [] => Some []
  | Some x :: r => match all_some r with Some r => Some (x :: r) | None => None end
  | None :: _ => None
  end.
Definition with_actions (c : Command) (l : list Action) : Command :=
  mkCommand l (c_status c) (c_generate c) (c_tag c) (c_respond c) (c_completed c) (c_error c).
Definition the_command (h : Store) (r : Ref) : option Command :=
  match nth_error h r with
  | Some (OCmd acts c) => match all_some (map (the_action h) acts) with Some l => Some (with_actions c l) | None => None end
  | _ => None
  end.

(** ** The objects made once, when the modules are loaded *)
Definition DEFAULT_LENGTH : Ref := 0%nat.      (* offset.py:39 *)
Definition DEFAULT_DATA_OFFSET : Ref := 1%nat. (* file.py:40 *)
Definition DEFAULT_DATA : Ref := 2%nat.        (* file.py:40 *)
Definition DEFAULT_REQ_OFFSET : Ref := 3%nat.  (* file.py:71 *)
Definition DEFAULT_QOS : Ref := 4%nat.         (* configuration.py:45 *)
Definition DEFAULT_DORM_TO : Ref := 5%nat.
Definition DEFAULT_ADDRESSEE : Ref := 6%nat.
Definition loaded : Store :=
  [OLen (mkLength 0); OOff 0 DEFAULT_LENGTH; OBytes []; OOff 0 DEFAULT_LENGTH;
   OQoS qos_default; OCT (mkCT 0 0); OAddr addr_default].

(** ** Constructors: the store after the call and the new object.  An argument is
    [None] if it is left out.  The checks are those of the typed model; an
    argument of the wrong class is a [ValueError] of the schema. *)
Definition made := res (Store * Ref).
Definition put (h : Store) (o : Obj) : Store * Ref := (h ++ [o], length h).
Definition given (a : option Ref) (default : Ref) : Ref := match a with Some r => r | None => default end.
Definition of_class {A} (o : option A) : res A := match o with Some x => Ok x | None => Err ValueError end.

Definition new_length (h : Store) (v : Z) : made := let! l := mk_length v in Ok (put h (OLen l)).
Definition new_offset (h : Store) (id : Z) (offset : option Ref) : made :=
  let o := given offset DEFAULT_LENGTH in
  let! l := of_class (the_len h o) in
  let! _ := mk_offset id l in
  Ok (put h (OOff id o)).
Definition new_data (h : Store) (data offset : option Ref) : made :=
  let d := given data DEFAULT_DATA in
  let o := given offset DEFAULT_DATA_OFFSET in
  let! bs := of_class (the_bytes h d) in
  let! off := of_class (the_off h o) in
  let! v := mk_data bs off in
  let (h, l) := put h (OLen (d_length v)) in
  Ok (put h (OData o l d)).
Definition new_request (h : Store) (len : Z) (offset : option Ref) : made :=
  let o := given offset DEFAULT_REQ_OFFSET in
  let! off := of_class (the_off h o) in
  let! v := mk_data_request len off in
  let (h, l) := put h (OLen (dr_length v)) in
  Ok (put h (OReq o l)).
Definition new_conf (h : Store) (qos dorm_to addressee : option Ref) : made :=
  let q := given qos DEFAULT_QOS in
  let d := given dorm_to DEFAULT_DORM_TO in
  let a := given addressee DEFAULT_ADDRESSEE in
  let! _ := of_class (the_qos h q) in
  let! _ := of_class (the_ct h d) in
  let! _ := of_class (the_addr h a) in
  Ok (put h (OConf q d a)).
Definition new_action (h : Store) (k : ActKind) (o : OpRef) : made :=
  let! op := of_class (the_op h o) in
  let! _ := mk_action k op in
  Ok (put h (OAct k o)).
(** [Command(tag_id=tag)], command.py:65-93 without actions *)
Definition new_command (h : Store) (rnd : Z) (tag : option Z) : made :=
  let! c := mk_command rnd [] true tag true in Ok (put h (OCmd [] c)).

(** ** Changes *)
Fixpoint put_at (h : Store) (r : Ref) (o : Obj) : Store :=
  match h, r with
  | [], _ => []
  | _ :: h', O => o :: h'
  | x :: h', S r' => x :: put_at h' r' o
  end.
(** Command.add_action, command.py:95-96 *)
Definition append_action (h : Store) (c a : Ref) : res Store :=
  match nth_error h c with
  | Some (OCmd l rest) => Ok (put_at h c (OCmd (l ++ [a]) rest))
  | _ => Err AttributeError
  end.
(** Command.add_forward_action, command.py:98-151 *)
Definition forward_to (h : Store) (c : Ref) (t : InterfaceType) (conf : option Ref) : res Store :=
  let forward h conf :=
    let (h, i) := put h (OIface t conf) in
    let! (h, a) := new_action h (Regular false false) (RForward i) in
    append_action h c a in
  match t with
  | IF_HOST => match conf with Some _ => Err ValueError | None => Ok h end
  | IF_D7ASP => match conf with
                | Some _ => forward h conf
                | None => let! (h, x) := new_conf h None None None in forward h (Some x)
                end
  | IF_SERIAL => forward h None
  | IF_ABP | IF_OTAA => forward h conf
  end.
(** Command.create_with_write_file_action, command.py:205-221, and
    create_with_read_file_action, 187-203; [data] is the caller's list *)
Definition make_write (h : Store) (rnd file_id : Z) (data : Ref) (offset : Z) (t : InterfaceType) (conf : option Ref) : made :=
  let! (h, c) := new_command h rnd None in
  let! h := forward_to h c t conf in
  let! (h, l) := new_length h offset in
  let! (h, o) := new_offset h file_id (Some l) in
  let! (h, d) := new_data h (Some data) (Some o) in
  let! (h, a) := new_action h (Regular false false) (RWrite d) in
  let! h := append_action h c a in
  Ok (h, c).
Definition make_read (h : Store) (rnd file_id len offset : Z) (t : InterfaceType) (conf : option Ref) : made :=
  let! (h, c) := new_command h rnd None in
  let! h := forward_to h c t conf in
  let! (h, l) := new_length h offset in
  let! (h, o) := new_offset h file_id (Some l) in
  let! (h, d) := new_request h len (Some o) in
  let! (h, a) := new_action h (Regular false false) (RRead d) in
  let! h := append_action h c a in
  Ok (h, c).
(** Command.create_with_return_file_data_action, command.py:241-257; the parsed
    system file is computed here once, responses.py:39-45 *)
Definition make_return (h : Store) (rnd file_id : Z) (data : Ref) (offset : Z) (tag : option Z) (t : InterfaceType) (conf : option Ref) : made :=
  let! (h, c) := new_command h rnd tag in
  let! h := forward_to h c t conf in
  let! (h, l) := new_length h offset in
  let! (h, o) := new_offset h file_id (Some l) in
  let! (h, d) := new_data h (Some data) (Some o) in
  let! v := of_class (the_data h d) in
  let! (h, a) := new_action h (Regular false false) (RReturn d (try_parse_system_file v)) in
  let! h := append_action h c a in
  Ok (h, c).
(** Configuration.parse, configuration.py:58-63: all parts are new objects *)
Definition parsed_conf (h : Store) (c : Configuration) : Store * Ref :=
  let (h, q) := put h (OQoS (cf_qos c)) in
  let (h, d) := put h (OCT (cf_dorm_to c)) in
  let (h, a) := put h (OAddr (cf_addressee c)) in
  put h (OConf q d a).

(** ** Whole programs: calls of the library, objects made by the program itself,
    and assignments to attributes.  A call that raises leaves only objects nobody
    refers to, so the store stays as it was. *)
Inductive Call :=
| KAtom (o : Obj)                                  (* QoS(..), CT(..), Addressee(..), a LoRaWAN configuration, a list of bytes *)
| KLength (v : Z)
| KOffset (id : Z) (offset : option Ref)
| KData (data offset : option Ref)
| KRequest (len : Z) (offset : option Ref)
| KConf (qos dorm_to addressee : option Ref)
| KIface (t : InterfaceType) (conf : option Ref)   (* InterfaceConfiguration(t, conf) *)
| KAction (k : ActKind) (o : OpRef)
| KCommand (rnd : Z) (tag : option Z)
| KWrite (rnd file_id : Z) (data : Ref) (offset : Z) (t : InterfaceType) (conf : option Ref)
| KRead (rnd file_id len offset : Z) (t : InterfaceType) (conf : option Ref)
| KReturn (rnd file_id : Z) (data : Ref) (offset : Z) (tag : option Z) (t : InterfaceType) (conf : option Ref)
| KParsed (c : Configuration)
| KAdd (c a : Ref)
| KForward (c : Ref) (t : InterfaceType) (conf : option Ref)
| KAssign (r : Ref) (o : Obj).                     (* object [r] has the attributes of [o] from now on *)
Definition class_of (o : Obj) : Z :=
  match o with
  | OCT _ => 0 | OQoS _ => 1 | OAddr _ => 2 | OConf _ _ _ => 3 | OLora _ => 4 | OLen _ => 5 | OOff _ _ => 6
  | OBytes _ => 7 | OData _ _ _ => 8 | OReq _ _ => 9 | OIface _ _ => 10 | OAct _ _ => 11 | OCmd _ _ => 12
  end.
(** objects without parts *)
Definition atomic (o : Obj) : bool :=
  match o with OCT _ | OQoS _ | OAddr _ | OLora _ | OLen _ | OBytes _ => true | _ => false end.
Definition made_store (h : Store) (m : made) : Store := match m with Ok (h', _) => h' | Err _ => h end.
Definition changed_store (h : Store) (m : res Store) : Store := match m with Ok h' => h' | Err _ => h end.
Definition call (h : Store) (k : Call) : Store :=
  match k with
  | KAtom o => if atomic o then h ++ [o] else h
  | KLength v => made_store h (new_length h v)
  | KOffset i o => made_store h (new_offset h i o)
  | KData d o => made_store h (new_data h d o)
  | KRequest l o => made_store h (new_request h l o)
  | KConf q d a => made_store h (new_conf h q d a)
  | KIface t c => h ++ [OIface t c]
  | KAction k o => made_store h (new_action h k o)
  | KCommand rnd tag => made_store h (new_command h rnd tag)
  | KWrite rnd i d off t c => made_store h (make_write h rnd i d off t c)
  | KRead rnd i l off t c => made_store h (make_read h rnd i l off t c)
  | KReturn rnd i d off tag t c => made_store h (make_return h rnd i d off tag t c)
  | KParsed c => fst (parsed_conf h c)
  | KAdd c a => changed_store h (append_action h c a)
  | KForward c t conf => changed_store h (forward_to h c t conf)
  | KAssign r o => match nth_error h r with
                   | Some old => if class_of old =? class_of o then put_at h r o else h
                   | None => h
                   end
  end.
Fixpoint program (h : Store) (l : list Call) : Store :=
  match l with [] => h | k :: l => program (call h k) l end.
