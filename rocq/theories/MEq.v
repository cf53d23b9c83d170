(** Comparing objects with == and != (Python 2.7). *)
From Verif Require Import MBase MPhy MFs MOperands.

(** What can stand on either side: objects of the five classes that define
    [__eq__], plain numbers ([long] tells Python's long from int; bool is an
    int), and any other object, which is compared by identity. *)
Inductive Value :=
| VLength (l : Length)
| VFileHeader (h : FileHeader)
| VFileProperties (p : FileProperties)
| VFilePermissions (p : FilePermissions)
| VChannelHeader (h : ChannelHeader)
| VNumber (long : bool) (z : Z)
| VOther (identity : nat).

(** members of the enumerations are compared by identity *)
Definition actcond_eq (a b : ActionCondition) : bool :=
  match a, b with
  | AC_LIST, AC_LIST | AC_READ, AC_READ | AC_WRITE, AC_WRITE | AC_WRITE_FLUSH, AC_WRITE_FLUSH => true
  | _, _ => false
  end.
Definition storage_eq (a b : StorageClass) : bool :=
  match a, b with
  | TRANSIENT, TRANSIENT | VOLATILE, VOLATILE | RESTORABLE, RESTORABLE | PERMANENT, PERMANENT => true
  | _, _ => false
  end.
Definition coding_eq (a b : ChannelCoding) : bool :=
  match a, b with PN9, PN9 | CodingRFU, CodingRFU | FEC_PN9, FEC_PN9 | CW, CW => true | _, _ => false end.
Definition class_eq (a b : ChannelClass) : bool :=
  match a, b with
  | LO_RATE, LO_RATE | LORA, LORA | NORMAL_RATE, NORMAL_RATE | HI_RATE, HI_RATE => true | _, _ => false end.
Definition band_eq (a b : ChannelBand) : bool :=
  match a, b with
  | BAND_NOT_IMPL, BAND_NOT_IMPL | BAND_433, BAND_433 | BAND_868, BAND_868 | BAND_915, BAND_915 => true
  | _, _ => false end.

(** Comparing the attribute dictionaries, key by key.
    file_permissions.py:81-85 (attributes: 42-49) *)
Definition perm_dict_eq (a b : FilePermissions) : bool :=
  Bool.eqb (fp_encrypted a) (fp_encrypted b) && Bool.eqb (fp_executable a) (fp_executable b)
  && Bool.eqb (fp_user_r a) (fp_user_r b) && Bool.eqb (fp_user_w a) (fp_user_w b)
  && Bool.eqb (fp_user_x a) (fp_user_x b) && Bool.eqb (fp_guest_r a) (fp_guest_r b)
  && Bool.eqb (fp_guest_w a) (fp_guest_w b) && Bool.eqb (fp_guest_x a) (fp_guest_x b).
(** file_properties.py:79-83 (attributes: 51-53) *)
Definition prop_dict_eq (a b : FileProperties) : bool :=
  Bool.eqb (pr_enabled a) (pr_enabled b) && actcond_eq (pr_cond a) (pr_cond b)
  && storage_eq (pr_storage a) (pr_storage b).
(** file_header.py:75-79 (attributes: 41-46); the nested objects are compared
    with their own [__eq__] *)
Definition fh_dict_eq (a b : FileHeader) : bool :=
  perm_dict_eq (fh_perm a) (fh_perm b) && prop_dict_eq (fh_prop a) (fh_prop b)
  && (fh_alp_file a =? fh_alp_file b) && (fh_if_file a =? fh_if_file b)
  && (fh_size a =? fh_size b) && (fh_alloc a =? fh_alloc b).
(** channel_header.py:124-127 (attributes: 91-93) *)
Definition ch_dict_eq (a b : ChannelHeader) : bool :=
  coding_eq (ch_coding a) (ch_coding b) && class_eq (ch_class a) (ch_class b)
  && band_eq (ch_band a) (ch_band b).

(** [self.__eq__(other)]; [None]: the class has no such method, or it answers
    NotImplemented.  length.py:74-80, file_header.py:75-79,
    file_properties.py:79-83, file_permissions.py:81-85,
    channel_header.py:124-127 *)
Definition eq_method (self other : Value) : option bool :=
  match self with
  | VLength a =>
      match other with
      | VLength b => Some (len_value a =? len_value b)
      | VNumber false z => Some (len_value a =? z)
      | _ => Some false
      end
  | VFileHeader a => match other with VFileHeader b => Some (fh_dict_eq a b) | _ => Some false end
  | VFileProperties a => match other with VFileProperties b => Some (prop_dict_eq a b) | _ => Some false end
  | VFilePermissions a => match other with VFilePermissions b => Some (perm_dict_eq a b) | _ => Some false end
  | VChannelHeader a => match other with VChannelHeader b => Some (ch_dict_eq a b) | _ => Some false end
  | VNumber _ a => match other with VNumber _ b => Some (a =? b) | _ => None end
  | VOther _ => None
  end.

(** [self.__ne__(other)].  length.py:82-83, file_header.py:81-82,
    file_properties.py:85-86, file_permissions.py:87-88,
    channel_header.py:129-132 *)
Definition ne_method (self other : Value) : option bool :=
  match self with
  | VLength _ | VFileHeader _ | VFileProperties _ | VFilePermissions _ =>
      option_map negb (eq_method self other)
  | VChannelHeader a =>
      match other with VChannelHeader _ => option_map negb (eq_method self other) | _ => Some false end
  | VNumber _ a => match other with VNumber _ b => Some (negb (a =? b)) | _ => None end
  | VOther _ => None
  end.

(** comparison by identity, the last resort *)
Definition same_object (a b : Value) : bool :=
  match a, b with VOther i, VOther j => Nat.eqb i j | _, _ => false end.

(** [a == b] and [a != b]: the method of the left operand, else that of the
    right operand, else identity (Python 2.7 reference, 3.3.1) *)
Definition py_eq (a b : Value) : bool :=
  match eq_method a b with
  | Some r => r
  | None => match eq_method b a with Some r => r | None => same_object a b end
  end.
Definition py_ne (a b : Value) : bool :=
  match ne_method a b with
  | Some r => r
  | None => match ne_method b a with Some r => r | None => negb (same_object a b) end
  end.

(** [bytearray(v)] of an object of the five classes *)
Definition value_ser (v : Value) : option (res (list Z)) :=
  match v with
  | VLength l => Some (length_ser l)
  | VFileHeader h => Some (fh_ser h)
  | VFileProperties p => Some (prop_ser p)
  | VFilePermissions p => Some (perm_ser p)
  | VChannelHeader h => Some (ch_ser h)
  | VNumber _ _ | VOther _ => None
  end.
