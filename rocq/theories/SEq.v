(** Equality of objects. *)
From Verif Require Export STypes SAlp MEq.

(** the class of an object, up to int and long being told apart *)
Inductive Class := CLength | CFileHeader | CFileProperties | CFilePermissions | CChannelHeader | CInt | CLong | COther.
Definition class_of_value (v : Value) : Class :=
  match v with
  | VLength _ => CLength | VFileHeader _ => CFileHeader | VFileProperties _ => CFileProperties
  | VFilePermissions _ => CFilePermissions | VChannelHeader _ => CChannelHeader
  | VNumber false _ => CInt | VNumber true _ => CLong | VOther _ => COther
  end.
(** what the schemas demand *)
Definition value_wf (v : Value) : Prop :=
  match v with VLength l => len_wf l | VFileHeader h => fh_wf h | _ => True end.
(** an object of the library, with the bytes it stands for *)
Definition stands_for (v : Value) (bytes : list Z) : Prop := value_ser v = Some (Ok bytes).
Definition is_channel (v : Value) : Prop := class_of_value v = CChannelHeader.
(** neither a number nor a foreign object: a class with its own [!=] *)
Definition has_ne (v : Value) : Prop :=
  match class_of_value v with CInt | CLong | COther => False | _ => True end.
(** the pairs for which neither [==] nor [!=] holds *)
Definition neither (a b : Value) : Prop :=
  (is_channel a /\ ~ is_channel b) \/ (is_channel b /\ ~ has_ne a).
