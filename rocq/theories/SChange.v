(** Vocabulary for C96: objects whose attributes are changed after they were
    made.  Only constructors check values, so a changed object is any record of
    the model, with the integers in its fields unrestricted. *)
From Verif Require Export SAlp SFiles SContent SCommand.
Open Scope list_scope.
Open Scope Z_scope.

(** an object that does not keep to its ranges is not serialized *)
Definition refuses_bad {A} (wf : A -> Prop) (ser : A -> res (list Z)) : Prop :=
  forall x bs, ser x = Ok bs -> wf x.

(** the same addressee with another id, the same channel with another index *)
Definition with_id (a : Addressee) (z : Z) : Addressee :=
  mkAddr (ad_access_class a) (ad_id_type a) (IdInt z) (ad_nls a).
Definition with_index (c : ChannelStatusIdentifier) (i : Z) : ChannelStatusIdentifier :=
  mkCSI (csi_band c) (csi_bandwidth c) i.
(** the same operand with other data: the length stays that of the constructor *)
Definition with_data (d : Data) (data : list Z) : Data := mkData (d_offset d) (d_length d) data.
(** the time a byte stands for *)
Definition ct_of_byte (b : Z) : CT := mkCT (b / 32) (b mod 32).
