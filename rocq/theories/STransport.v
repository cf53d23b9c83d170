(** The transport layer frame as it is serialized, d7a/d7atp *)
From Verif Require Import SDll.

(** the control byte: one flag per bit, bit 6 unused *)
Definition control_bits (c : TpControl) : list bool :=
  [tc_start c; false; tc_tl c; tc_te c; tc_ack_req c; tc_ack_nv c; tc_ack_rec c; tc_agc c].
(** header without the times, which are not serialized *)
Definition tp_written_head (f : TpFrame) : list bool :=
  control_bits (tf_control f) ++ Zbits 8 (tf_dialog f) ++ Zbits 8 (tf_trans f)
  ++ (if tc_agc (tf_control f) then Zbits 8 (tf_agc f) else [])
  ++ (if tc_ack_nv (tf_control f) then match tf_ack f with Some (a, b) => Zbits 8 a ++ Zbits 8 b | None => [] end else []).
(** frames as the constructor leaves them *)
Definition tp_made (f : TpFrame) : Prop :=
  0 <= tf_dialog f <= 255 /\ 0 <= tf_trans f <= 255 /\ 0 <= tf_agc f <= 31.
