(** Link layer frames on the wire and what the link layer parser is expected to
    do with them. *)
From Verif Require Export SCommand MSerial MDll.

(** ** Layout of a foreground frame *)
(** one byte compressed times, present exactly when announced *)
Definition ct_announced (flag : bool) (o : option CT) : Prop :=
  match o with Some c => flag = true /\ ct_wf c | None => flag = false end.
Definition ct_opt_bits (o : option CT) : list bool :=
  match o with Some c => ct_layout c | None => [] end.

(** transport layer header; the frames the library accepts carry no ack
    template, and 10 is the default target level *)
Definition tp_wf (f : TpFrame) : Prop :=
  tc_ack_nv (tf_control f) = false /\ tc_ack_rec (tf_control f) = false /\ tf_ack f = None
  /\ is_byte (tf_dialog f) /\ is_byte (tf_trans f)
  /\ (if tc_agc (tf_control f) then 0 <= tf_agc f <= 31 else tf_agc f = 10)
  /\ ct_announced (tc_tl (tf_control f)) (tf_tl f)
  /\ ct_announced (tc_te (tf_control f)) (tf_te f)
  /\ ct_announced (tc_ack_req (tf_control f) && tc_start (tf_control f)) (tf_tc f).
Definition tp_head (rfu : bool) (f : TpFrame) : list bool :=
  let c := tf_control f in
  [tc_start c; rfu; tc_tl c; tc_te c; tc_ack_req c; false; false; tc_agc c]
  ++ Zbits 8 (tf_dialog f) ++ Zbits 8 (tf_trans f)
  ++ (if tc_agc c then Zbits 8 (tf_agc f) else [])
  ++ ct_opt_bits (tf_tl f) ++ ct_opt_bits (tf_te f) ++ ct_opt_bits (tf_tc f).

(** network layer header: no hopping, no network security *)
Definition np_wf (f : NpFrame) : Prop :=
  nc_hopping (nf_control f) = false /\ nc_nls (nf_control f) = NLS_NONE
  /\ is_byte (nf_class f) /\ Forall is_byte (nf_origin f)
  /\ (if nc_no_origin (nf_control f) then nf_origin f = []
      else match nc_id_type (nf_control f) with
           | VID => zlen (nf_origin f) = 2
           | UID => zlen (nf_origin f) = 8
           | _ => False
           end)
  /\ tp_wf (nf_tp f).
Definition np_head (rfu : bool) (f : NpFrame) : list bool :=
  let c := nf_control f in
  [nc_no_origin c; false] ++ Zbits 2 (idtype_value (nc_id_type c)) ++ Zbits 4 0
  ++ Zbits 8 (nf_class f) ++ bytes_bits (nf_origin f) ++ tp_head rfu (nf_tp f).

(** link layer header: unicast (with a target address) or broadcast *)
Definition fg_head_wf (f : FgFrame) : Prop :=
  is_byte (ff_length f) /\ is_byte (ff_subnet f) /\ 0 <= fc_eirp (ff_control f) <= 63
  /\ Forall is_byte (ff_target f)
  /\ match fc_id_type (ff_control f) with
     | VID => zlen (ff_target f) = 2
     | UID => zlen (ff_target f) = 8
     | _ => ff_target f = []
     end
  /\ np_wf (ff_np f) /\ 0 <= ff_crc f <= 65535.
Definition fg_layout (rfu : bool) (f : FgFrame) (alp : list bool) : list bool :=
  Zbits 8 (ff_length f) ++ Zbits 8 (ff_subnet f)
  ++ Zbits 2 (idtype_value (fc_id_type (ff_control f))) ++ Zbits 6 (fc_eirp (ff_control f))
  ++ bytes_bits (ff_target f) ++ np_head rfu (ff_np f) ++ alp ++ Zbits 16 (ff_crc f).
(** the length byte counts the bytes that follow it *)
Definition fg_length_ok (rfu : bool) (f : FgFrame) (alp : list bool) : Prop :=
  zlen (fg_layout rfu f alp) = 8 * (ff_length f + 1).
Definition fg_command (f : FgFrame) : Command := tf_cmd (nf_tp (ff_np f)).

(** ** Layout of a background frame *)
Definition bg_wf (f : BgFrame) : Prop :=
  is_byte (bf_subnet f) /\ 0 <= bc_tag (bf_control f) <= 63
  /\ 0 <= bf_payload f <= 65535 /\ 0 <= bf_crc f <= 65535.
Definition bg_layout (f : BgFrame) : list bool :=
  Zbits 8 (bf_subnet f) ++ Zbits 2 (idtype_value (bc_id_type (bf_control f)))
  ++ Zbits 6 (bc_tag (bf_control f)) ++ Zbits 16 (bf_payload f) ++ Zbits 16 (bf_crc f).

(** ** The parser object *)
(** the bytes [bs] are one frame, no more and no less *)
Definition is_frame (foreground : bool) (bs : list Z) (f : DFrame) : Prop :=
  dframe_parse foreground (stream_of bs) = Ok (f, St (8 * length bs) []).
(** successive calls with the given new bytes: final buffer and results *)
Fixpoint dll_calls (lib foreground : bool) (buf : list Z) (chunks : list (list Z))
  : list Z * list (res (option DFrame * Z * Z)) :=
  match chunks with
  | [] => (buf, [])
  | c :: cs => let '(buf1, r) := dll_parse lib foreground buf c in
               let '(buf2, rs) := dll_calls lib foreground buf1 cs in (buf2, r :: rs)
  end.
(** the frames handed out by successful calls *)
Definition delivered (rs : list (res (option DFrame * Z * Z))) : list DFrame :=
  flat_map (fun r => match r with Ok (Some f, _, _) => [f] | _ => [] end) rs.

(** ** Frames whose length byte does not count the CRC, as in the frames of
    dll/test/parser.py:41-56 and 99-116 *)
Definition fg_length_without_crc (rfu : bool) (f : FgFrame) (alp : list bool) : Prop :=
  zlen (fg_layout rfu f alp) = 8 * (ff_length f + 3).
(** the command with the action [a] added at the end *)
Definition with_last (c : Command) (a : Action) : Command :=
  mkCommand (c_actions c ++ [a]) (c_status c) (c_generate c) (c_tag c) (c_respond c) (c_completed c) (c_error c).
(** the same frame with other contents *)
Definition with_command (f : FgFrame) (c : Command) (crc : Z) : FgFrame :=
  let n := ff_np f in let t := nf_tp n in
  mkFgFrame (ff_length f) (ff_subnet f) (ff_control f) (ff_target f)
    (mkNpFrame (nf_control n) (nf_class n) (nf_origin n)
      (mkTpFrame (tf_control t) (tf_dialog t) (tf_trans t) (tf_agc t) (tf_tl t) (tf_te t) (tf_tc t) (tf_ack t) c)) crc.
