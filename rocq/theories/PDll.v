(** Link layer: properties C35, C36, C37. *)
From Verif Require Import LDll LShort STransport LTransport.

(** ** C35 *)
Theorem C35_foreground_frame_recovered : forall rfu f c,
  fg_head_wf f -> command_wf c -> fg_command f = command_received c ->
  fg_length_ok rfu f (command_layout c) -> ff_length f <= 127 -> ff_subnet f <= 127 ->
  accepts_aligned fg_parse (fg_layout rfu f (command_layout c)) f.
Proof. exact fg_command_accepts. Qed.
Print Assumptions C35_foreground_frame_recovered.

(** the same for any application payload the ALP parser understands *)
Theorem C35_foreground_frame_recovered_any_payload : forall rfu f alp,
  fg_head_wf f -> fg_length_ok rfu f alp -> ff_length f <= 127 -> ff_subnet f <= 127 ->
  accepts_aligned (alp_parse (zlen alp / 8)) alp (fg_command f) ->
  accepts_aligned fg_parse (fg_layout rfu f alp) f.
Proof. exact fg_accepts. Qed.
Print Assumptions C35_foreground_frame_recovered_any_payload.

(** in bytes: exactly one frame of length + 1 bytes *)
Theorem C35_frame_is_length_plus_one_bytes : forall rfu f alp bs,
  fg_head_wf f -> fg_length_ok rfu f alp -> ff_length f <= 127 -> ff_subnet f <= 127 ->
  accepts_aligned (alp_parse (zlen alp / 8)) alp (fg_command f) ->
  bytes_bits bs = fg_layout rfu f alp ->
  is_frame true bs (DFg f) /\ zlen bs = ff_length f + 1.
Proof. exact layout_is_frame. Qed.
Print Assumptions C35_frame_is_length_plus_one_bytes.

Theorem C35_large_bytes_rejected : forall rfu f c,
  fg_head_wf f -> command_wf c -> fg_command f = command_received c ->
  fg_length_ok rfu f (command_layout c) -> 128 <= ff_length f \/ 128 <= ff_subnet f ->
  forall ps rest, (ps mod 8 = 0)%nat ->
  fg_parse (St ps (fg_layout rfu f (command_layout c) ++ rest)) = Err ValueError.
Proof. exact fg_command_rejects. Qed.
Print Assumptions C35_large_bytes_rejected.

(** a length byte of 128 or more is fatal whatever the payload *)
Theorem C35_large_length_rejected : forall rfu f alp,
  fg_head_wf f -> 128 <= ff_length f ->
  forall ps rest, (ps mod 8 = 0)%nat -> fg_parse (St ps (fg_layout rfu f alp ++ rest)) = Err ValueError.
Proof. exact fg_rejects_length. Qed.
Print Assumptions C35_large_length_rejected.

(** on arbitrary input: an accepted frame never had such bytes *)
Theorem C35_accepted_bytes_are_small : forall s f s', fg_parse s = Ok (f, s') ->
  0 <= ff_length f <= 127 /\ 0 <= ff_subnet f <= 127
  /\ exists r, bits s = Zbits 8 (ff_length f) ++ Zbits 8 (ff_subnet f) ++ r.
Proof. exact fg_parse_bytes. Qed.
Print Assumptions C35_accepted_bytes_are_small.

Theorem C35_background_frame_recovered : forall f, bg_wf f -> bf_subnet f <= 127 ->
  accepts bg_parse (bg_layout f) f.
Proof. exact bg_accepts. Qed.
Print Assumptions C35_background_frame_recovered.

Theorem C35_background_large_subnet_rejected : forall f, bg_wf f -> 128 <= bf_subnet f ->
  rejects bg_parse (bg_layout f) ValueError.
Proof. exact bg_rejects. Qed.
Print Assumptions C35_background_large_subnet_rejected.


Definition sample_cmd : Command :=
  mkCommand [mkAction (Regular false false) (ReadFileData (mkDataRequest (mkOffset 0 (mkLength 0)) (mkLength 8)))]
            None false None true false None.
Definition sample_frame (len subnet : Z) (c : Command) : FgFrame :=
  mkFgFrame len subnet (mkFgControl NOID 42) []
    (mkNpFrame (mkNpControl false false UID NLS_NONE) 1 [0;0;0;0;0;0;0;1]
      (mkTpFrame (mkTpControl true true false true false false false) 233 0 10
         (Some (mkCT 0 5)) None (Some (mkCT 0 5)) None c)) 9690.
Ltac sample_wf := unfold command_wf, action_wf, op_wf, dr_wf, off_wf, len_wf, len_max, fg_head_wf, np_wf, tp_wf, ct_announced, ct_wf, is_byte; cbn;
  repeat match goal with |- _ /\ _ => split | |- Forall _ _ => constructor end; cbn; try lia; try reflexivity; try exact I; try discriminate; repeat split; cbn; try lia.
Example C35_case : fg_head_wf (sample_frame 23 0 sample_cmd) /\ command_wf sample_cmd
  /\ fg_command (sample_frame 23 0 sample_cmd) = command_received sample_cmd
  /\ fg_length_ok false (sample_frame 23 0 sample_cmd) (command_layout sample_cmd)
  /\ fg_layout false (sample_frame 23 0 sample_cmd) (command_layout sample_cmd) =
     bytes_bits [23; 0; 106; 32; 1; 0;0;0;0;0;0;0;1; 168; 233; 0; 5; 5; 1; 0; 0; 8; 37; 218].
Proof. refine (conj _ (conj _ (conj eq_refl (conj eq_refl eq_refl)))); sample_wf. Qed.
Example C35_case_rejected : fg_head_wf (sample_frame 23 200 sample_cmd)
  /\ fg_length_ok false (sample_frame 23 200 sample_cmd) (command_layout sample_cmd)
  /\ fg_parse (stream_of [23; 200; 106; 32; 1; 0;0;0;0;0;0;0;1; 168; 233; 0; 5; 5; 1; 0; 0; 8; 37; 218]) = Err ValueError.
Proof. refine (conj _ (conj eq_refl _)); [sample_wf | vm_compute; reflexivity]. Qed.
Example C35_case_background : bg_wf (mkBgFrame 1 (mkBgControl UID 0) 1 9690)
  /\ bg_layout (mkBgFrame 1 (mkBgControl UID 0) 1 9690) = bytes_bits [1; 128; 0; 1; 37; 218].
Proof. split; [unfold bg_wf, is_byte; cbn; lia | reflexivity]. Qed.

(** ** C53: frames whose length byte does not count the CRC *)
Theorem C53_long_last_action_recovered : forall rfu f c a,
  fg_head_wf f -> command_wf (with_last c a) -> fg_command f = command_received (with_last c a) ->
  fg_length_without_crc rfu f (command_layout (with_last c a)) -> ff_length f <= 127 -> ff_subnet f <= 127 ->
  (16 < length (action_layout a))%nat ->
  accepts_aligned fg_parse (fg_layout rfu f (command_layout (with_last c a))) f.
Proof. exact short_frame_ok. Qed.
Print Assumptions C53_long_last_action_recovered.
Theorem C53_two_byte_last_action_lost : forall rfu f c a,
  fg_head_wf f -> command_wf (with_last c a) -> fg_command f = command_received (with_last c a) ->
  fg_length_without_crc rfu f (command_layout (with_last c a)) -> ff_length f <= 127 -> ff_subnet f <= 127 ->
  length (action_layout a) = 16%nat ->
  forall ps rest, (ps mod 8 = 0)%nat ->
  fg_parse (St ps (fg_layout rfu f (command_layout (with_last c a)) ++ rest)) =
  Ok (with_command f (command_received c) (bits_val (action_layout a)),
      St (ps + 8 * Z.to_nat (ff_length f + 1)) (Zbits 16 (ff_crc f) ++ rest)).
Proof. exact short_frame_drops. Qed.
Print Assumptions C53_two_byte_last_action_lost.
(** the frame of dll/test/parser.py:41-56 *)
Example C53_case_test_frame :
  let c := mkCommand [] None false None true false None in
  let a := mkAction (Regular false false) (ReadFileData (mkDataRequest (mkOffset 0 (mkLength 0)) (mkLength 8))) in
  let f := sample_frame 21 0 sample_cmd in
  fg_head_wf f /\ command_wf (with_last c a) /\ fg_command f = command_received (with_last c a)
  /\ fg_length_without_crc false f (command_layout (with_last c a)) /\ (16 < length (action_layout a))%nat
  /\ fg_layout false f (command_layout (with_last c a)) =
     bytes_bits [21; 0; 106; 32; 1; 0;0;0;0;0;0;0;1; 168; 233; 0; 5; 5; 1; 0; 0; 8; 37; 218].
Proof. cbv zeta. refine (conj _ (conj _ (conj eq_refl (conj eq_refl (conj _ eq_refl))))); [sample_wf | sample_wf | vm_compute; lia]. Qed.

(** ** C36 *)
Theorem C36_foreground_not_serializable : forall f, exists e, fg_ser f = Err e /\ (fg_head_wf f -> e = AttributeError).
Proof. exact fg_ser_fails. Qed.
Print Assumptions C36_foreground_not_serializable.
Theorem C36_background_not_serializable : forall f, exists e, bg_ser f = Err e /\ (bg_wf f -> e = TypeError).
Proof. exact bg_ser_fails. Qed.
Print Assumptions C36_background_not_serializable.
(** the control bytes, and the frame of the transport layer on its own *)
Theorem C36_control_bytes :
  (forall c, emits (tpc_ser c) (control_bits c))
  /\ (forall c, 0 <= fc_eirp c <= 63 -> emits (fgc_ser c) (Zbits 2 (idtype_value (fc_id_type c)) ++ Zbits 6 (fc_eirp c)))
  /\ (forall c, 0 <= bc_tag c <= 63 -> emits (bgc_ser c) (Zbits 2 (idtype_value (bc_id_type c)) ++ Zbits 6 (bc_tag c)))
  /\ (forall c, npc_ser c = Err AttributeError).
Proof. exact (conj tpc_emits (conj fgc_emits (conj bgc_emits (fun c => eq_refl)))). Qed.
Print Assumptions C36_control_bytes.
Theorem C36_transport_frame_bytes : forall f wire, tp_made f -> emits (command_ser (tf_cmd f)) wire ->
  tc_tl (tf_control f) = false -> tc_te (tf_control f) = false ->
  (tc_ack_nv (tf_control f) = true -> exists a b, tf_ack f = Some (a, b) /\ 0 <= a <= 255 /\ 0 <= b <= 255) ->
  emits (tp_ser f) (tp_written_head f ++ wire).
Proof. exact tp_emits. Qed.
Print Assumptions C36_transport_frame_bytes.
Theorem C36_transport_frame_ack_missing : forall f, tp_made f -> tc_ack_nv (tf_control f) = true -> tf_ack f = None ->
  tp_ser f = Err TypeError.
Proof. exact tp_ack_fails. Qed.
Print Assumptions C36_transport_frame_ack_missing.
(** A received transport frame is written as it was read only if it carries no
    time at all; a congestion timeout is left out, the other two cannot be written. *)
Theorem C36_transport_frame_written_again : forall f wire, tp_wf f -> emits (command_ser (tf_cmd f)) wire ->
  (tf_tl f = None -> tf_te f = None -> tf_tc f = None -> emits (tp_ser f) (tp_head false f ++ wire))
  /\ (tf_tl f = None -> tf_te f = None -> forall t, tf_tc f = Some t ->
       exists l, emits (tp_ser f) (l ++ wire) /\ tp_head false f = l ++ ct_layout t)
  /\ (tf_tl f <> None \/ tf_te f <> None -> tp_ser f = Err TypeError).
Proof. exact tp_received. Qed.
Print Assumptions C36_transport_frame_written_again.
Example C36_case_transport : tp_ser (mkTpFrame (mkTpControl true false false true false false true) 233 0 10 None None (Some (mkCT 0 5)) None sample_cmd)
  = Ok [137; 233; 0; 10; 1; 0; 0; 8].
Proof. vm_compute. reflexivity. Qed.
Example C36_case : fg_ser (sample_frame 23 0 sample_cmd) = Err AttributeError
  /\ bg_ser (mkBgFrame 1 (mkBgControl UID 0) 1 9690) = Err TypeError.
Proof. split; reflexivity. Qed.

(** ** C37 *)
Theorem C37_one_call : forall lib fg buf chunk,
  let data := buf ++ chunk in
  match dll_parse lib fg buf chunk with
  | (rest, Ok (Some f, parsed, lft)) => exists bs, data = bs ++ rest /\ is_frame fg bs f
        /\ parsed = 8 * zlen bs /\ lft = 8 * zlen rest
  | (rest, Ok (None, parsed, lft)) => rest = data /\ parsed = 0 /\ lft = 8 * zlen data
        /\ forall k f, ~ is_frame fg (firstn k data) f
  | (rest, Err e) => rest = data /\ e <> ReadError /\ forall k f, ~ is_frame fg (firstn k data) f
  end.
Proof. exact dll_one_call. Qed.
Print Assumptions C37_one_call.
Theorem C37_complete_frame_is_delivered : forall lib fg buf chunk bs rest f,
  buf ++ chunk = bs ++ rest -> is_frame fg bs f ->
  dll_parse lib fg buf chunk = (rest, Ok (Some f, 8 * zlen bs, 8 * zlen rest)).
Proof. exact dll_delivers. Qed.
Print Assumptions C37_complete_frame_is_delivered.
Theorem C37_calls_drain_the_buffer : forall lib fg items tail,
  Forall (fun x => is_frame fg (fst x) (snd x)) items ->
  exists rs, dll_calls lib fg (concat (map fst items) ++ tail) (repeat [] (length items)) = (tail, rs)
             /\ delivered rs = map snd items.
Proof. exact dll_drained. Qed.
Print Assumptions C37_calls_drain_the_buffer.
(** any history of calls: what went in is what was delivered plus what is kept *)
Theorem C37_accounting : forall lib fg chunks buf,
  let '(buf', rs) := dll_calls lib fg buf chunks in
  length rs = length chunks /\
  exists bss, buf ++ concat chunks = concat bss ++ buf' /\ Forall2 (is_frame fg) bss (delivered rs).
Proof. exact dll_accounting. Qed.
Print Assumptions C37_accounting.
Theorem C37_raises_forever : forall lib fg buf chunk rest e chunks,
  dll_parse lib fg buf chunk = (rest, Err e) -> lib = true \/ e <> BoolEof ->
  dll_calls lib fg rest chunks = (rest ++ concat chunks, repeat (Err e) (length chunks)).
Proof. exact dll_poisoned. Qed.
Print Assumptions C37_raises_forever.
(** if reading a flag at the end of the data is not a [ReadError], a call can
    raise on an incomplete frame and a later one deliver it *)
Theorem C37_raises_forever_refuted : exists buf chunk more rest e f,
  dll_parse false true buf chunk = (rest, Err e) /\ snd (dll_parse false true rest more) = Ok (Some f, 192, 0).
Proof.
  exists [], [23; 0; 106], [32; 1; 0;0;0;0;0;0;0;1; 168; 233; 0; 5; 5; 1; 0; 0; 8; 37; 218], [23; 0; 106], BoolEof, (DFg (sample_frame 23 0 sample_cmd)).
  split; vm_compute; reflexivity.
Qed.
Print Assumptions C37_raises_forever_refuted.
Example C37_case_frame : is_frame true [23; 0; 106; 32; 1; 0;0;0;0;0;0;0;1; 168; 233; 0; 5; 5; 1; 0; 0; 8; 37; 218] (DFg (sample_frame 23 0 sample_cmd)).
Proof. vm_compute. reflexivity. Qed.
Example C37_case_waits : dll_parse true true [23; 0] [106] = ([23; 0; 106], Ok (None, 0, 24)).
Proof. vm_compute. reflexivity. Qed.
Example C37_case_raises : dll_parse true true [23] [0; 106; 96; 1] = ([23; 0; 106; 96; 1], Err AssertMsg).
Proof. vm_compute. reflexivity. Qed.
