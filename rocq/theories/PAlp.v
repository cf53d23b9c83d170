(** Properties C15-C22, C34: ALP actions and commands. *)
From Verif Require Import SCommand LTags LAlpCases LTight LRefuse LFails.

(** C15 *)
Theorem C15_alp_parse_total : forall n bs,
  match alp_parse n (stream_of bs) with
  | Ok (c, s') => exists k, pos s' = (8 * k)%nat /\ (k <= length bs)%nat /\ bits s' = bytes_bits (skipn k bs)
                            /\ n <= Z.of_nat k
  | Err e => e = ReadError \/ e = BoolEof \/ e = ParseError \/ e = ValueError \/ e = AttributeError \/ e = AssertNoMsg
  end.
Proof. exact alp_on_bytes. Qed.
Print Assumptions C15_alp_parse_total.
Theorem C15_alp_parse_looks_only_at_what_it_consumes : forall n bs more c s',
  alp_parse n (stream_of bs) = Ok (c, s') ->
  alp_parse n (stream_of (bs ++ more)) = Ok (c, St (pos s') (bits s' ++ bytes_bits more)).
Proof. exact alp_prefix_only. Qed.
Print Assumptions C15_alp_parse_looks_only_at_what_it_consumes.
Theorem C15_alp_result_depends_on_consumed_bytes_only : forall n bs c s',
  alp_parse n (stream_of bs) = Ok (c, s') ->
  exists k, (k <= length bs)%nat /\
    forall more, alp_parse n (stream_of (firstn k bs ++ more)) = Ok (c, St (8 * k) (bytes_bits more)).
Proof. exact alp_reads_only_consumed. Qed.
Print Assumptions C15_alp_result_depends_on_consumed_bytes_only.
Example C15_case_ok : exists c s', alp_parse 3 (stream_of [1; 64; 0; 4]) = Ok (c, s') /\ pos s' = 32%nat.
Proof. eexists _, _. vm_compute. split; reflexivity. Qed.
Example C15_case_errors :
  alp_parse 1 (stream_of [2]) = Err ParseError /\ alp_parse 4 (stream_of [1; 64; 0]) = Err ReadError
  /\ alp_parse 1 (stream_of []) = Err BoolEof /\ alp_parse 3 (stream_of [98; 0; 0]) = Err AttributeError
  /\ alp_parse 1 (stream_of [34]) = Err ValueError /\ alp_parse 2 (stream_of [9; 0]) = Err AssertNoMsg.
Proof. vm_compute. repeat split; reflexivity. Qed.

(** C16 *)
Theorem C16_action_round_trip : forall a, action_wf a ->
  emits (action_ser a) (action_layout a) /\ accepts parse_action (action_layout a) (Some (action_received a)).
Proof. exact action_codec. Qed.
Print Assumptions C16_action_round_trip.
Theorem C16_unknown_opcodes_refused : forall b7 b6 v, 0 <= v < 64 ->
  ~ (v = 1 \/ v = 4 \/ v = 9 \/ v = 17 \/ v = 32 \/ v = 33 \/ v = 34 \/ v = 35 \/ v = 50 \/ v = 51 \/ v = 52) ->
  rejects parse_action ([b7; b6] ++ Zbits 6 v) ParseError.
Proof. exact opcode_rejects. Qed.
Print Assumptions C16_unknown_opcodes_refused.
(** so are the flags that a status, a forward and a tag request do not have, *)
Theorem C16_unknown_flags_refused : forall b7 b6,
  rejects parse_action ([true; b6] ++ Zbits 6 34) ParseError
  /\ rejects parse_action ([true; b6] ++ Zbits 6 50) ParseError
  /\ rejects parse_action ([b7; true] ++ Zbits 6 52) ParseError.
Proof. exact refused_bits. Qed.
Print Assumptions C16_unknown_flags_refused.
(** and a status of, or a forward to, the host or an unknown interface [i] *)
Theorem C16_unknown_interfaces_refused : forall b6 i len, 0 <= i <= 255 -> is_byte len ->
  (i <> 1 -> i <> 215 ->
     rejects parse_action ([false; true] ++ Zbits 6 34 ++ Zbits 8 i ++ Zbits 8 len) (if i =? 0 then AttributeError else ParseError))
  /\ (i <> 1 -> i <> 2 -> i <> 3 -> i <> 215 ->
     rejects parse_action ([false; b6] ++ Zbits 6 50 ++ Zbits 8 i) (if i =? 0 then AssertNoMsg else ValueError)).
Proof. exact refused_interface. Qed.
Print Assumptions C16_unknown_interfaces_refused.
Theorem C16_constructible_but_unparsable : exists a b c, action_ser a = Ok [0] /\ action_ser b = Ok [2; 7] /\ 
  (exists rest, action_ser c = Ok (6 :: rest)) /\
  rejects parse_action (Zbits 8 0) ParseError /\ rejects parse_action (Zbits 8 2) ParseError
  /\ rejects parse_action (Zbits 8 6) ParseError.
Proof. exact unparsable_requests. Qed.
Print Assumptions C16_constructible_but_unparsable.
Example C16_case : 
  let a := mkAction (Regular true false) (ReadFileData (mkDataRequest (mkOffset 64 (mkLength 100)) (mkLength 8))) in
  action_wf a /\ action_ser a = Ok [129; 64; 64; 100; 8].
Proof. split; [unfold action_wf, op_wf, dr_wf, off_wf, len_wf, len_max; cbn; lia | reflexivity]. Qed.
Example C16_case_forward :
  let a := mkAction (Regular false true) (Forward (mkIC IF_D7ASP (Some (CfgD7 conf_default)))) in
  action_wf a /\ action_received a <> a.
Proof. split; [vm_compute; repeat split; discriminate | discriminate]. Qed.

(** C17 *)
Theorem C17_empty_data_dropped : forall b7 b6 o d, op_wf o -> (o = WriteFileData d \/ exists p, o = ReturnFileData d p) ->
  exists bs, action_ser (mkAction (Regular b7 b6) o) = Ok bs /\ Forall is_byte bs
   /\ (d_data d = [] <-> length bs = 1%nat)
   /\ (d_data d <> [] -> bytes_bits bs = act_bits b7 b6 o)
   /\ (d_data d = [] -> bytes_bits bs = [b7; b6] ++ Zbits 6 (opcode o)).
Proof. exact empty_data_one_byte. Qed.
Print Assumptions C17_empty_data_dropped.
Theorem C17_empty_data_misparsed : forall b7 b6 d d' bs, data_wf d -> d_data d = [] -> data_wf d' ->
  action_ser (mkAction (Regular b7 b6) (WriteFileData d)) = Ok bs ->
  accepts parse_action (bytes_bits bs ++ data_layout d') (Some (mkAction (Regular b7 b6) (WriteFileData d'))).
Proof. exact empty_write_misparsed. Qed.
Print Assumptions C17_empty_data_misparsed.
Theorem C17_empty_data_round_trip_refuted : exists d, data_wf d /\
  ~ emits (action_ser (mkAction (Regular false false) (WriteFileData d))) (act_bits false false (WriteFileData d)).
Proof. exact empty_data_refuted. Qed.
Print Assumptions C17_empty_data_round_trip_refuted.
Example C17_case : data_wf (mkData (mkOffset 64 (mkLength 0)) (mkLength 0) [])
  /\ action_ser (mkAction (Regular false false) (WriteFileData (mkData (mkOffset 64 (mkLength 0)) (mkLength 0) []))) = Ok [4].
Proof. split; [unfold data_wf, off_wf, len_wf, len_max; cbn; repeat split; try lia; constructor | reflexivity]. Qed.

(** C18 *)
Theorem C18_length_round_trip : codec len_wf len_layout length_ser length_parse.
Proof. exact len_codec. Qed.
Print Assumptions C18_length_round_trip.
Theorem C18_length_shortest : forall k v, len_fits k v -> (len_k v <= k)%nat.
Proof. exact len_k_shortest. Qed.
Print Assumptions C18_length_shortest.
Theorem C18_length_accepts_any_form : forall k v, len_fits k v -> accepts length_parse (len_form k v) (mkLength v).
Proof. exact len_form_accepts. Qed.
Print Assumptions C18_length_accepts_any_form.
Theorem C18_length_parsed : forall s l s', length_parse s = Ok (l, s') ->
  exists k, len_fits k (len_value l) /\ bits s = len_form k (len_value l) ++ bits s'
            /\ pos s' = (pos s + 8 * (k + 1))%nat.
Proof. exact length_inv. Qed.
Print Assumptions C18_length_parsed.
Theorem C18_length_range : forall k v, len_fits k v -> 0 <= v <= len_max.
Proof. exact len_fits_max. Qed.
Print Assumptions C18_length_range.
Theorem C18_length_prefix_free : forall l1 l2 r1 r2, len_wf l1 -> len_wf l2 ->
  len_layout l1 ++ r1 = len_layout l2 ++ r2 -> l1 = l2 /\ r1 = r2.
Proof. exact len_prefix_free. Qed.
Print Assumptions C18_length_prefix_free.
Theorem C18_length_constructor : forall v, (mk_length v = Ok (mkLength v) <-> 0 <= v <= len_max)
  /\ (~ (0 <= v <= len_max) -> mk_length v = Err ValueError).
Proof. exact mk_length_iff. Qed.
Print Assumptions C18_length_constructor.
Example C18_case : length_ser (mkLength 63) = Ok [63] /\ length_ser (mkLength 64) = Ok [64; 64]
  /\ length_ser (mkLength 16384) = Ok [128; 64; 0] /\ length_ser (mkLength len_max) = Ok [255; 255; 255; 255]
  /\ len_fits 1 5 /\ len_form 1 5 <> len_layout (mkLength 5).
Proof. vm_compute. repeat split; try reflexivity; try discriminate; repeat constructor. Qed.

(** C19 *)
Theorem C19_parsed_command : forall n bs c s', alp_parse n (stream_of bs) = Ok (c, s') ->
  exists l, reads (stream_of bs) (map Some l) s' /\ one_tag l /\ one_status l
  /\ c_actions c = filter plain l
  /\ c_status c = hd_error (filter is_status l)
  /\ (forall t, c_tag c = Some t <->
     (exists r, In (mkAction (TagReqAct r) (TagRequest (mkTag t))) l)
     \/ (exists e x, In (mkAction (TagRespAct e x) (TagResponse (mkTag t))) l))
  /\ (c_completed c = true <-> exists x t, In (mkAction (TagRespAct true x) (TagResponse t)) l)
  /\ (forall x, c_error c = Some x <-> exists e t, In (mkAction (TagRespAct e x) (TagResponse t)) l)
  /\ (c_respond c = false <-> exists t, In (mkAction (TagReqAct false) (TagRequest t)) l).
Proof. exact parsed_command. Qed.
Print Assumptions C19_parsed_command.
Theorem C19_parse_of_actions : forall s l s', reads s (map Some l) s' -> (pos s mod 8 = 0)%nat ->
  alp_parse (Z.of_nat (pos s' - pos s) / 8) s =
  if (length (filter is_tag l) <=? 1)%nat && (length (filter is_status l) <=? 1)%nat
  then Ok (command_of false None true l, s') else Err ParseError.
Proof. exact alp_two. Qed.
Print Assumptions C19_parse_of_actions.
Theorem C19_action_status_refused : forall s l s', reads s l s' -> In None l -> (pos s mod 8 = 0)%nat ->
  exists e, alp_parse (Z.of_nat (pos s' - pos s) / 8) s = Err e /\ (e = ValueError \/ e = ParseError).
Proof. exact alp_action_status. Qed.
Print Assumptions C19_action_status_refused.
Example C19_case : exists c s', alp_parse 6 (stream_of [163; 7; 32; 64; 0; 0]) = Ok (c, s')
  /\ c_tag c = Some 7 /\ c_completed c = true /\ c_error c = Some false /\ length (c_actions c) = 1%nat.
Proof. eexists _, _. vm_compute. repeat split; reflexivity. Qed.
Example C19_case_two_tags : alp_parse 4 (stream_of [163; 7; 52; 9]) = Err ParseError
  /\ exists l s', reads (stream_of [163; 7; 52; 9]) (map Some l) s' /\ length (filter is_tag l) = 2%nat.
Proof. exact two_tags. Qed.

(** C20 *)
Theorem C20_received_command : forall ls acts, Forall2 incoming ls acts -> one_tag acts -> one_status acts ->
  accepts_aligned (alp_parse (zlen (concat ls) / 8)) (concat ls) (command_of false None true acts).
Proof. exact incoming_command. Qed.
Print Assumptions C20_received_command.
Theorem C20_reserialization_identity_iff : forall ls acts,
  Forall2 incoming ls acts -> one_status acts -> existsb is_forward acts = false ->
  (emits (command_ser (command_of false None true acts)) (concat ls) <-> Forall reserializable acts).
Proof. exact reser_identity. Qed.
Print Assumptions C20_reserialization_identity_iff.
Theorem C20_reserialization : forall ls acts,
  Forall2 incoming ls acts -> one_status acts -> existsb is_forward acts = false ->
  emits (command_ser (command_of false None true acts))
        (flat_map contribution (filter is_status acts) ++ flat_map contribution (filter plain acts)).
Proof. exact reser_emits. Qed.
Print Assumptions C20_reserialization.
Theorem C20_reserialization_succeeds_iff : forall n s c s', (pos s mod 8 = 0)%nat -> alp_parse n s = Ok (c, s') ->
  ((exists bs, command_ser c = Ok bs) <->
   existsb is_forward (c_actions c) = false /\ match c_status c with Some a => bodyless a = false | None => True end).
Proof. exact reser_total. Qed.
Print Assumptions C20_reserialization_succeeds_iff.
Theorem C20_reserialization_failure : forall n s c s' e, (pos s mod 8 = 0)%nat -> alp_parse n s = Ok (c, s') -> command_ser c = Err e ->
  e = match c_status c with Some a => if bodyless a then TypeError else AttributeError | None => AttributeError end.
Proof. exact reser_fails. Qed.
Print Assumptions C20_reserialization_failure.
Theorem C20_reserialization_refuted : exists bs c s' bs', alp_parse 6 (stream_of bs) = Ok (c, s') /\ bits s' = []
  /\ command_ser c = Ok bs' /\ bs' <> bs.
Proof. exact reser_refuted. Qed.
Print Assumptions C20_reserialization_refuted.
Example C20_case : exists ls acts, Forall2 incoming ls acts /\ one_tag acts /\ one_status acts
  /\ existsb is_forward acts = false /\ length acts = 3%nat /\ ~ Forall reserializable acts.
Proof. exact incoming_case. Qed.

(** C21 *)
Theorem C21_read : forall rnd id len off t conf, 0 <= rnd <= 255 -> conf_ok t conf ->
  0 <= id <= 255 -> 0 <= off <= len_max -> 0 <= len <= len_max ->
  creates (create_read rnd id len off t conf) rnd t conf
    (act_bits false false (ReadFileData (mkDataRequest (mkOffset id (mkLength off)) (mkLength len)))).
Proof. exact create_read_ok. Qed.
Print Assumptions C21_read.
Theorem C21_read_refused : forall rnd id len off t conf,
  ~ (0 <= id <= 255 /\ 0 <= off <= len_max /\ 0 <= len <= len_max) ->
  create_read rnd id len off t conf = Err ValueError.
Proof. exact create_read_bad. Qed.
Print Assumptions C21_read_refused.
Theorem C21_write : forall rnd id bs off t conf, 0 <= rnd <= 255 -> conf_ok t conf ->
  0 <= id <= 255 -> 0 <= off <= len_max -> Forall is_byte bs -> zlen bs <= len_max -> bs <> [] ->
  creates (create_write rnd id bs off t conf) rnd t conf
    (act_bits false false (WriteFileData (mkData (mkOffset id (mkLength off)) (mkLength (zlen bs)) bs))).
Proof. exact create_write_ok. Qed.
Print Assumptions C21_write.
Theorem C21_return : forall rnd id bs off tag t conf tagv, 0 <= tagv <= 255 ->
  tagv = (match tag with Some x => x | None => rnd end) -> conf_ok t conf ->
  0 <= id <= 255 -> 0 <= off <= len_max -> Forall is_byte bs -> zlen bs <= len_max -> bs <> [] ->
  creates (create_return rnd id bs off tag t conf) tagv t conf
    (act_bits false false (mk_return_file_data (mkData (mkOffset id (mkLength off)) (mkLength (zlen bs)) bs))).
Proof. exact create_return_ok. Qed.
Print Assumptions C21_return.
Theorem C21_read_header : forall rnd id t conf, 0 <= rnd <= 255 -> conf_ok t conf -> 0 <= id <= 255 ->
  creates (create_read_header rnd id t conf) rnd t conf (act_bits false false (ReadFileHeader (mkFileId id))).
Proof. exact create_read_header_ok. Qed.
Print Assumptions C21_read_header.
Theorem C21_write_header : forall rnd id h t conf, 0 <= rnd <= 255 -> conf_ok t conf -> 0 <= id <= 255 -> fh_wf h ->
  creates (create_write_header rnd id h t conf) rnd t conf (act_bits false false (WriteFileHeader (mkFHO id h))).
Proof. exact create_write_header_ok. Qed.
Print Assumptions C21_write_header.
Theorem C21_create_new_file : forall rnd id h t conf, 0 <= rnd <= 255 -> conf_ok t conf -> 0 <= id <= 255 -> fh_wf h ->
  creates (create_new_file rnd id h t conf) rnd t conf (act_bits false false (CreateNewFile (mkFHO id h))).
Proof. exact create_new_file_ok. Qed.
Print Assumptions C21_create_new_file.
Theorem C21_host_takes_no_configuration : forall rnd tag c op, factory rnd tag IF_HOST (Some c) op = Err ValueError.
Proof. exact factory_host. Qed.
Print Assumptions C21_host_takes_no_configuration.
Example C21_case : (let! c := create_read 17 64 8 0 IF_D7ASP None in command_ser c)
  = Ok [180; 17; 50; 215; 0; 0; 16; 0; 1; 64; 0; 8].
Proof. vm_compute. reflexivity. Qed.

(** C22 *)
Theorem C22_generated_tag : forall rnd l t r c, 0 <= rnd <= 255 -> match t with Some x => 0 <= x <= 255 | None => True end ->
  Forall (fun a => is_tag a = false) l ->
  mk_command rnd (map Some l) true t r = Ok c ->
  exists v, c_tag c = Some v /\ 0 <= v <= 255 /\ v = (match t with Some x => x | None => rnd end) /\
   forall bs, command_ser c = Ok bs -> exists rest, bytes_bits bs = tag_bits (c_respond c) v ++ rest.
Proof. exact generated_tag. Qed.
Print Assumptions C22_generated_tag.
Theorem C22_no_tag_request : forall c, command_wf c -> c_generate c = false ->
  emits (command_ser c) (flat_map action_layout (c_actions c)).
Proof. exact ungenerated. Qed.
Print Assumptions C22_no_tag_request.
Theorem C22_command_bytes : forall c, command_wf c -> emits (command_ser c) (command_layout c).
Proof. exact command_emits. Qed.
Print Assumptions C22_command_bytes.
Example C22_case : (let! c := mk_command 200 (map Some [mkAction (Regular false false) NoOperation]) true None true in command_ser c)
  = Ok [180; 200; 0].
Proof. vm_compute. reflexivity. Qed.

(** C34 *)
Theorem C34_query_serialized : forall q, query_wf q -> emits (query_ser q) (query_layout q).
Proof. exact query_emits. Qed.
Print Assumptions C34_query_serialized.
Theorem C34_query_round_trip : forall q, query_wf q -> query_supported q -> accepts query_parse (query_layout q) q.
Proof. exact query_accepts. Qed.
Print Assumptions C34_query_round_trip.
Theorem C34_query_unsupported : forall q, query_wf q -> q_type q <> Q_COMP_VALUE \/ q_mask q = true ->
  rejects query_parse (query_layout q) AssertNoMsg.
Proof. exact query_refused. Qed.
Print Assumptions C34_query_unsupported.
Theorem C34_query_wrong_length_refuted : exists q, query_wf q /\ q_type q = Q_COMP_VALUE /\ q_mask q = false
  /\ ~ accepts query_parse (query_layout q) q /\ mk_query (q_type q) (q_mask q) (q_params q) (q_compare_length q) (q_compare_value q) (q_file_a q) = Ok q.
Proof. exact query_wrong_length. Qed.
Print Assumptions C34_query_wrong_length_refuted.
Theorem C34_query_survives_iff : forall q, query_wf q ->
  (accepts query_parse (query_layout q) q <-> query_supported q).
Proof. exact query_iff. Qed.
Print Assumptions C34_query_survives_iff.
Example C34_case : let q := mkQuery Q_COMP_VALUE false (mkArith true C_GT) (mkLength 2) [1; 44] (mkOffset 32 (mkLength 1)) in
  query_wf q /\ query_supported q /\ query_ser q = Ok [76; 2; 1; 44; 32; 1].
Proof.
  refine (conj _ (conj _ _)); [| repeat split | reflexivity].
  unfold query_wf, len_wf, off_wf, len_wf, len_max; cbn. repeat split; try lia. repeat constructor; lia.
Qed.
