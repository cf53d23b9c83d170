(** C103: where, and why, the serial parser stops in a payload. *)
From Coq Require Import String.
From Verif Require Import SCause SWhere LWhere LWhere2 LWhere7.
Close Scope string_scope.
Open Scope list_scope.
Open Scope Z_scope.

(** The parser that also tells text and position is the parser of the other
    theorems. *)
Theorem C103_same : forall n s, alp_parse n s = match alp_where n s with Done c s' => Ok (c, s') | Failed e _ _ => Err e end.
Proof. exact alp_agree. Qed.
Print Assumptions C103_same.
(** "pos" is where the decision falls: the payload is refused for what stands
    before it, whatever follows, and for nothing less; *)
Theorem C103_position : forall n s e text p, (pos s mod 8 = 0)%nat -> alp_where n s = Failed e text p -> ~ asks_for_more e ->
  refused_at n s e p /\ forall t, agree_to p s t -> alp_where n t = Failed e text p.
Proof. exact refused. Qed.
Print Assumptions C103_position.
(** there is only one such position. *)
Theorem C103_position_unique : forall n s e p e' p', ~ asks_for_more e -> ~ asks_for_more e' ->
  refused_at n s e p -> refused_at n s e' p' -> e = e' /\ p = p'.
Proof. exact refused_unique. Qed.
Print Assumptions C103_position_unique.
(** Text and position together explain the error: the text is true of the
    action, or the two actions, in front of the position; there is none for
    two causes only. *)
Theorem C103_explains : forall n s e text p, (pos s mod 8 = 0)%nat -> alp_where n s = Failed e text p -> ~ asks_for_more e -> e <> AssertNoMsg ->
  explains n s e text p.
Proof. exact alp_explains. Qed.
Print Assumptions C103_explains.
(** About an action only one text is true at a position. *)
Theorem C103_one_text : forall t k x y, tells_at t k x -> tells_at t k y -> x = y.
Proof. exact tells_one. Qed.
Print Assumptions C103_one_text.
(** So it is in the entries that [parse] returns: those for a header (C95), *)
Theorem C103_header_entry : forall r c, says r c -> error_and_pos r = [(Some (fst (wording c)), snd (wording c))].
Proof. exact entry_header. Qed.
Print Assumptions C103_header_entry.
(** and those for a payload.  [lib] is false for a bit stream library whose
    [read("bool")] does not raise its [ReadError] at the end; see C04. *)
Theorem C103_payload_entry : forall lib p x q rs r, byte_in p -> Forall is_byte x -> parse_rounds lib p x = (q, rs) -> In r rs -> blames_payload r ->
  exists c t payload rest e text k, ro_buffer r = frame c t payload ++ rest /\ map rp_exn (report r) = [e] /\ error_and_pos r = [(text, k)]
  /\ ((lib = false /\ e = BoolEof) \/ explains (zlen payload) (St 56 (bytes_bits (payload ++ rest))) e text k).
Proof. exact entry_payload. Qed.
Print Assumptions C103_payload_entry.

(** a right frame for each text *)
Example C103_case_action : entry_of [63] = [(Some "alp_action 63 is not implemented"%string, 64%nat)]. Proof. vm_compute. reflexivity. Qed.
Example C103_case_second : entry_of [1; 64; 0; 8; 63] = [(Some "alp_action 63 is not implemented"%string, 96%nat)]. Proof. vm_compute. reflexivity. Qed.
Example C103_case_rfu : map entry_of [[162]; [116]; [178]] =
  [[(Some "Status Operand extension 2 and 3 is RFU", 64%nat)]; [(Some "bit 6 is RFU", 64%nat)]; [(Some "bit 7 is RFU", 64%nat)]]%string.
Proof. vm_compute. reflexivity. Qed.
Example C103_case_interface : map entry_of [[98; 7; 0]; [98; 0; 0]] =
  [[(Some "Received ALP Interface status for interface 7 which is not implemented", 80%nat)]; [(Some "'NoneType' object has no attribute 'op'", 80%nat)]]%string.
Proof. vm_compute. reflexivity. Qed.
Example C103_case_classes : map entry_of [[17; 1; 0; 64]; [9; 160]; [9; 70]; [50; 9]; [50; 215; 8]; [50; 215; 3]; [50; 215; 0; 0; 8]; [179; 1; 15]; [98; 215; 12; 16]] =
  [[(Some "4 is not a valid ActionCondition", 84%nat)]; [(Some "5 is not a valid QueryType", 67%nat)]; [(Some "6 is not a valid ArithComparisonType", 72%nat)];
   [(Some "9 is not a valid InterfaceType", 72%nat)]; [(Some "1 is not a valid RetryMode", 77%nat)]; [(Some "3 is not a valid ResponseMode", 80%nat)];
   [(Some "8 is not a valid NlsMethod", 96%nat)]; [(Some "15 is not a valid NlsMethod", 80%nat)]; [(Some "1 is not a valid ChannelBand", 84%nat)]]%string.
Proof. vm_compute. reflexivity. Qed.
Example C103_case_twice : map entry_of [[98; 1; 0; 98; 1; 0]; [35; 5; 52; 6]; [52; 5; 35; 6]] =
  [[(Some "An ALP command can contain one and only one Interface Status action", 104%nat)];
   [(Some "An ALP command can contain one and only one Tag Request Action", 88%nat)];
   [(Some "An ALP command can contain one and only one Tag Response Action", 88%nat)]]%string.
Proof. vm_compute. reflexivity. Qed.
Example C103_case_unsaid : map entry_of [[34]; [98; 215; 12; 32; 0; 0; 200; 10; 30; 0; 1; 2; 3; 16; 0]] = [[(None, 64%nat)]; [(None, 176%nat)]].
Proof. vm_compute. reflexivity. Qed.
