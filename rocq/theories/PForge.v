(** C91: frames in the payload of a frame *)
From Verif Require Import SForge LForge.
Open Scope list_scope.
Open Scope Z_scope.

(** Whoever writes a file can put frames into a payload: a command that returns
    the content of a file contains it as it is. *)
Theorem C91_content : forall id content, is_byte id -> Forall is_byte content -> content <> [] -> zlen content <= 250 ->
  command_ser (file_content id content) = Ok (content_head id content ++ content)
  /\ is_payload (content_head id content ++ content)
  /\ forall c, is_byte c ->
      sent_ok false (mkSent c 1 (content_head id content ++ content) (MCmd (command_received (file_content id content)))).
Proof. exact content_sent. Qed.
Print Assumptions C91_content.
(** If the frame arrives as it was sent, the frames inside are content and
    nothing else. *)
Theorem C91_undamaged : forall lib p chunks c id forged traffic,
  Forall (sent_ok false) forged -> forged <> [] -> zlen (wire forged) <= 250 ->
  is_byte c -> is_byte id -> Forall (sent_ok false) traffic -> sp_skip p = false -> is_byte (sp_down p) ->
  sp_buf p ++ concat chunks = frame c 1 (content_head id (wire forged) ++ wire forged) ++ wire traffic -> chunks <> [] ->
  exists p', feeds lib p chunks p' ((1, MCmd (command_received (file_content id (wire forged)))) :: delivered traffic) []
    /\ sp_buf p' = [].
Proof. exact undamaged. Qed.
Print Assumptions C91_undamaged.
(** Not so if what is in front of them is hit, or missing because the receiver
    starts late: then they are delivered, and the message around them is not. *)
Theorem C91_content_stays_content_refuted : forall lib p chunks c t a forged b traffic d,
  Forall (sent_ok (sp_skip p)) forged -> Forall (sent_ok (sp_skip p)) traffic -> is_byte c -> is_byte t ->
  is_payload (a ++ wire forged ++ b) -> no_c0 b -> (forged = [] -> b = []) ->
  broken (front c t a (wire forged ++ b)) d ->
  sp_buf p ++ concat chunks = d ++ wire forged ++ b ++ wire traffic -> chunks <> [] ->
  exists p' errs, feeds lib p chunks p' (delivered (forged ++ traffic)) errs /\ sp_buf p' = []
    /\ Forall (fun e => pe_exn e = ParseError) errs.
Proof. exact broken_forged. Qed.
Print Assumptions C91_content_stays_content_refuted.
(** [front] is the beginning of the frame; without its first byte it is broken,
    if no other 0xC0 is in it *)
Theorem C91_front : forall c t a rest, frame c t (a ++ rest) = front c t a rest ++ rest.
Proof. exact front_split. Qed.
Print Assumptions C91_front.
Theorem C91_first_byte_missing : forall c t a rest, no_c0 (tl (front c t a rest)) ->
  broken (front c t a rest) (tl (front c t a rest)).
Proof. exact front_late. Qed.
Print Assumptions C91_first_byte_missing.
(** The same with a modem that waits for the answer to a command: what the call
    returns and what the callback gets is as if the forged frames had been sent. *)
Theorem C91_modem : forall lib s k timeout chunks c t a forged b traffic d,
  in_use s -> command_wf k -> command_bytes k <= 255 -> 0 < timeout ->
  Forall (sent_ok false) forged -> Forall (sent_ok false) traffic -> is_byte c -> is_byte t ->
  is_payload (a ++ wire forged ++ b) -> no_c0 b -> forged <> [] ->
  broken (front c t a (wire forged ++ b)) d -> concat chunks = d ++ wire forged ++ b ++ wire traffic ->
  let x := mkExchange k timeout (forged ++ traffic) chunks in
  let (s2, v) := exchange lib s x in
  v = Ok (expected x)
  /\ session_inbox PCallback s2 = session_inbox PCallback s ++ (if to_callback s then others x else [])
  /\ session_inbox PUnsolicited s2 = session_inbox PUnsolicited s ++ (if to_callback s then [] else others x).
Proof. exact modem_forged. Qed.
Print Assumptions C91_modem.
(** So the call returns, as the answer to its command, what somebody has put into
    the content of a message that was damaged. *)
Theorem C91_answer_refuted : forall lib s k timeout chunks c t a b d n tag r bs,
  in_use s -> command_wf k -> command_bytes k <= 255 -> 0 < timeout -> c_tag k = Some tag ->
  sent_ok false (mkSent n 1 bs (MCmd (reply_seen tag r))) -> re_eop r = true -> is_byte c -> is_byte t ->
  is_payload (a ++ frame n 1 bs ++ b) -> no_c0 b ->
  broken (front c t a (frame n 1 bs ++ b)) d -> concat chunks = d ++ frame n 1 bs ++ b ->
  snd (exchange lib s (mkExchange k timeout [] chunks)) = Ok [MCmd (reply_seen tag r)].
Proof. exact forged_answer. Qed.
Print Assumptions C91_answer_refuted.

(** somebody has written a complete answer with tag 7 into file 70; a modem reads
    file 65 with tag 7, and one bit is hit in an unsolicited message with the
    content of file 70 *)
Definition planted : list Z := frame 0 1 [163; 7; 32; 64; 0; 1; 5].
Definition planted_reply : Reply :=
  mkReply true false [mkAction (Regular false false) (ReturnFileData (mkData (mkOffset 64 (mkLength 0)) (mkLength 1) [5]) None)].
Definition read_65 : Command :=
  mkCommand [mkAction (Regular false false) (ReadFileData (mkDataRequest (mkOffset 65 (mkLength 0)) (mkLength 1)))] None true (Some 7) true false None.
Example C91_case : front 3 1 (content_head 70 planted) planted = [192; 0; 3; 1; 18; 90; 131; 32; 70; 0; 14]
  /\ broken (front 3 1 (content_head 70 planted) planted) [192; 0; 3; 1; 18; 90; 130; 32; 70; 0; 14]
  /\ broken (front 3 1 (content_head 70 planted) planted) [192; 0; 3; 1; 18; 90; 131; 32; 71; 0; 14]
  /\ broken (front 3 1 (content_head 70 planted) planted) [32; 70; 0; 14].
Proof.
  assert (E : front 3 1 (content_head 70 planted) planted = [192; 0; 3; 1; 18; 90; 131; 32; 70; 0; 14]) by (vm_compute; reflexivity).
  rewrite E. refine (conj eq_refl (conj _ (conj _ _))).
  - apply (broken_byte _ _ 6); try lia; [exists [192; 0; 3; 1; 18; 90], 131, 130, [32; 70; 0; 14]; repeat split; discriminate | |].
    + repeat apply Forall_cons; try apply Forall_nil; unfold is_byte; lia.
    + repeat apply Forall_cons; try apply Forall_nil; discriminate.
  - apply (broken_byte _ _ 8); try lia; [exists [192; 0; 3; 1; 18; 90; 131; 32], 70, 71, [0; 14]; repeat split; discriminate | |].
    + repeat apply Forall_cons; try apply Forall_nil; unfold is_byte; lia.
    + repeat apply Forall_cons; try apply Forall_nil; discriminate.
  - apply broken_late; [exists [192; 0; 3; 1; 18; 90; 131]; split; [reflexivity | discriminate]|].
    repeat apply Forall_cons; try apply Forall_nil; discriminate.
Qed.
Example C91_case_modem : forall lib, in_use (new_session false true false)
  /\ snd (exchange lib (new_session false true false)
        (mkExchange read_65 10 [] [[192; 0; 3; 1; 18; 90; 131; 32; 70; 0; 14] ++ planted])) = Ok []
  /\ snd (exchange lib (new_session false true false)
        (mkExchange read_65 10 [] [[192; 0; 3; 1; 18; 90; 130; 32; 70; 0; 14] ++ planted])) = Ok [MCmd (reply_seen 7 planted_reply)].
Proof.
  intros lib. split; [unfold in_use, is_byte; cbn; repeat split; lia|]. destruct lib; vm_compute; split; reflexivity.
Qed.
