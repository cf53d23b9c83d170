(** Conversations end to end: property C69. *)
From Verif Require Import SConverse LConverse.

(** ** C69 *)
(** any number of synchronous calls on one modem object, any traffic in
    between, any chunking: each call returns the replies with its tag, if one of
    them ends the execution *)
Theorem C69_results : forall lib s xs, in_use s -> Forall exchange_ok xs ->
  snd (converse lib s xs) = map (fun x => Ok (expected x)) xs /\ in_use (fst (converse lib s xs)).
Proof. exact conversation_results. Qed.
Print Assumptions C69_results.
(** nothing else is lost: all other messages, in order, where they belong *)
Theorem C69_other_messages : forall lib s xs, in_use s -> Forall exchange_ok xs ->
  let s2 := fst (converse lib s xs) in
  session_inbox PCallback s2 = session_inbox PCallback s ++ (if to_callback s then flat_map others xs else [])
  /\ session_inbox PUnsolicited s2 = session_inbox PUnsolicited s ++ (if to_callback s then [] else flat_map others xs)
  /\ session_inbox PRebootCallback s2 = session_inbox PRebootCallback s ++ (if to_reboot_callback s then flat_map (of_type 5) xs else [])
  /\ session_inbox PReboots s2 = session_inbox PReboots s ++ (if to_reboot_callback s then [] else flat_map (of_type 5) xs)
  /\ session_inbox PLog s2 = session_inbox PLog s ++ flat_map (of_type 4) xs.
Proof. exact conversation_others. Qed.
Print Assumptions C69_other_messages.
(** the other side, using the same parser on the bytes written, cut anyhow, gets
    exactly the commands, and counts no lost frame *)
Theorem C69_peer_receives : forall lib lib' s xs q chunks, in_use s -> Forall exchange_ok xs ->
  sp_skip q = false -> sp_buf q = [] -> is_byte (sp_down q) -> chunks <> [] ->
  se_sent (fst (converse lib s xs)) = se_sent s ++ concat chunks ->
  exists q', feeds lib' q chunks q' (map (fun x => (1, MCmd (command_received (x_command x)))) xs) []
  /\ sp_buf q' = [] /\ (in_step (r_parser (se_reader s)) q -> sp_errs q' = sp_errs q).
Proof. exact conversation_peer. Qed.
Print Assumptions C69_peer_receives.

(** library on both sides: replies built with add_action and sent with
    build_serial_frame *)
Theorem C69_request_reply : forall lib s c timeout tag rs rcs q fs q' chunks,
  in_use s -> command_wf c -> command_bytes c <= 255 -> 0 < timeout -> c_tag c = Some tag ->
  Forall2 (fun r rc => reply_ok tag r /\ reply_command tag r rc) rs rcs ->
  is_byte (sp_up q) -> sends q (map command_ser rcs) fs q' -> concat chunks = concat fs ->
  exists s1, execute s c timeout = (s1, Ok tt)
  /\ execute_result (devices lib s1 (map DBytes chunks))
     = if existsb re_eop rs then map (fun r => MCmd (reply_seen tag r)) rs else [].
Proof. exact request_reply. Qed.
Print Assumptions C69_request_reply.
Theorem C69_replies_can_be_sent : forall tag rs rcs q,
  Forall2 (fun r rc => reply_ok tag r /\ reply_command tag r rc) rs rcs ->
  is_byte (sp_up q) -> exists fs q', sends q (map command_ser rcs) fs q'.
Proof. exact replies_sendable. Qed.
Print Assumptions C69_replies_can_be_sent.
(** a tag response given to the constructor is not sent: with
    generate_tag_request_action it becomes a tag request, without it nothing *)
Theorem C69_constructor_reply_refuted : forall rnd g tag r c, reply_ok tag r ->
  mk_command rnd (map Some (tag_response tag r :: re_actions r)) g None true = Ok c ->
  transmits false (command_ser c)
    (MCmd (mkCommand (map action_received (re_actions r)) None false (if g then Some tag else None) true false None)).
Proof. exact constructor_reply. Qed.
Print Assumptions C69_constructor_reply_refuted.

(** two calls; while the first waits, a reboot message, an unrelated command and
    two replies come in, cut in the middle of a frame; the second gets nothing *)
Definition read0 (tag : Z) : Command :=
  mkCommand [mkAction (Regular false false) (ReadFileData (mkDataRequest (mkOffset 0 (mkLength 0)) (mkLength 8)))]
            None true (Some tag) true false None.
Example C69_case : exists xs, map x_command xs = [read0 7; read0 9] /\ Forall exchange_ok xs /\ in_use (new_session false true false)
  /\ map expected xs = [[MCmd (reply_seen 7 (mkReply false false [])); MCmd (reply_seen 7 (mkReply true false []))]; []]
  /\ flat_map others xs = [MCmd (reply_seen 8 (mkReply true true []))] /\ flat_map (of_type 5) xs = [MInt 3].
Proof.
  assert (W : forall t, 0 <= t <= 255 -> command_wf (read0 t)).
  { intros t H. unfold command_wf, read0. cbn [c_actions c_status c_generate c_tag]. repeat split; try reflexivity.
    - constructor; [|constructor]. split; [|exact I]. cbn. unfold dr_wf, off_wf, len_wf, len_max. cbn. lia.
    - intros _. eauto. }
  assert (R : forall n t (e x : bool), is_byte n -> 0 <= t <= 255 ->
     sent_ok false (mkSent n 1 [if e then (if x then 227 else 163) else (if x then 99 else 35); t] (MCmd (reply_seen t (mkReply e x []))))).
  { intros n t e x N H. destruct (reply_exists t (mkReply e x [])) as (c & C).
    assert (O : reply_ok t (mkReply e x [])) by (refine (conj H (conj (Forall_nil _) (conj eq_refl _))); cbn; lia).
    destruct (reply_transmits t _ c O C) as (bs & E & P & K). apply reply_shape in C. subst c.
    assert (E2 : command_ser (mkCommand (tag_response t (mkReply e x []) :: re_actions (mkReply e x [])) None false None true false None)
               = Ok [if e then (if x then 227 else 163) else (if x then 99 else 35); t]).
    { destruct e, x; cbn; unfold tag_ser, yield1; cbn [tag_value]; replace ((0 <=? t) && (t <=? 255)) with true by lia; reflexivity. }
    rewrite E2 in E. injection E as <-. unfold sent_ok. cbn [s_counter s_type s_payload s_msg].
    refine (conj N (conj _ (conj P K))). unfold is_byte. lia. }
  pose (t1 := [mkSent 4 1 [35; 7] (MCmd (reply_seen 7 (mkReply false false []))); mkSent 5 5 [3] (MInt 3);
               mkSent 6 1 [227; 8] (MCmd (reply_seen 8 (mkReply true true [])));
               mkSent 7 1 [163; 7] (MCmd (reply_seen 7 (mkReply true false [])))]).
  exists [mkExchange (read0 7) 10 t1 [firstn 12 (wire t1); skipn 12 (wire t1)]; mkExchange (read0 9) 1 [] []].
  split; [reflexivity|]. split; [|split; [|vm_compute; auto]].
  - constructor; [|constructor; [|constructor]].
    + refine (conj (W 7 ltac:(lia)) (conj _ (conj _ (conj _ _)))); [vm_compute; discriminate | cbn; lia | | cbn [x_chunks concat]; rewrite app_nil_r; apply firstn_skipn].
      constructor; [apply (R 4 7 false false); unfold is_byte; lia|].
      constructor; [apply LSend.sent_rebooted; unfold is_byte; lia|].
      constructor; [apply (R 6 8 true true); unfold is_byte; lia|].
      constructor; [apply (R 7 7 true false); unfold is_byte; lia | constructor].
    + refine (conj (W 9 ltac:(lia)) (conj _ (conj _ (conj _ _)))); [vm_compute; discriminate | cbn; lia | constructor | reflexivity].
  - unfold in_use, is_byte. cbn. repeat split; lia.
Qed.
