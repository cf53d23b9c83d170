(** C108: the modem on a line that damages frames. *)
From Verif Require Import SCounted LDamage PConverse.
Open Scope list_scope.
Open Scope Z_scope.

(** What has arrived determines which frames are complete, and there always is
    an answer *)
Theorem C108_come : forall l bytes more, bytes ++ more = arriving l ->
  exists l1 rest, come l bytes l1 rest /\ forall l1' rest', come l bytes l1' rest' -> l1' = l1 /\ rest' = rest.
Proof.
  intros l bytes more E. destruct (come_exists l bytes more E) as (l1 & rest & A). exists l1, rest. split; [exact A|].
  intros l1' rest' A'. exact (come_function l bytes l1' rest' l1 rest A' A).
Qed.
Print Assumptions C108_come.

(** Any number of calls of parse: at any time the good frames that are complete
    have been returned, and the damaged ones that are complete reported; no good
    frame waits for what comes after a damaged one. *)
Theorem C108_calls : forall lib chunks p l more, Forall (arrival_ok (sp_skip p)) l -> begun l (sp_buf p) ->
  (sp_buf p ++ concat chunks) ++ more = arriving l ->
  exists l1 p', come l (sp_buf p ++ concat chunks) l1 (sp_buf p') /\ feeds lib p chunks p' (delivered (accepted l1)) (refused l1)
  /\ sp_skip p' = sp_skip p /\ sp_up p' = sp_up p.
Proof. exact feeds_come. Qed.
Print Assumptions C108_calls.

(** The modem: its reader survives, and at any time it has handled exactly the
    good frames whose last byte has been read *)
Theorem C108_modem : forall lib s l chunks more, in_use s -> Forall (arrival_ok false) l -> concat chunks ++ more = arriving l ->
  let s2 := devices lib s (map DBytes chunks) in
  alive s2 = true /\ exists l1, come l (concat chunks) l1 (sp_buf (r_parser (se_reader s2)))
  /\ r_modem (se_reader s2) = handled (r_modem (se_reader s)) (delivered (accepted l1)).
Proof. exact session_come. Qed.
Print Assumptions C108_modem.
(** in both modes (bridge: payloads unparsed), for any reader that runs *)
Theorem C108_reader : forall lib chunks r l, r_alive r = true -> Forall (arrival_ok (sp_skip (r_parser r))) l -> sp_buf (r_parser r) = [] ->
  forall more, concat chunks ++ more = arriving l ->
  let r2 := read_chunks lib r chunks in
  r_alive r2 = true /\ exists l1, come l (concat chunks) l1 (sp_buf (r_parser r2))
  /\ r_modem r2 = handled (r_modem r) (delivered (accepted l1)).
Proof. exact reader_good. Qed.
Print Assumptions C108_reader.
(** as if the damaged frames had not been sent *)
Theorem C108_same_as_undamaged : forall lib s l chunks chunks', in_use s -> Forall (arrival_ok false) l ->
  concat chunks = arriving l -> concat chunks' = wire (accepted l) ->
  r_modem (se_reader (devices lib s (map DBytes chunks))) = r_modem (se_reader (devices lib s (map DBytes chunks'))).
Proof. exact same_undamaged. Qed.
Print Assumptions C108_same_as_undamaged.

(** execute_command: answered with the last byte of the first good reply that
    ends the execution *)
Theorem C108_result : forall lib s c timeout l chunks more, in_use s -> command_wf c -> command_bytes c <= 255 -> 0 < timeout ->
  Forall (arrival_ok false) l -> concat chunks ++ more = arriving l ->
  exists s1, execute s c timeout = (s1, Ok tt) /\
  let s2 := devices lib s1 (map DBytes chunks) in
  exists l1, come l (concat chunks) l1 (sp_buf (r_parser (se_reader s2))) /\
     let x := mkExchange c timeout (accepted l1) chunks in
     execute_result s2 = expected x /\ answered s2 = existsb ends_execution (replies x).
Proof. exact result_come. Qed.
Print Assumptions C108_result.
(** a final answer that is damaged is none: the caller waits on, and gets an
    empty list, also if intermediate answers were good *)
Theorem C108_damaged_answer : forall lib s c timeout l chunks, in_use s -> command_wf c -> command_bytes c <= 255 -> 0 < timeout ->
  Forall (arrival_ok false) l -> concat chunks = arriving l ->
  existsb ends_execution (replies (mkExchange c timeout (accepted l) chunks)) = false ->
  exists s1, execute s c timeout = (s1, Ok tt) /\
  let s2 := devices lib s1 (map DBytes chunks) in answered s2 = false /\ execute_result s2 = [].
Proof. exact answer_hurt. Qed.
Print Assumptions C108_damaged_answer.

(** Whole conversations: each call returns what the damage has left of its
    replies, and what else was left goes where it belongs *)
Theorem C108_results : forall lib s xs, in_use s -> Forall exchange_hurt xs ->
  snd (converse lib s xs) = map (fun x => Ok (expected x)) xs /\ in_use (fst (converse lib s xs)).
Proof. exact hurt_results. Qed.
Print Assumptions C108_results.
Theorem C108_other_messages : forall lib s xs, in_use s -> Forall exchange_hurt xs ->
  let s2 := fst (converse lib s xs) in
  session_inbox PCallback s2 = session_inbox PCallback s ++ (if to_callback s then flat_map others xs else [])
  /\ session_inbox PUnsolicited s2 = session_inbox PUnsolicited s ++ (if to_callback s then [] else flat_map others xs)
  /\ session_inbox PRebootCallback s2 = session_inbox PRebootCallback s ++ (if to_reboot_callback s then flat_map (of_type 5) xs else [])
  /\ session_inbox PReboots s2 = session_inbox PReboots s ++ (if to_reboot_callback s then [] else flat_map (of_type 5) xs)
  /\ session_inbox PLog s2 = session_inbox PLog s ++ flat_map (of_type 4) xs.
Proof. exact hurt_others. Qed.
Print Assumptions C108_other_messages.

(** and the other side gets every command, whatever happens to its answers *)
Theorem C108_peer_receives : forall lib lib' s xs q chunks, in_use s -> Forall exchange_hurt xs ->
  sp_skip q = false -> sp_buf q = [] -> is_byte (sp_down q) -> chunks <> [] ->
  se_sent (fst (converse lib s xs)) = se_sent s ++ concat chunks ->
  exists q', feeds lib' q chunks q' (map (fun x => (1, MCmd (command_received (x_command x)))) xs) []
  /\ sp_buf q' = [] /\ (in_step (r_parser (se_reader s)) q -> sp_errs q' = sp_errs q).
Proof. exact hurt_peer. Qed.
Print Assumptions C108_peer_receives.

(** If commands are damaged on their way too: it gets exactly those that are
    not, in order, reports each of the others once, and counts no loss *)
Theorem C108_commands_lost : forall lib lib' s xs q, in_use s -> Forall exchange_hurt xs ->
  sp_skip q = false -> sp_buf q = [] -> is_byte (sp_down q) ->
  exists tr, se_sent (fst (converse lib s xs)) = se_sent s ++ wire tr /\ Forall (sent_ok false) tr
  /\ delivered tr = map (fun x => (1, MCmd (command_received (x_command x)))) xs
  /\ forall good l chunks, crossed good tr l -> concat chunks = arriving l -> chunks <> [] ->
     exists q' es, feeds lib' q chunks q' (marked good (map (fun x => (1, MCmd (command_received (x_command x)))) xs)) es
     /\ length es = length (filter negb good) /\ sp_buf q' = [] /\ (in_step (r_parser (se_reader s)) q -> sp_errs q' = sp_errs q).
Proof. exact commands_lost. Qed.
Print Assumptions C108_commands_lost.

(** Two calls: the final answer to the first is damaged (tag 7 became 5), so that
    it returns nothing; a good frame after it is kept; the second is answered. *)
Definition hurt_line : list Arrival :=
  [Hurt (mkHit 0 1 17 34 [163; 5]); Whole (mkSent 1 4 [73] (MRaw [73]))].
Definition C108_answer : Sent := mkSent 2 1 [163; 9] (MCmd (reply_seen 9 (mkReply true false []))).
Definition C108_exchanges : list Exchange :=
  [mkExchange (read0 7) 10 (accepted hurt_line) [firstn 12 (arriving hurt_line); []; skipn 12 (arriving hurt_line)];
   mkExchange (read0 9) 10 [C108_answer] [sent_frame C108_answer]].
Example C108_case : Forall exchange_hurt C108_exchanges /\ in_use (new_session false true false)
  /\ map expected C108_exchanges = [[]; [MCmd (reply_seen 9 (mkReply true false []))]] /\ flat_map (of_type 4) C108_exchanges = [MRaw [73]].
Proof.
  assert (W : forall t, 0 <= t <= 255 -> command_wf (read0 t)).
  { intros t H. unfold command_wf, read0. cbn [c_actions c_status c_generate c_tag]. repeat split; try reflexivity.
    - constructor; [|constructor]. split; [|exact I]. cbn. unfold dr_wf, off_wf, len_wf, len_max. cbn. lia.
    - intros _. eauto. }
  split; [|split; [|vm_compute; auto]].
  - constructor; [|constructor; [|constructor]].
    + refine (conj (W 7 ltac:(lia)) (conj _ (conj _ _))); [vm_compute; discriminate | cbn; lia |].
      exists hurt_line. split; [|split; [vm_compute; reflexivity | reflexivity]].
      repeat constructor; try (vm_compute; discriminate); try (vm_compute; congruence); try (intros; apply carries_logging).
    + refine (conj (W 9 ltac:(lia)) (conj _ (conj _ _))); [vm_compute; discriminate | cbn; lia |].
      exists [Whole C108_answer]. split; [|split; [vm_compute; reflexivity | reflexivity]].
      constructor; [|constructor]. destruct (LConverse.reply_exists 9 (mkReply true false [])) as (c & C).
      assert (O : reply_ok 9 (mkReply true false [])) by (refine (conj _ (conj (Forall_nil _) (conj eq_refl _))); [lia | cbn; lia]).
      destruct (LConverse.reply_transmits 9 _ c O C) as (bs & E & P & K). apply LConverse.reply_shape in C. subst c.
      assert (bs = [163; 9]) as -> by (vm_compute in E; congruence).
      unfold arrival_ok, sent_ok, C108_answer. cbn [s_counter s_type s_payload s_msg]. refine (conj _ (conj _ (conj P K))); unfold is_byte; lia.
  - unfold in_use, is_byte. cbn. repeat split; lia.
Qed.
(** one byte short of the damaged frame; then the good one after it short of its
    last byte; then all *)
Example C108_case_come : come hurt_line (firstn 8 (arriving hurt_line)) [] (firstn 8 (arriving hurt_line))
  /\ come hurt_line (firstn 16 (arriving hurt_line)) (firstn 1 hurt_line) (firstn 7 (sent_frame (mkSent 1 4 [73] (MRaw [73]))))
  /\ come hurt_line (arriving hurt_line) hurt_line [].
Proof.
  split; [|split].
  - exists hurt_line. split; [reflexivity|]. split; [vm_compute; reflexivity|]. exists [5]. split; [discriminate | vm_compute; reflexivity].
  - exists (skipn 1 hurt_line). split; [reflexivity|]. split; [vm_compute; reflexivity|]. exists [73]. split; [discriminate | vm_compute; reflexivity].
  - exists []. split; [reflexivity|]. split; vm_compute; reflexivity.
Qed.
Example C108_case_bridge : let r := mkReader (new_parser true) (new_modem true true true) true in
  Forall (arrival_ok (sp_skip (r_parser r))) hurt_line /\ sp_buf (r_parser r) = [].
Proof.
  split; [|reflexivity].
  repeat constructor; try (vm_compute; discriminate); try (vm_compute; congruence); try (intros; apply carries_logging).
Qed.
(** the first of two commands arrives with a changed byte *)
Definition C108_sent : list Sent :=
  [mkSent 0 1 [180; 7; 1; 0; 0; 8] (MCmd (command_received (read0 7))); mkSent 1 1 [180; 9; 1; 0; 0; 8] (MCmd (command_received (read0 9)))].
Example C108_case_lost : exists l,
  se_sent (fst (converse true (new_session false true false) C108_exchanges)) = wire C108_sent
  /\ crossed [false; true] C108_sent l /\ accepted l = skipn 1 C108_sent
  /\ arriving l = firstn 9 (wire C108_sent) ++ [2] ++ skipn 10 (wire C108_sent)
  /\ in_step (r_parser (se_reader (new_session false true false))) (mkSP [] false 0 255 0).
Proof.
  exists [Hurt (mkHit 0 1 99 117 [180; 7; 2; 0; 0; 8]); Whole (mkSent 1 1 [180; 9; 1; 0; 0; 8] (MCmd (command_received (read0 9))))].
  split; [vm_compute; reflexivity|]. split; [|split; [reflexivity|split; vm_compute; reflexivity]].
  apply crossed_hurt; [|reflexivity|].
  - repeat constructor; try (vm_compute; discriminate); vm_compute; congruence.
  - apply crossed_whole, crossed_nil.
Qed.
(** connect(): the same result, and the same modem afterwards, as with the good
    frames alone *)
Theorem C108_connect : forall lib rnd s l chunks chunks', 0 <= rnd <= 255 -> in_use s -> connected s = false ->
  Forall (arrival_ok false) l -> concat chunks = arriving l -> concat chunks' = wire (accepted l) ->
  exists s1, connect_begin rnd true s = (s1, Waiting) /\
  let x := connect_end (devices lib s1 (map DBytes chunks)) in let y := connect_end (devices lib s1 (map DBytes chunks')) in
  snd x = snd y /\ r_modem (se_reader (fst x)) = r_modem (se_reader (fst y)) /\ se_uid (fst x) = se_uid (fst y) /\ se_fw (fst x) = se_fw (fst y).
Proof. exact connect_damaged. Qed.
Print Assumptions C108_connect.
(** so that a damaged answer makes it return false, and the modem is not connected *)
Theorem C108_connect_lost : forall lib rnd s l chunks, 0 <= rnd <= 255 -> in_use s -> connected s = false ->
  Forall (arrival_ok false) l -> concat chunks = arriving l ->
  existsb (fun tx => is_reply (Some rnd) tx && ends_execution (snd tx)) (delivered (accepted l)) = false ->
  exists s1, connect_begin rnd true s = (s1, Waiting) /\
  let x := connect_end (devices lib s1 (map DBytes chunks)) in snd x = Returned (Some false) /\ connected (fst x) = false.
Proof. exact connect_lost. Qed.
Print Assumptions C108_connect_lost.
Example C108_case_connect : in_use (new_session false true false) /\ connected (new_session false true false) = false
  /\ existsb (fun tx => is_reply (Some 5) tx && ends_execution (snd tx)) (delivered (accepted hurt_line)) = false.
Proof. split; [unfold in_use, is_byte; cbn; repeat split; lia|]. split; vm_compute; reflexivity. Qed.
