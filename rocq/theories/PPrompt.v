(** When messages are delivered: property C98. *)
From Verif Require Import SPrompt LPrompt.

(** What has arrived determines which frames are complete, and there always is
    an answer *)
Theorem C98_arrived : forall l bytes more, bytes ++ more = wire l ->
  exists l1 rest, arrived l bytes l1 rest /\ forall l1' rest', arrived l bytes l1' rest' -> l1' = l1 /\ rest' = rest.
Proof.
  intros l bytes more E. destruct (arrived_exists l bytes more E) as (l1 & rest & A). exists l1, rest. split; [exact A|].
  intros l1' rest' A'. exact (arrived_function l bytes l1' rest' l1 rest A' A).
Qed.
Print Assumptions C98_arrived.

(** one call of parse returns exactly the messages of the frames that are complete
    with the bytes of this call, and keeps what belongs to the next frame *)
Theorem C98_call : forall lib p l chunk more, Forall (sent_ok (sp_skip p)) l -> unfinished l (sp_buf p) -> (sp_buf p ++ chunk) ++ more = wire l ->
  exists l1 rest p' r, arrived l (sp_buf p ++ chunk) l1 rest /\ sparse lib p chunk = (p', Ok r)
  /\ pr_msgs r = delivered l1 /\ pr_errors r = [] /\ sp_buf p' = rest
  /\ sp_skip p' = sp_skip p /\ sp_up p' = sp_up p.
Proof. exact call_prompt. Qed.
Print Assumptions C98_call.
(** any number of calls: at any time everything that is complete has been returned *)
Theorem C98_calls : forall lib chunks p l more, Forall (sent_ok (sp_skip p)) l -> unfinished l (sp_buf p) ->
  (sp_buf p ++ concat chunks) ++ more = wire l ->
  exists l1 rest p', arrived l (sp_buf p ++ concat chunks) l1 rest /\ feeds lib p chunks p' (delivered l1) []
  /\ sp_buf p' = rest /\ sp_skip p' = sp_skip p /\ sp_up p' = sp_up p.
Proof. exact feeds_prompt. Qed.
Print Assumptions C98_calls.

(** the modem: at any time it has handled exactly the messages whose last byte
    has been read *)
Theorem C98_modem : forall lib s l chunks more, in_use s -> Forall (sent_ok false) l -> concat chunks ++ more = wire l ->
  exists l1 rest, arrived l (concat chunks) l1 rest
  /\ let s2 := devices lib s (map DBytes chunks) in
     r_modem (se_reader s2) = handled (r_modem (se_reader s)) (delivered l1) /\ alive s2 = true /\ sp_buf (r_parser (se_reader s2)) = rest.
Proof. exact session_prompt. Qed.
Print Assumptions C98_modem.
(** so that execute_command stops waiting with the last byte of the first reply
    that ends the execution, not before, whatever is to come *)
Theorem C98_result : forall lib s c timeout l chunks more, in_use s -> command_wf c -> command_bytes c <= 255 -> 0 < timeout ->
  Forall (sent_ok false) l -> concat chunks ++ more = wire l ->
  exists s1 l1 rest, execute s c timeout = (s1, Ok tt) /\ arrived l (concat chunks) l1 rest
  /\ let s2 := devices lib s1 (map DBytes chunks) in let x := mkExchange c timeout l1 chunks in
     execute_result s2 = expected x /\ answered s2 = existsb ends_execution (replies x).
Proof. exact result_prompt. Qed.
Print Assumptions C98_result.

(** Two frames, the second one byte short, then complete *)
Definition C98_traffic : list Sent := [mkSent 0 4 [65] (MRaw [65]); mkSent 1 4 [66; 67] (MRaw [66; 67])].
Example C98_hypotheses : Forall (sent_ok false) C98_traffic /\ unfinished C98_traffic []
  /\ arrived C98_traffic (firstn 16 (wire C98_traffic)) (firstn 1 C98_traffic) (firstn 8 (frame 1 4 [66; 67])).
Proof.
  split; [|split].
  - repeat apply Forall_cons; try apply Forall_nil; unfold sent_ok; cbn [s_counter s_type s_payload s_msg];
      (refine (conj _ (conj _ (conj _ _))); [unfold is_byte; lia | unfold is_byte; lia | | intros rest _; apply carries_logging]);
      (split; [repeat apply Forall_cons; try apply Forall_nil; unfold is_byte; lia | unfold zlen; cbn [length]; lia]).
  - exists (sent_frame (mkSent 0 4 [65] (MRaw [65]))). split; [vm_compute; discriminate | reflexivity].
  - exists (skipn 1 C98_traffic). split; [reflexivity|]. split; [vm_compute; reflexivity|].
    exists [67]. split; [discriminate | vm_compute; reflexivity].
Qed.
Example C98_case :
  (let (p, r) := sparse true (new_parser false) (firstn 16 (wire C98_traffic)) in
   match r with
   | Ok x => pr_msgs x = [(4, MRaw [65])]
             /\ match snd (sparse true p [67]) with Ok y => pr_msgs y = [(4, MRaw [66; 67])] | Err _ => False end
   | Err _ => False
   end).
Proof. vm_compute. split; reflexivity. Qed.
