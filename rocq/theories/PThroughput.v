(** examples/throughput_test.py: property C71. *)
From Verif Require Import SThroughput LThroughput.

(** *** Sending *)
(** as many copies as asked for, whatever the device answers *)
Theorem C71_sends : forall lib s rnd n conf rounds, usable_session s -> 0 <= rnd <= 255 -> (1 <= n <= 256)%nat -> conf_wf conf -> conf_stable conf ->
  message_bytes n conf <= 255 ->
  exists c s' bytes, throughput_command rnd n conf = Ok c /\ transmit lib s c rounds = (s', Ok tt)
  /\ se_sent s' = se_sent s ++ bytes /\ received_over lib bytes (repeat (command_received c) (length rounds)).
Proof. exact throughput_sends. Qed.
Print Assumptions C71_sends.
(** the content of each of them *)
Theorem C71_content : forall rnd n conf c, throughput_command rnd n conf = Ok c ->
  exists d, c_actions (command_received c) = [mkAction (FwdAct false) (Forward (mkIC IF_D7ASP (Some (CfgD7 conf)))); mkAction (Regular false false) (mk_return_file_data d)]
  /\ off_id (d_offset d) = 64 /\ len_value (off_offset (d_offset d)) = 0 /\ d_data d = counting n.
Proof. exact throughput_return. Qed.
Print Assumptions C71_content.
(** a message that does not fit into a frame: nothing is sent *)
Theorem C71_too_long : forall lib s rnd n conf es rounds, usable_session s -> 0 <= rnd <= 255 -> (1 <= n <= 256)%nat -> conf_wf conf -> conf_stable conf ->
  255 < message_bytes n conf ->
  exists c, throughput_command rnd n conf = Ok c /\ transmit lib s c (es :: rounds) = (s, Err ValueError).
Proof. exact throughput_too_long. Qed.
Print Assumptions C71_too_long.
(** payloads of more than 256 bytes contain a number that is no byte *)
Theorem C71_no_bytes : forall rnd n conf, (256 < n)%nat -> throughput_command rnd n conf = Err ValueError.
Proof. exact throughput_refused. Qed.
Print Assumptions C71_no_bytes.

(** *** Receiving *)
(** which commands are counted *)
Theorem C71_filed : forall received c,
  on_command received c = match c_status c with
                          | None => Ok received
                          | Some _ => match on_command [] c with Ok _ => Ok (received ++ [c]) | Err e => Err e end
                          end
  /\ (on_command received c = Ok (received ++ [c]) <-> with_status c)
  /\ (forall e, on_command received c = Err e -> e = AttributeError).
Proof. exact on_command_spec. Qed.
Print Assumptions C71_filed.

(** *** The verdict *)
(** the loop ends in exactly one way *)
Theorem C71_loop_ends : forall count received its, exists k, ends_after count received its k
  /\ forall k', ends_after count received its k' -> k' = k.
Proof. exact loop_ends. Qed.
Print Assumptions C71_loop_ends.
(** "OK": at the last count exactly as many as sent, and every command that has
    arrived when the loop ends carries the payload *)
Theorem C71_ok_iff : forall count p received its, wait_for_receiver count p received its = VerdictOK <->
  exists k, ends_after count received its k /\ counted received its k = count /\ Forall (carries p) (arrived received its k).
Proof. exact verdict_ok_iff. Qed.
Print Assumptions C71_ok_iff.
(** no verdict at all: a command without data *)
Theorem C71_raised_iff : forall count p received its, wait_for_receiver count p received its = VerdictRaised <->
  exists k c, ends_after count received its k /\ In c (arrived received its k) /\ ~ carries_data c.
Proof. exact verdict_raised_iff. Qed.
Print Assumptions C71_raised_iff.
(** provided that nothing arrives twice and nobody else sends, "OK" means that
    everything has arrived *)
Theorem C71_ok_all_arrived : forall count p received its sent, 0 <= count -> zlen sent = count ->
  (forall k, no_duplicates (arrived received its k) sent) ->
  wait_for_receiver count p received its = VerdictOK -> exists k, Permutation sent (arrived received its k).
Proof. exact verdict_ok_all. Qed.
Print Assumptions C71_ok_all_arrived.
(** a surplus is an error *)
Theorem C71_too_many : forall count p received its k, ends_after count received its k -> count < counted received its k ->
  wait_for_receiver count p received its <> VerdictOK.
Proof. exact verdict_too_many. Qed.
Print Assumptions C71_too_many.

(** *** What it does not mean *)
(** "OK" although one message was lost: another one arrived twice *)
Theorem C71_ok_means_all_arrived_refuted : ~ (forall count p received its sent, zlen sent = count ->
  (forall k c, In c (arrived received its k) -> In c sent) ->
  wait_for_receiver count p received its = VerdictOK -> forall c, In c sent -> exists k, In c (arrived received its k)).
Proof. exact ok_all_refuted. Qed.
Print Assumptions C71_ok_means_all_arrived_refuted.
(** "NOK" although everything arrived before the loop ended, undamaged *)
Theorem C71_nok_means_loss_refuted : ~ (forall count p received its k, ends_after count received its k ->
  zlen (arrived received its k) = count -> Forall (carries p) (arrived received its k) ->
  wait_for_receiver count p received its = VerdictOK).
Proof. exact nok_loss_refuted. Qed.
Print Assumptions C71_nok_means_loss_refuted.
(** "OK" for commands that return no file data *)
Theorem C71_ok_means_returned_refuted : ~ (forall count p received its k c, ends_after count received its k ->
  wait_for_receiver count p received its = VerdictOK -> In c (arrived received its k) ->
  exists a rest d f, c_actions c = a :: rest /\ a_op a = ReturnFileData d f /\ off_id (d_offset d) = 64).
Proof. exact ok_returned_refuted. Qed.
Print Assumptions C71_ok_means_returned_refuted.

(** *** The hypotheses can be met *)
Definition C71_conf : Configuration := mkConf (mkQoS RESP_ANY RETRY_NO false false) (mkCT 0 0) (mkAddr 1 NBID (IdCT (mkCT 0 1)) NLS_NONE).
Definition C71_unicast : Configuration := mkConf (mkQoS RESP_NO RETRY_NO false false) (mkCT 0 0) (mkAddr 1 UID (IdInt 3188) NLS_NONE).
Example C71_case_sends : usable_session (new_session false false false) /\ conf_wf C71_conf /\ conf_stable C71_conf
  /\ message_bytes 50 C71_conf = 63 /\ message_bytes 234 C71_unicast = 255 /\ message_bytes 235 C71_unicast = 256
  /\ conf_wf C71_unicast /\ conf_stable C71_unicast
  /\ (let! c := throughput_command 9 3 C71_conf in command_ser c) = Ok [180; 9; 50; 215; 2; 0; 0; 1; 1; 32; 64; 0; 3; 0; 1; 2].
Proof.
  refine (conj _ (conj _ (conj _ (conj eq_refl (conj eq_refl (conj eq_refl (conj _ (conj I _)))))))).
  - split; [unfold is_byte; cbn; lia | reflexivity].
  - unfold conf_wf, addr_wf. cbn. unfold ct_wf. cbn. lia.
  - left. vm_compute. split; discriminate.
  - unfold conf_wf, addr_wf. cbn. unfold ct_wf. cbn. lia.
  - vm_compute. reflexivity.
Qed.
Definition C71_message (seq : Z) : Command := received_message seq (counting 3).
Example C71_case_ok : exists its, wait_for_receiver 2 (counting 3) [C71_message 0] its = VerdictOK
  /\ ends_after 2 [C71_message 0] its 3 /\ Forall with_status (arrived [C71_message 0] its 3)
  /\ forall k, no_duplicates (arrived [C71_message 0] its k) [C71_message 0; C71_message 1].
Proof.
  exists [[]; [C71_message 1]; []]. refine (conj _ (conj _ (conj _ _))).
  - vm_compute. reflexivity.
  - split; [cbn; lia|]. split; [|left; vm_compute; discriminate]. intros j J. destruct j as [|[|[|j]]]; [vm_compute; reflexivity ..|lia].
  - repeat constructor; eexists _, _, _; repeat split.
  - intro k. destruct k as [|[|[|[|k]]]]; unfold arrived; cbn [firstn concat app].
    + exists [C71_message 1]. reflexivity.
    + exists [C71_message 1]. reflexivity.
    + exists []. reflexivity.
    + exists []. reflexivity.
    + exists []. destruct k; reflexivity.
Qed.
Example C71_case_too_many : ends_after 1 [C71_message 0; C71_message 0] [[]; []] 1 /\ 1 < counted [C71_message 0; C71_message 0] [[]; []] 1.
Proof.
  split; [|vm_compute; reflexivity]. split; [cbn; lia|]. split; [|left; vm_compute; discriminate].
  intros j J. destruct j; [vm_compute; reflexivity | lia].
Qed.
Example C71_case_raised : wait_for_receiver 1 (counting 3) [C71_message 0; mkCommand [] (c_status (C71_message 0)) false None true false None] [[]] = VerdictRaised.
Proof. vm_compute. reflexivity. Qed.
