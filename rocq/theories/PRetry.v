(** C108: calling connect() again on a line that damages frames. *)
From Verif Require Import SRetry LConnect LDamage LRetry PDamage.
Open Scope list_scope.
Open Scope Z_scope.

(** Any number of calls whose answers do not arrive intact: each returns false, and the
    modem can be used as before *)
Theorem C108_connect_all_lost : forall lib l s, in_use s -> connected s = false -> Forall try_ok l -> forallb unanswered l = true ->
  exists s2, connect_many lib s l = (s2, map (fun _ => Returned (Some false)) l) /\ in_use s2 /\ connected s2 = false.
Proof. exact many_lost. Qed.
Print Assumptions C108_connect_all_lost.
(** the first call whose answer does arrive intact succeeds, whatever was lost
    before and whatever is damaged around the answer *)
Theorem C108_connect_retry : forall lib s tries a c t uid f before later,
  in_use s -> connected s = false -> Forall try_ok tries -> forallb unanswered tries = true ->
  try_ok a -> length uid = 8%nat -> Forall is_byte uid -> fw_wf f -> is_byte c -> 0 <= t <= 3 ->
  Forall (sent_ok false) before -> Forall (sent_ok false) later -> unrelated (at_tag a) before -> unrelated (at_tag a) later ->
  wire (accepted (at_line a)) = wire before ++ frame c t (connect_answer (at_tag a) uid f) ++ wire later ->
  exists s3, connect_many lib s (tries ++ [a]) = (s3, map (fun _ => Returned (Some false)) tries ++ [Returned (Some true)])
  /\ se_uid s3 = Some (big_endian uid) /\ se_fw s3 = Some (fw_padded f) /\ connected s3 = true /\ in_use s3.
Proof. exact retry. Qed.
Print Assumptions C108_connect_retry.
(** and the conversation after it is that of C108_results: each call returns what the
    damage leaves of its replies *)
Theorem C108_connect_then_converse : forall lib s tries a c t uid f before later xs,
  in_use s -> connected s = false -> Forall try_ok tries -> forallb unanswered tries = true ->
  try_ok a -> length uid = 8%nat -> Forall is_byte uid -> fw_wf f -> is_byte c -> 0 <= t <= 3 ->
  Forall (sent_ok false) before -> Forall (sent_ok false) later -> unrelated (at_tag a) before -> unrelated (at_tag a) later ->
  wire (accepted (at_line a)) = wire before ++ frame c t (connect_answer (at_tag a) uid f) ++ wire later ->
  Forall exchange_hurt xs ->
  snd (converse lib (fst (connect_many lib s (tries ++ [a]))) xs) = map (fun x => Ok (expected x)) xs.
Proof. exact then_converse. Qed.
Print Assumptions C108_connect_then_converse.
Definition retry_fw := mkFw 1 2 3 4 [103; 119] [97; 98; 99; 100; 101; 102; 103].
Definition retry_answer : Sent :=
  mkSent 2 1 (connect_answer 9 [1; 2; 3; 4; 5; 6; 7; 8] retry_fw) (MCmd (command_of false None true (answer_actions 9 [1; 2; 3; 4; 5; 6; 7; 8] retry_fw))).
Definition retry_lost : Attempt := mkAttempt 5 hurt_line [arriving hurt_line].
Definition retry_last : Attempt := let l := firstn 1 hurt_line ++ [Whole retry_answer] in mkAttempt 9 l [firstn 20 (arriving l); []; skipn 20 (arriving l)].
Example C108_case_retry : try_ok retry_lost /\ unanswered retry_lost = true /\ try_ok retry_last
  /\ wire (accepted (at_line retry_last)) = wire [] ++ frame 2 1 (connect_answer (at_tag retry_last) [1; 2; 3; 4; 5; 6; 7; 8] retry_fw) ++ wire []
  /\ snd (connect_many true (new_session false true false) [retry_lost; retry_last]) = [Returned (Some false); Returned (Some true)].
Proof.
  assert (H : Forall (arrival_ok false) hurt_line).
  { repeat constructor; try (vm_compute; discriminate); try (vm_compute; congruence); try (intros; apply carries_logging). }
  split; [|split; [vm_compute; reflexivity|split; [|split; vm_compute; reflexivity]]].
  - refine (conj _ (conj H _)); [cbn; lia | vm_compute; reflexivity].
  - refine (conj _ (conj _ _)); [cbn; lia | | vm_compute; reflexivity]. unfold retry_last, hurt_line in *. cbn [at_line firstn app] in *.
    inversion H; subst. constructor; [assumption|]. constructor; [|constructor]. unfold arrival_ok, retry_answer.
    apply answer_sent; unfold retry_fw, is_byte, fw_wf, ascii_text, byte_ok; cbn; repeat split; try lia; repeat constructor; lia.
Qed.
