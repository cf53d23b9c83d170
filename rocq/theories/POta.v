(** Writing a firmware image in pieces: property C59. *)
From Verif Require Import SOta LOta.

(** Whatever the device does and wherever the run stands: the bytes sent carry
    exactly the commands for which execute_command was called, and a node that
    carries them out has the first 239 bytes per call of the image in its file,
    the rest of the file untouched *)
Theorem C59_what_the_node_gets : forall lib s file rounds s' log st, ota_run lib s file rounds s' log st ->
  exists bytes, se_sent s' = se_sent s ++ bytes /\ received_over lib bytes (commands_of log)
  /\ forall old, fold_left (node_receives 200) (commands_of log) old
     = firstn (239 * length log) file ++ skipn (Nat.min (239 * length log) (length file)) old.
Proof. exact ota_node. Qed.
Print Assumptions C59_what_the_node_gets.

(** if the run ends without "write failed", every piece was confirmed and the
    node has the whole image *)
Theorem C59_done : forall lib s file rounds s' log, ota_run lib s file rounds s' log OtaDone ->
  Forall confirmed log
  /\ forall old, fold_left (node_receives 200) (commands_of log) old = file ++ skipn (length file) old.
Proof. exact ota_done. Qed.
Print Assumptions C59_done.

(** "write failed" means that exactly the last piece was not confirmed *)
Theorem C59_failed : forall lib s file rounds s' log, ota_run lib s file rounds s' log OtaFailed ->
  exists l x, log = l ++ [x] /\ Forall confirmed l /\ ~ confirmed x.
Proof. exact ota_failed. Qed.
Print Assumptions C59_failed.

(** it raises only for images of more than 2^30-1 bytes, and cannot write them *)
Theorem C59_raised : forall lib s file rounds s' log e, ota_run lib s file rounds s' log (OtaRaised e) ->
  e = ValueError /\ Forall confirmed log /\ len_max < zlen file.
Proof. exact ota_raised. Qed.
Print Assumptions C59_raised.
Theorem C59_size_limit : forall lib s file rounds s' log st, ota_run lib s file rounds s' log st ->
  len_max + 239 < zlen file -> st <> OtaDone.
Proof. exact ota_big_file. Qed.
Print Assumptions C59_size_limit.

(** otherwise it goes on; it is over after as many rounds as there are pieces *)
Theorem C59_running : forall lib s file rounds s' log, ota_run lib s file rounds s' log OtaRunning ->
  Forall confirmed log /\ length log = length rounds /\ (239 * length rounds < length file)%nat.
Proof. exact ota_running. Qed.
Print Assumptions C59_running.

(** 240 bytes in two pieces; then the same with an error reported for the second *)
Definition C59_rounds (last : Z) : list (Z * list DeviceEvent) :=
  [(7, [DBytes (frame 0 2 [163; 7])]); (9, [DBytes (frame 1 2 [last; 9])])].
Lemma C59_setting last s' log st : ota true (new_session false false false) (repeat 65 240) 0 (C59_rounds last) = (s', log, st) ->
  ota_run true (new_session false false false) (repeat 65 240) (C59_rounds last) s' log st.
Proof.
  intro E. refine (conj _ (conj _ (conj _ E))).
  - split; [unfold is_byte; cbn; lia | reflexivity].
  - apply Forall_forall. intros x I. apply repeat_spec in I. subst x. unfold is_byte. lia.
  - repeat constructor; cbn; discriminate.
Qed.
Example C59_case : exists s' log, ota_run true (new_session false false false) (repeat 65 240) (C59_rounds 163) s' log OtaDone
  /\ length log = 2%nat.
Proof. eexists _, _. split; [apply C59_setting; vm_compute; reflexivity | reflexivity]. Qed.
Example C59_case_failed : exists s' log, ota_run true (new_session false false false) (repeat 65 240) (C59_rounds 227) s' log OtaFailed
  /\ length log = 2%nat.
Proof. eexists _, _. split; [apply C59_setting; vm_compute; reflexivity | reflexivity]. Qed.
