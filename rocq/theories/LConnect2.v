From Verif Require Import LConnect SConnect2.

Lemma execute_keeps s c t : keeps_rest s (fst (execute s c t)).
Proof.
  unfold execute. destruct (build_serial_frame _ _) as [p [bytes|e]]; cbn [fst]; unfold keeps_rest; [|repeat split].
  cbn [se_reader r_modem r_alive]. unfold exec_start. repeat split.
Qed.
Lemma with_connected_keeps s u f b : keeps_all s (with_connected s u f b).
Proof. unfold keeps_all, keeps_rest. repeat split. Qed.
Lemma begin_keeps rnd check s : keeps_rest s (fst (connect_begin rnd check s))
  /\ (check = false -> keeps_all s (fst (connect_begin rnd check s))).
Proof.
  unfold connect_begin. destruct (m_connected _); [cbn [fst]; unfold keeps_all, keeps_rest; repeat split|].
  destruct check; cbn [negb].
  - split; [|discriminate]. destruct (connect_command rnd) as [c|e]; [|cbn [fst]; unfold keeps_rest; repeat split].
    destruct (m_skip _).
    + pose proof (execute_keeps (with_connected s (se_uid s) (se_fw s) true) c 0) as K.
      destruct (execute _ c 0) as [s' [?|?]]; exact K.
    + pose proof (execute_keeps s c 10) as K. destruct (execute s c 10) as [s' [?|?]]; exact K.
  - cbn [fst]. split; [apply with_connected_keeps | intros _; apply with_connected_keeps].
Qed.
Lemma end_keeps s : keeps_all s (fst (connect_end s)).
Proof.
  assert (R : keeps_all s s) by (unfold keeps_all, keeps_rest; repeat split).
  unfold connect_end. repeat match goal with |- keeps_all _ (fst (match ?x with _ => _ end)) => destruct x end;
    cbn [fst]; try exact R; apply with_connected_keeps.
Qed.
