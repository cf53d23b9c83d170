(** Which actions survive a round trip: property C16, continued from [PAlp]. *)
From Verif Require Import SRound LRound.

(** every action that can be built can be written; it is read back as it was (a
    forward as a received forward), whatever follows, exactly if it is one of
    those described by [action_wf] *)
Theorem C16_round_trip_iff : forall a, buildable a ->
  exists bs, action_ser a = Ok bs /\ (accepts parse_action (bytes_bits bs) (Some (action_received a)) <-> action_wf a).
Proof. exact round_iff. Qed.
Print Assumptions C16_round_trip_iff.

(** a forward to about 44 devices comes back, one to about 48 does not *)
Definition C16_forward (estimate : CT) : Action :=
  mkAction (Regular false true) (Forward (mkIC IF_D7ASP (Some (CfgD7
    (mkConf (mkQoS RESP_ANY RETRY_NO false false) (mkCT 0 0) (mkAddr 1 NBID (IdCT estimate) NLS_NONE)))))).
Example C16_forwards : buildable (C16_forward (mkCT 1 11)) /\ action_wf (C16_forward (mkCT 1 11))
  /\ buildable (C16_forward (mkCT 1 12)) /\ ~ action_wf (C16_forward (mkCT 1 12))
  /\ action_ser (C16_forward (mkCT 1 12)) = Ok [114; 215; 2; 0; 0; 1; 44].
Proof.
  refine (conj _ (conj _ (conj _ (conj _ eq_refl)))).
  - split; [|exact I]. vm_compute. intuition congruence.
  - split; [vm_compute; intuition congruence|]. split; [reflexivity | right; reflexivity].
  - split; [|exact I]. vm_compute. intuition congruence.
  - intros [_ [_ [[_ H] | H]]]; vm_compute in H; [apply H; reflexivity | discriminate].
Qed.
