(** Polling for unsolicited responses and reboot notifications: property C61. *)
From Coq Require Import List. Import ListNotations.
From Verif Require Import SMailbox LMailbox.

(** the list objects the modem has used, oldest first, hold the messages in the
    order of arrival, each once, whatever the application does *)
Theorem C61_kept_in_order : forall ls b, box_run new_box ls = Some b ->
  concat (bx_lists b) ++ held b = box_arrivals ls.
Proof. exact box_order. Qed.
Print Assumptions C61_kept_in_order.

(** once cleared, a list gets at most the one message that was being appended *)
Theorem C61_cleared_list : forall before ls b b' r, box_run new_box before = Some b ->
  box_has b r -> r <> current b -> box_run b ls = Some b' ->
  box_list b' r = box_list b r
  \/ exists x, bx_reader b = BAppend r x /\ box_list b' r = box_list b r ++ [x].
Proof. exact box_old. Qed.
Print Assumptions C61_cleared_list.

(** get, look, clear: nothing is seen twice or out of order... *)
Theorem C61_read_clear_no_duplicates : forall ls b, read_clear ls -> box_run new_box ls = Some b ->
  subsequence (bx_seen b) (box_arrivals ls).
Proof. exact read_clear_sub. Qed.
Print Assumptions C61_read_clear_no_duplicates.

(** ...but a message can be lost *)
Theorem C61_read_clear_refuted : exists ls b, read_clear ls /\ box_run new_box ls = Some b
  /\ bx_reader b = BIdle /\ box_arrivals ls = [MInt 0; MInt 1] /\ bx_seen b = [MInt 0] /\ waiting b = [].
Proof. exact read_clear_loses. Qed.
Print Assumptions C61_read_clear_refuted.

(** unless the reader thread is idle from the look to the clear *)
Theorem C61_read_clear_idle : forall ls b, careful new_box ls -> box_run new_box ls = Some b ->
  bx_seen b ++ waiting b ++ held b = box_arrivals ls.
Proof. exact careful_all. Qed.
Print Assumptions C61_read_clear_idle.

(** get, clear, look: at most one message per round is lost... *)
Theorem C61_swap_read : forall ls b, swap_read ls -> box_run new_box ls = Some b ->
  subsequence (bx_seen b) (box_arrivals ls)
  /\ (length (box_arrivals ls) <= length (bx_seen b) + length (waiting b) + length (held b) + looks ls)%nat.
Proof. exact swap_lost. Qed.
Print Assumptions C61_swap_read.

Theorem C61_swap_read_refuted : exists ls b, swap_read ls /\ box_run new_box ls = Some b
  /\ bx_reader b = BIdle /\ box_arrivals ls = [MInt 0; MInt 1] /\ bx_seen b = [MInt 0] /\ waiting b = [].
Proof. exact swap_read_loses. Qed.
Print Assumptions C61_swap_read_refuted.

(** ...and none if the reader gets done with its message before the look *)
Theorem C61_swap_read_patient : forall ls b, patient new_box ls -> box_run new_box ls = Some b ->
  bx_seen b ++ waiting b ++ held b = box_arrivals ls.
Proof. exact patient_all. Qed.
Print Assumptions C61_swap_read_patient.

Example C61_case : exists b,
  patient new_box (([BArrive (MInt 0); BReader] ++ BGet :: [] ++ BClear :: [BReader; BArrive (MInt 1); BReader; BReader])
                   ++ ([] ++ [BLook]) ++ [BArrive (MInt 2)])
  /\ box_run new_box (([BArrive (MInt 0); BReader] ++ BGet :: [] ++ BClear :: [BReader; BArrive (MInt 1); BReader; BReader])
                   ++ ([] ++ [BLook]) ++ [BArrive (MInt 2)]) = Some b
  /\ bx_seen b = [MInt 0] /\ waiting b = [MInt 1] /\ held b = [MInt 2].
Proof.
  exists (mkBox [[MInt 0]; [MInt 1]] (BLoad (MInt 2)) (Some 0%nat) [MInt 0]).
  split; [|repeat split].
  apply (patient_round _ _ _ _ _ (mkBox [[MInt 0]; [MInt 1]] BIdle (Some 0%nat) [])
           (mkBox [[MInt 0]; [MInt 1]] BIdle (Some 0%nat) [MInt 0])); try (repeat constructor).
Qed.

Example C61_case_careful : exists b,
  careful new_box (([BArrive (MInt 0); BReader; BReader] ++ BGet :: []) ++ [BLook; BClear] ++ [BArrive (MInt 1); BReader])
  /\ box_run new_box (([BArrive (MInt 0); BReader; BReader] ++ BGet :: []) ++ [BLook; BClear] ++ [BArrive (MInt 1); BReader]) = Some b
  /\ bx_seen b = [MInt 0] /\ waiting b = [] /\ held b = [MInt 1].
Proof.
  exists (mkBox [[MInt 0]; []] (BAppend 1 (MInt 1)) (Some 0%nat) [MInt 0]).
  split; [|repeat split].
  apply (careful_round _ _ _ (mkBox [[MInt 0]] BIdle (Some 0%nat) []) (mkBox [[MInt 0]; []] BIdle (Some 0%nat) [MInt 0]));
    try (repeat constructor).
Qed.
