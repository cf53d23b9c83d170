(** Several readers and several calls of [execute_command]: property C105. *)
From Verif Require Import SCrowd LCrowd LCrowd2 LCrowd3.
Open Scope Z_scope.

(** With one reader this is the situation of C68 *)
Theorem C105_one_reader : forall cb rbcb connected n ls, Forall by_first ls ->
  crowd_run (new_crowd cb rbcb connected 1 n) ls
  = match mrun (new_mworld cb rbcb connected n) (map for_one ls) with
    | Some v => Some (mkCrowd (mw_m v) [mw_r v] (mw_t v) (mw_log v))
    | None => None
    end.
Proof. exact crowd_one. Qed.
Print Assumptions C105_one_reader.
(** Every schedule, however many readers and threads: no ALP message is lost or
    delivered twice *)
Theorem C105_nothing_lost : forall cb rbcb connected k n ls w, crowd_run (new_crowd cb rbcb connected k n) ls = Some w ->
  Permutation (everywhere w) (alp_messages (taken ls)).
Proof. exact crowd_nothing_lost. Qed.
Print Assumptions C105_nothing_lost.
(** results consist of received answers to somebody's command or of untagged ones *)
Theorem C105_results_received : forall cb rbcb connected k n ls w i tag obj value x,
  crowd_run (new_crowd cb rbcb connected k n) ls = Some w ->
  In (i, tag, Returned obj value) (cr_log w) -> In x value -> crowd_known ls x.
Proof. exact crowd_returned. Qed.
Print Assumptions C105_results_received.
(** an exception needs another thread that waits for an answer, too *)
Theorem C105_exception_needs_another : forall cb rbcb connected k n ls w i tag,
  crowd_run (new_crowd cb rbcb connected k n) ls = Some w -> In (i, tag, Raised) (cr_log w) ->
  exists j tag', j <> i /\ In (NCall j tag' true) ls.
Proof. exact crowd_raises. Qed.
Print Assumptions C105_exception_needs_another.
(** Calls that an application serialises give back nothing or answers to their own
    command that were received during the call, none twice, with one that completes
    it *)
Theorem C105_serialised_calls : forall cb rbcb connected k n ls w,
  calls_in_turn (new_crowd cb rbcb connected k n) ls w -> Forall (own_answers ls) (cr_log w).
Proof. exact turn_expected. Qed.
Print Assumptions C105_serialised_calls.
(** With one reader these are all answers received before the one that completes
    (C68).  With two an earlier answer can be missing, and it is appended to the list
    after the call has given it back; *)
Theorem C105_all_answers_refuted : forall cb rbcb connected t a c,
  c_tag a = Some t -> c_completed a = false -> c_tag c = Some t -> c_completed c = true ->
  exists ls w, calls_in_turn (new_crowd cb rbcb connected 2 1) ls w /\ taken ls = [(1, MCmd a); (1, MCmd c)]
  /\ cr_log w = [(0%nat, Some t, Returned (Some 1%nat) [MCmd c])]
  /\ nth 1 (m_heap (cr_m w)) [] = [MCmd c; MCmd a].
Proof. exact answer_missing. Qed.
Print Assumptions C105_all_answers_refuted.
(** and the answers can be given back in another order than they were received *)
Theorem C105_order_refuted : forall cb rbcb connected t a c,
  c_tag a = Some t -> c_completed a = false -> c_tag c = Some t -> c_completed c = true ->
  exists ls w, calls_in_turn (new_crowd cb rbcb connected 2 1) ls w /\ taken ls = [(1, MCmd a); (1, MCmd c)]
  /\ cr_log w = [(0%nat, Some t, Returned (Some 1%nat) [MCmd c; MCmd a])].
Proof. exact answers_swapped. Qed.
Print Assumptions C105_order_refuted.

(** Three readers, two threads: two calls one after the other, an answer to the first
    comes during the second *)
Definition tagged (t : Z) (completed : bool) : Msg := MCmd (mkCommand [] None false (Some t) false completed (Some false)).
Definition handles (j : nat) (x : Msg) (k : nat) : list CrowdLabel := NArrive j 1 x :: repeat (NReader j) k.
Definition calls (i : nat) (t : Z) : list CrowdLabel := NCall i (Some t) true :: repeat (NThread i) 6.
Definition two_calls : list CrowdLabel :=
  calls 0 7 ++ handles 0 (tagged 7 false) 4 ++ handles 2 (tagged 7 true) 4 ++ repeat (NThread 0) 3
  ++ calls 1 8 ++ handles 1 (tagged 7 true) 1 ++ handles 1 (tagged 8 true) 4 ++ repeat (NThread 1) 3.
Example C105_case_two_calls : exists w, calls_in_turn (new_crowd true false true 3 2) two_calls w
  /\ cr_log w = [(0%nat, Some 7, Returned (Some 1%nat) [tagged 7 false; tagged 7 true]); (1%nat, Some 8, Returned (Some 2%nat) [tagged 8 true])]
  /\ m_cb_calls (cr_m w) = [tagged 7 true].
Proof. eexists. split; [unfold two_calls, calls, handles; cbn [repeat app];
  repeat (eapply turn_cons; [first [exact I | reflexivity | split; repeat constructor] | vm_compute; reflexivity|]); apply turn_nil | split; reflexivity]. Qed.
(** Two threads at once: one raises *)
Example C105_case_raised : exists w, crowd_run (new_crowd true false true 2 2)
    (NCall 0 (Some 7) true :: repeat (NThread 0) 3 ++ NCall 1 (Some 8) true :: repeat (NThread 1) 5 ++ [NThread 0]) = Some w
  /\ cr_log w = [(0%nat, Some 7, Raised)].
Proof. eexists. split; vm_compute; reflexivity. Qed.
