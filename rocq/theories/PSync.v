(** Several threads waiting for answers through one modem: property C68. *)
From Coq Require Import Permutation.
From Verif Require Import MBase SSync LSync.

(** calls that an application serialises behave as for a single thread *)
Theorem C68_serialised_calls : forall cb rbcb connected n ls w,
  serialised (new_mworld cb rbcb connected n) ls w -> Forall (as_expected ls) (mw_log w).
Proof. exact serialised_expected. Qed.
Print Assumptions C68_serialised_calls.

(** without that, a call can end with the answers of another thread's command *)
Theorem C68_own_answers_refuted : forall cb rbcb connected t1 t2 c, t1 <> t2 -> c_tag c = Some t2 -> c_completed c = true ->
  exists ls w, mrun (new_mworld cb rbcb connected 2) ls = Some w
  /\ mw_log w = [(0%nat, Some t1, Returned (Some 2%nat) [MCmd c]); (1%nat, Some t2, Returned (Some 2%nat) [MCmd c])].
Proof. exact (fun cb rbcb k t1 t2 c _ => shared_answer cb rbcb k t1 t2 c). Qed.
Print Assumptions C68_own_answers_refuted.
(** raise [AssertionError] *)
Theorem C68_no_exception_refuted : forall cb rbcb connected (t1 t2 : Z), exists ls w,
  mrun (new_mworld cb rbcb connected 2) ls = Some w /\ In (MCall 1 (Some t2) true) ls
  /\ mw_log w = [(0%nat, Some t1, Raised)].
Proof. exact assertion_fails. Qed.
Print Assumptions C68_no_exception_refuted.
(** time out although its answer arrived in time: the answer went to the
    callback or the unsolicited messages; it is enough that another thread sends
    without waiting *)
Theorem C68_answer_found_refuted : forall cb rbcb connected t1 t2 c sync, t1 <> t2 ->
  c_tag c = Some t1 -> c_completed c = true ->
  exists ls w, mrun (new_mworld cb rbcb connected 2) ls = Some w /\ In (MArrive 1 (MCmd c)) ls
  /\ In (MCall 1 (Some t2) sync) ls
  /\ In (0%nat, Some t1, Returned None []) (mw_log w)
  /\ (if cb && connected then m_cb_calls (mw_m w) else m_unsol (mw_m w)) = [MCmd c].
Proof. exact answer_lost. Qed.
Print Assumptions C68_answer_found_refuted.
(** or give back an empty list although its answer was collected *)
Theorem C68_completed_result_refuted : forall cb rbcb connected (t1 t2 : Z) c, c_tag c = Some t1 -> c_completed c = true ->
  exists ls w, mrun (new_mworld cb rbcb connected 2) ls = Some w
  /\ mw_log w = [(0%nat, Some t1, Returned (Some 2%nat) [])]
  /\ In (MCall 1 (Some t2) true) ls /\ In (MArrive 1 (MCmd c)) ls /\ nth 1 (m_heap (mw_m w)) [] = [MCmd c].
Proof. exact empty_result. Qed.
Print Assumptions C68_completed_result_refuted.

(** what every schedule guarantees: results consist of arrived answers to
    somebody's command or of untagged ones *)
Theorem C68_results_arrived : forall cb rbcb connected n ls w i tag obj value x,
  mrun (new_mworld cb rbcb connected n) ls = Some w ->
  In (i, tag, Returned obj value) (mw_log w) -> In x value -> mknown ls x.
Proof. exact returned_known. Qed.
Print Assumptions C68_results_arrived.
(** no ALP message is lost or delivered twice *)
Theorem C68_nothing_lost : forall cb rbcb connected n ls w, mrun (new_mworld cb rbcb connected n) ls = Some w ->
  Permutation (whereabouts w) (alp_messages (arrived ls)).
Proof. exact nothing_lost. Qed.
Print Assumptions C68_nothing_lost.
(** an exception needs another thread that waits for an answer, too *)
Theorem C68_exception_needs_another : forall cb rbcb connected n ls w i tag,
  mrun (new_mworld cb rbcb connected n) ls = Some w -> In (i, tag, Raised) (mw_log w) ->
  exists j tag', j <> i /\ In (MCall j tag' true) ls.
Proof. exact raises_because. Qed.
Print Assumptions C68_exception_needs_another.

(** two threads taking turns: thread 1 sends without waiting, thread 0 waits,
    and while it does another message arrives *)
Example C68_case : exists w, serialised (new_mworld true false true 2)
    (MCall 1 (Some 8) false :: repeat (MThread 1) 4 ++ MCall 0 (Some 7) true :: repeat (MThread 0) 6
     ++ MArrive 1 (MCmd (answer (Some 8) true)) :: MReader :: MArrive 1 (MCmd (answer (Some 7) true)) :: repeat MReader 4
     ++ repeat (MThread 0) 3) w
  /\ mw_log w = [(1%nat, Some 8, Returned None []); (0%nat, Some 7, Returned (Some 2%nat) [MCmd (answer (Some 7) true)])]
  /\ m_cb_calls (mw_m w) = [MCmd (answer (Some 8) true)].
Proof.
  eexists. split.
  - cbn [repeat app].
    repeat (eapply serialised_cons; [cbn; first [exact I | reflexivity | split; [repeat constructor | reflexivity]] | vm_compute; reflexivity |]).
    apply serialised_nil.
  - split; reflexivity.
Qed.
