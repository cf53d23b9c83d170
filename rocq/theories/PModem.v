(** The modem: properties C44 to C48. *)
From Verif Require Import SModem LModem LSched.

(** ** C44 *)
Theorem C44_exactly_one_place : forall m t x, t <= 5 -> exists! p, goes m t x p.
Proof. exact one_place. Qed.
Print Assumptions C44_exactly_one_place.
Theorem C44_unknown_types_nowhere : forall m t x p, 6 <= t -> ~ goes m t x p.
Proof. exact no_place. Qed.
Print Assumptions C44_unknown_types_nowhere.
Theorem C44_one_message : forall m t x p, reached m ->
  (goes m t x p -> inbox p (dispatch m (t, x)) = inbox p m ++ [x])
  /\ (~ goes m t x p -> inbox p (dispatch m (t, x)) = inbox p m).
Proof. exact one_delivery. Qed.
Print Assumptions C44_one_message.
(** any number of messages: every place gets its own, in order of arrival *)
Theorem C44_arrival_order : forall m msgs p, reached m ->
  exists sel, sorted m p msgs sel /\ inbox p (fold_left dispatch msgs m) = inbox p m ++ sel.
Proof. exact everything_delivered. Qed.
Print Assumptions C44_arrival_order.
Theorem C44_sorting_is_unique : forall m p msgs s1, sorted m p msgs s1 -> forall s2, sorted m p msgs s2 -> s1 = s2.
Proof. exact sorted_function. Qed.
Print Assumptions C44_sorting_is_unique.
(** starting a command touches nothing but the result list *)
Theorem C44_command_keeps_other_places : forall m tag timeout p, p <> PResult ->
  inbox p (exec_start m tag timeout) = inbox p m.
Proof. exact command_leaves. Qed.
Print Assumptions C44_command_keeps_other_places.
Example C44_case : reached (history (new_modem false true false) [EConnected; ECommand (Some 7) 10])
  /\ let m := fold_left dispatch [(1, MCmd (answer (Some 7) false)); (5, MInt 2); (1, MCmd (answer (Some 8) true));
                                  (4, MRaw [65]); (9, MRaw []); (2, MCmd (answer (Some 7) true))]
                (history (new_modem false true false) [EConnected; ECommand (Some 7) 10]) in
     inbox PResult m = [MCmd (answer (Some 7) false); MCmd (answer (Some 7) true)]
     /\ inbox PCallback m = [MCmd (answer (Some 8) true)] /\ inbox PReboots m = [MInt 2] /\ inbox PLog m = [MRaw [65]]
     /\ inbox PUnsolicited m = [].
Proof. split; [eexists _, _, _, _; reflexivity | repeat split]. Qed.

(** ** C45 *)
(** messages handled as a whole, after the set-up and before the return *)
Theorem C45_result_is_the_answers : forall m tag timeout msgs sel,
  m_skip m = false -> 0 < timeout -> answers_in tag msgs sel ->
  let result := exec_result (fold_left dispatch msgs (exec_start m tag timeout)) in
  (some_completed sel /\ result = sel) \/ (~ some_completed sel /\ result = []).
Proof. exact sync_result. Qed.
Print Assumptions C45_result_is_the_answers.
Theorem C45_answers_exist : forall tag msgs, exists sel, answers_in tag msgs sel.
Proof. exact answers_exist. Qed.
Print Assumptions C45_answers_exist.
Theorem C45_only_own_tag : forall m tag timeout msgs x, m_skip m = false -> 0 < timeout ->
  In x (exec_result (fold_left dispatch msgs (exec_start m tag timeout))) ->
  answers tag x /\ exists t, In (t, x) msgs.
Proof. exact sync_tags. Qed.
Print Assumptions C45_only_own_tag.
(** two threads, interleaved freely except for the set-up *)
Theorem C45_undisturbed_schedules : forall cb rbcb ls w,
  undisturbed (new_world cb rbcb) ls w -> Forall (returned ls) (w_rets w).
Proof. exact undisturbed_returns. Qed.
Print Assumptions C45_undisturbed_schedules.
Example C45_case : exists w, undisturbed (new_world true false)
    [LExec (Some 7) true; LApp; LApp; LApp; LApp; LMsg 1 (MCmd (answer (Some 7) true)); LReader; LApp; LReader; LReader;
     LReader; LMsg 1 (MCmd (answer (Some 6) true)); LApp; LReader; LMsg 2 (MCmd (answer (Some 7) false)); LReader;
     LReader; LApp; LReader; LApp] w
  /\ w_rets w = [(Some 7, Some 1%nat, [MCmd (answer (Some 7) true); MCmd (answer (Some 7) false)])].
Proof.
  eexists. split.
  - repeat (eapply undisturbed_cons; [cbn; exact I || reflexivity | vm_compute; reflexivity |]). apply undisturbed_nil.
  - reflexivity.
Qed.

(** ** C46 *)
(** an answer that passed the tag test before the set-up is appended after it
    and ends the next command *)
Theorem C46_late_answer_returned_refuted : forall cb rbcb t1 t2 c, t1 <> t2 ->
  c_tag c = Some t1 -> c_completed c = true ->
  exists ls w, run (new_world cb rbcb) ls = Some w
  /\ w_rets w = [(Some t1, None, []); (Some t2, Some 2%nat, [MCmd c])].
Proof. exact (fun cb rbcb t1 t2 c _ T K => ex_intro _ _ (late_race cb rbcb t1 (Some t2) c T K)). Qed.
Print Assumptions C46_late_answer_returned_refuted.
(** handling messages as a whole is not enough: between the first two
    assignments of the set-up the old tag meets the new list *)
Theorem C46_stale_answer_between_resets_refuted : forall cb rbcb t1 t2 c1 c2, t1 <> t2 ->
  c_tag c1 = Some t1 -> c_tag c2 = Some t2 -> c_completed c2 = true ->
  exists ls w, run (new_world cb rbcb) ls = Some w
  /\ w_rets w = [(Some t1, None, []); (Some t2, Some 2%nat, [MCmd c1; MCmd c2])].
Proof. exact (fun cb rbcb t1 t2 c1 c2 _ T1 T2 K => ex_intro _ _ (early_race cb rbcb t1 t2 c1 c2 T1 T2 K)). Qed.
Print Assumptions C46_stale_answer_between_resets_refuted.
(** what every schedule guarantees *)
Theorem C46_every_schedule : forall cb rbcb ls w tag obj value x, run (new_world cb rbcb) ls = Some w ->
  In (tag, obj, value) (w_rets w) -> In x value -> known ls x.
Proof. exact any_schedule_returns. Qed.
Print Assumptions C46_every_schedule.
Example C46_case : c_tag (answer (Some 7) true) = Some 7 /\ c_completed (answer (Some 7) true) = true /\ 7 <> 8.
Proof. repeat split. discriminate. Qed.

(** ** C47 *)
Theorem C47_collected_tag_is_swallowed : forall cb rbcb h t c, t <= 3 -> c_tag c = collecting h ->
  let m := history (new_modem false cb rbcb) h in
  let m' := dispatch m (t, MCmd c) in
  m_cb_calls m' = m_cb_calls m /\ m_unsol m' = m_unsol m /\ inbox PResult m' = inbox PResult m ++ [MCmd c].
Proof. exact swallowed. Qed.
Print Assumptions C47_collected_tag_is_swallowed.
Theorem C47_other_tags_are_not : forall cb rbcb h t c, t <= 3 -> c_tag c <> collecting h ->
  let m := history (new_modem false cb rbcb) h in
  let m' := dispatch m (t, MCmd c) in
  if cb && m_connected m
  then m_cb_calls m' = m_cb_calls m ++ [MCmd c] /\ m_unsol m' = m_unsol m
  else m_cb_calls m' = m_cb_calls m /\ m_unsol m' = m_unsol m ++ [MCmd c].
Proof. exact not_swallowed. Qed.
Print Assumptions C47_other_tags_are_not.
(** a connected modem with a callback, an untagged message, no synchronous
    command since the last asynchronous one *)
Theorem C47_untagged_swallowed_refuted : forall h tag c, c_tag c = None ->
  last_command h = None \/ last_command h = Some (tag, 0) ->
  let m := history (new_modem false true false) (h ++ [EConnected]) in
  m_connected m = true /\ m_cb_calls (dispatch m (1, MCmd c)) = m_cb_calls m /\ m_unsol (dispatch m (1, MCmd c)) = m_unsol m.
Proof. exact untagged_swallowed. Qed.
Print Assumptions C47_untagged_swallowed_refuted.
Example C47_case : collecting [] = None /\ collecting [ECommand (Some 3) 10; ECommand (Some 4) 0] = None
  /\ collecting [ECommand (Some 3) 10; EMsg 1 (MCmd (answer (Some 3) true))] = Some 3
  /\ c_tag (answer None true) = None.
Proof. repeat split. Qed.

(** ** C48 *)
Theorem C48_bridge : forall lib p m alps counters chunks,
  sp_skip p = true -> sp_buf p = [] -> is_byte (sp_down p) ->
  m_skip m = true -> m_has_cb m = true -> m_connected m = true ->
  Forall is_payload alps -> Forall is_byte counters -> length counters = length alps ->
  concat chunks = flat_map (fun x => frame (fst x) 1 (snd x)) (combine counters alps) ->
  exists p' m', read_chunks lib (mkReader p m true) chunks = mkReader p' m' true /\ sp_buf p' = []
  /\ m_cb_calls m' = m_cb_calls m ++ map MRaw alps.
Proof. exact bridge_alp. Qed.
Print Assumptions C48_bridge.
(** with other traffic in between *)
Theorem C48_bridge_mixed_traffic : forall lib p m fs chunks,
  sp_skip p = true -> sp_buf p = [] -> is_byte (sp_down p) ->
  m_skip m = true -> m_has_cb m = true -> m_connected m = true ->
  Forall bridge_ok fs -> concat chunks = flat_map bridge_frame fs ->
  exists p' m', read_chunks lib (mkReader p m true) chunks = mkReader p' m' true /\ sp_buf p' = []
  /\ m_cb_calls m' = m_cb_calls m ++ map MRaw (payloads (fun t => t <=? 3) fs)
  /\ m_logged m' = m_logged m ++ map MRaw (payloads (Z.eqb 4) fs)
  /\ (if m_has_rbcb m then m_rb_calls m' = m_rb_calls m ++ map MInt (reasons fs) /\ m_rebooted m' = m_rebooted m
      else m_rb_calls m' = m_rb_calls m /\ m_rebooted m' = m_rebooted m ++ map MInt (reasons fs))
  /\ m_unsol m' = m_unsol m /\ m_heap m' = m_heap m.
Proof. exact bridge. Qed.
Print Assumptions C48_bridge_mixed_traffic.
(** in either mode the reader hands over exactly the messages of the traffic *)
Theorem C48_reader_hands_over_the_traffic : forall lib chunks p m tr,
  Forall (sent_ok (sp_skip p)) tr -> sp_buf p = [] -> concat chunks = wire tr -> is_byte (sp_down p) ->
  exists p', read_chunks lib (mkReader p m true) chunks = mkReader p' (fold_left dispatch (SSerial.delivered tr) m) true
    /\ sp_buf p' = [].
Proof. exact reader_traffic. Qed.
Print Assumptions C48_reader_hands_over_the_traffic.
Example C48_case :
  let m := set_connected (new_modem true true false) in
  let fs := [(0, 1, [192; 0; 1]); (1, 5, [3]); (2, 1, []); (9, 4, [72; 105]); (10, 3, [1])] in
  let stream := flat_map bridge_frame fs in
  Forall bridge_ok fs /\
  m_cb_calls (r_modem (read_chunks true (mkReader (new_parser true) m true)
     [firstn 5 stream; []; firstn 10 (skipn 5 stream); skipn 15 stream])) = [MRaw [192; 0; 1]; MRaw []; MRaw [1]].
Proof.
  split.
  - repeat constructor; unfold is_byte, is_payload, zlen; cbn; try lia; try discriminate.
  - vm_compute. reflexivity.
Qed.
