(** The bridge to MQTT: property C73. *)
From Verif Require Import SBridge LBridge.

(** At any moment of any schedule of the two threads, with any chunking: the ALP
    payloads of the frames handled after the constructor's last assignment are
    the ones published, once each and in order; those handled before it are
    lost: logged as errors after [connect()], silently put aside before. *)
Theorem C73_at_any_moment : forall lib rnd ls b fs rest, 0 <= rnd <= 255 -> Forall bridge_ok fs -> ~ device_fails ls ->
  bytes_read ls ++ rest = flat_map bridge_frame fs -> bridge_run lib rnd bridge_start ls = Some b ->
  let seen := firstn (handled ls) fs in
  let n1 := handled_before 1 ls in
  let n3 := handled_before 3 ls in
  length seen = handled ls
  /\ kept b = map MRaw (payloads alp (firstn n1 seen))
  /\ br_outcomes b = map (fun _ => Failed AttributeError) (payloads alp (skipn n1 (firstn n3 seen)))
                     ++ map Published (payloads alp (skipn n3 seen))
  /\ reading b = true
  /\ se_sent (br_session b) = match br_setup b with ModemMade => [] | _ => frame 0 1 (connect_request rnd) end
  /\ (br_setup b = ModemMade <-> ~ In BMain ls).
Proof. exact bridge_any_moment. Qed.
Print Assumptions C73_at_any_moment.
(** a program that has finished its constructor before the first byte arrives
    publishes every ALP payload *)
Theorem C73_all_published : forall lib rnd ls b fs, 0 <= rnd <= 255 -> Forall bridge_ok fs -> ~ device_fails ls ->
  bytes_read ls = flat_map bridge_frame fs -> bridge_run lib rnd bridge_start (set_up ++ ls) = Some b -> br_pending b = [] ->
  published b = payloads alp fs /\ kept b = [] /\ (forall e, ~ In (Failed e) (br_outcomes b)).
Proof. exact bridge_all. Qed.
Print Assumptions C73_all_published.
(** that [connect()] has returned is not enough *)
Theorem C73_published_after_connect_refuted :
  ~ (forall lib rnd ls b fs, 0 <= rnd <= 255 -> Forall bridge_ok fs -> ~ device_fails ls ->
     bytes_read ls = flat_map bridge_frame fs -> bridge_run lib rnd bridge_start (BMain :: ls) = Some b -> br_pending b = [] ->
     published b = payloads alp fs).
Proof. exact lost_after_connect. Qed.
Print Assumptions C73_published_after_connect_refuted.
(** whatever bytes arrive: the reader survives, and what is published are
    payloads of frames found in the bytes, in their order *)
Theorem C73_any_bytes : forall lib rnd ls b, 0 <= rnd <= 255 -> only_bytes ls -> ~ device_fails ls ->
  bridge_run lib rnd bridge_start ls = Some b ->
  let n1 := handled_before 1 ls in
  let n3 := handled_before 3 ls in
  reading b = true /\ exists ms, decodes true (bytes_read ls) (ms ++ br_pending b) /\ length ms = handled ls
  /\ kept b = map MRaw (alp_payloads (firstn n1 ms))
  /\ br_outcomes b = map (fun _ => Failed AttributeError) (alp_payloads (skipn n1 (firstn n3 ms)))
                     ++ map Published (alp_payloads (skipn n3 ms))
  /\ session_inbox PReboots (br_session b) = of_kind 5 ms /\ session_inbox PRebootCallback (br_session b) = []
  /\ session_inbox PLog (br_session b) = of_kind 4 ms.
Proof. exact bridge_any_bytes. Qed.
Print Assumptions C73_any_bytes.
(** nothing blocks: the reader can go on, and so can the main thread *)
Theorem C73_never_stuck : forall lib rnd ls b, 0 <= rnd <= 255 -> only_bytes ls -> ~ device_fails ls ->
  bridge_run lib rnd bridge_start ls = Some b ->
  (br_pending b = [] -> forall chunk, Forall is_byte chunk -> exists b', bridge_step lib rnd b (BDevice (DBytes chunk)) = Some b')
  /\ (br_pending b <> [] -> exists b', bridge_step lib rnd b BHandle = Some b')
  /\ (br_setup b <> TopicKnown -> exists b', bridge_step lib rnd b BMain = Some b').
Proof. exact bridge_never_stuck. Qed.
Print Assumptions C73_never_stuck.
(** once the device has failed the program runs on and publishes nothing more *)
Theorem C73_after_device_failure : forall lib rnd ls b b', reading b = false -> br_pending b = [] ->
  bridge_run lib rnd b ls = Some b' ->
  br_outcomes b' = br_outcomes b /\ kept b' = kept b /\ reading b' = false /\ br_pending b' = []
  /\ forall l, In l ls -> l = BMain.
Proof. exact bridge_dead. Qed.
Print Assumptions C73_after_device_failure.
Theorem C73_device_failure : forall lib rnd b b', bridge_step lib rnd b (BDevice DException) = Some b' ->
  reading b' = false /\ br_pending b' = [] /\ br_outcomes b' = br_outcomes b /\ kept b' = kept b.
Proof. exact bridge_fails. Qed.
Print Assumptions C73_device_failure.
(** the number of messages is never reported: nothing counts them *)
Theorem C73_statistics_refuted : forall wakes, run_reports no_stats wakes = [].
Proof. exact (fun wakes => no_reports wakes no_stats eq_refl). Qed.
Print Assumptions C73_statistics_refuted.
(** nothing else is wrong with them: were the counting method called for each
    message, every message would be in exactly one report or still waiting, and
    reports would be more than 15 seconds apart *)
Theorem C73_statistics_if_counted : forall es log s2, stats_log no_stats es = (log, s2) ->
  total log + bridge_count s2 = counted_in es /\ 0 <= bridge_count s2 /\ Forall (fun x => 0 < snd x) log
  /\ forall l1 a b l2, log = l1 ++ a :: b :: l2 -> fst a + 15 < fst b.
Proof. exact stats_would_work. Qed.
Print Assumptions C73_statistics_if_counted.
Example C73_case_statistics :
  fst (stats_log no_stats [Counted; Counted; Woken 100; Counted; Woken 115; Woken 116; Counted; Woken 131; Woken 132]) = [(100, 2); (116, 1); (132, 1)].
Proof. reflexivity. Qed.

Definition C73_frames := [(0, 1, [52; 1]); (1, 4, [72; 105]); (2, 1, [180; 7; 1; 64; 0; 8]); (3, 3, []); (9, 5, [1]); (10, 2, [5])].
Definition C73_stream := flat_map bridge_frame C73_frames.
Definition C73_schedule :=
  [BDevice (DBytes (firstn 12 C73_stream)); BMain; BHandle; BDevice (DBytes (firstn 25 (skipn 12 C73_stream)));
   BHandle; BMain; BHandle; BMain; BDevice (DBytes (skipn 37 C73_stream)); BHandle; BHandle; BHandle].
Example C73_case : Forall bridge_ok C73_frames /\ bytes_read C73_schedule = flat_map bridge_frame C73_frames
  /\ exists b, bridge_run true 200 bridge_start C73_schedule = Some b /\ br_pending b = []
  /\ published b = [[]; [5]] /\ br_outcomes b = [Failed AttributeError; Failed AttributeError; Published []; Published [5]].
Proof.
  split; [|split; [vm_compute; reflexivity|]].
  - unfold C73_frames, bridge_ok, is_payload, is_byte, zlen.
    repeat (constructor; [cbn; repeat split; try lia; repeat constructor; try lia|]). constructor.
  - eexists. split; [vm_compute; reflexivity|]. repeat split.
Qed.
Example C73_case_all : exists b, bridge_run true 200 bridge_start
   (set_up ++ [BDevice (DBytes C73_stream); BHandle; BHandle; BHandle; BHandle; BHandle; BHandle]) = Some b
  /\ br_pending b = [] /\ published b = [[52; 1]; [180; 7; 1; 64; 0; 8]; []; [5]].
Proof. eexists. split; [vm_compute; reflexivity|]. split; reflexivity. Qed.
Example C73_case_failure : exists b b', bridge_run true 200 bridge_start [BMain] = Some b
  /\ bridge_step true 200 b (BDevice DException) = Some b' /\ bridge_step true 200 b' (BDevice (DBytes [192])) = None.
Proof. eexists _, _. split; [vm_compute; reflexivity|]. split; [vm_compute; reflexivity|]. reflexivity. Qed.
