(** Example programs whose callback leaves the reader thread: property C97. *)
From Verif Require Import SExit LExit.

(** The callback of the programs calls sys.exit(0) for a command that completes.
    The reader thread lives through what the device sends exactly when nothing
    in it completes a command other than the one waited for *)
Theorem C97_lives : forall lib s tr es, in_use s -> listening s -> brings es tr ->
  (reader_runs (events_cb lib exit_callbacks s es) <-> Forall (fun tx => ~ completes_other (waits_for s) tx) (delivered tr)).
Proof. exact reader_lives. Qed.
Print Assumptions C97_lives.

(** as long as it lives the programs do what they do without the callback, and
    with callbacks that never raise they always do *)
Theorem C97_update_same : forall lib cbs rounds s rest off s' log st,
  update_loop lib cbs s rest off rounds = (s', log, st) -> reader_runs s' -> ota lib s rest off rounds = (s', log, st).
Proof. exact update_same. Qed.
Print Assumptions C97_update_same.
Theorem C97_mode_same : forall lib cbs c rounds s s' log st,
  mode_loop lib cbs s c rounds = (s', log, st) -> reader_runs s' -> engineering lib s c rounds = (s', log, st).
Proof. exact mode_same. Qed.
Print Assumptions C97_mode_same.
Theorem C97_benign : forall lib cbs, (forall m x, cb_raises cbs m x = false) -> (forall m x, rbcb_raises cbs m x = false) ->
  (forall rounds s rest off, update_loop lib cbs s rest off rounds = ota lib s rest off rounds)
  /\ (forall c rounds s, mode_loop lib cbs s c rounds = engineering lib s c rounds).
Proof. intros lib cbs H1 H2. split; [intros; apply update_benign | intros; apply mode_benign]; assumption. Qed.
Print Assumptions C97_benign.

(** Once it is dead nothing the device does is noticed, for ever *)
Theorem C97_dead : forall lib cbs s es, ~ reader_runs s -> events_cb lib cbs s es = s.
Proof. intros lib cbs s es. apply dead_events. Qed.
Print Assumptions C97_dead.
(** engineering_mode.py, having set a mode, waits for a reboot: it notices one
    exactly if nothing before it completes another command *)
Theorem C97_stop : forall lib s tr es, in_use s -> listening s -> to_reboot_callback s = true -> brings es tr ->
  (may_stop (events_cb lib exit_callbacks s es) = true
   <-> may_stop s = true \/ exists before x after, tr = before ++ x :: after /\ s_type x = 5
         /\ Forall (fun tx => ~ completes_other (waits_for s) tx) (delivered before)).
Proof. exact stop_heard. Qed.
Print Assumptions C97_stop.
(** the next write of the update fails whatever the device answers *)
Theorem C97_update_dead : forall lib cbs s rest off rnd es rounds, usable_session s -> Forall is_byte rest -> rest <> [] -> 0 <= rnd <= 255 ->
  0 <= off <= len_max -> ~ reader_runs s ->
  exists c s', ota_command rnd off (firstn 239 rest) = Ok c
  /\ update_loop lib cbs s rest off ((rnd, es) :: rounds) = (s', [(c, [])], OtaFailed).
Proof. exact update_dead. Qed.
Print Assumptions C97_update_dead.
(** the other program never ends and sends the same command again and again *)
Theorem C97_mode_dead : forall lib cbs s c rounds, command_wf c -> command_bytes c <= 255 -> usable_session s -> ~ reader_runs s ->
  exists s' bytes, mode_loop lib cbs s c rounds = (s', map (fun _ => (c, [])) rounds, EngRunning)
  /\ ~ reader_runs s' /\ se_sent s' = se_sent s ++ bytes /\ received_over lib bytes (repeat (command_received c) (length rounds)).
Proof. exact mode_hangs. Qed.
Print Assumptions C97_mode_dead.

(** A response to another command that arrives before the confirmation: the write
    counts as failed although it may have been confirmed right behind ([after],
    [more]) *)
Theorem C97_update_late : forall lib s rest off rnd es more rounds before late after, in_use s -> listening s ->
  Forall is_byte rest -> rest <> [] -> 0 <= rnd <= 255 -> 0 <= off <= len_max ->
  brings es (before ++ late :: after) -> Forall (fun tx => ~ completes (Some rnd) tx) (delivered before) ->
  completes_other (Some rnd) (s_type late, s_msg late) ->
  exists c s', ota_command rnd off (firstn 239 rest) = Ok c
  /\ update_loop lib exit_callbacks s rest off ((rnd, es ++ more) :: rounds) = (s', [(c, [])], OtaFailed).
Proof. exact late_update. Qed.
Print Assumptions C97_update_late.
Theorem C97_mode_late : forall lib s c es more rounds before late after, in_use s -> listening s -> command_wf c -> command_bytes c <= 255 ->
  brings es (before ++ late :: after) -> Forall (fun tx => ~ completes (c_tag c) tx) (delivered before) ->
  completes_other (c_tag c) (s_type late, s_msg late) ->
  exists s' bytes, mode_loop lib exit_callbacks s c ((es ++ more) :: rounds) = (s', map (fun _ => (c, [])) ((es ++ more) :: rounds), EngRunning)
  /\ ~ reader_runs s' /\ se_sent s' = se_sent s ++ bytes /\ received_over lib bytes (repeat (command_received c) (S (length rounds))).
Proof. exact late_mode. Qed.
Print Assumptions C97_mode_late.

(** The program itself: the confirmation of its first write, to file 199, comes
    after the ten seconds execute_command waited for it (which the program does not notice), during
    the first write of the image *)
Theorem C97_program_late : forall lib s image rnd0 es0 quiet rnd es before late after more rounds, in_use s -> listening s ->
  Forall is_byte image -> image <> [] -> 0 <= rnd0 <= 255 -> 0 <= rnd <= 255 -> rnd0 <> rnd ->
  brings es0 quiet -> Forall (fun tx => forall tag, ~ completes tag tx) (delivered quiet) ->
  brings es (before ++ late :: after) -> Forall (fun tx => ~ completes (Some rnd) tx) (delivered before) ->
  completes (Some rnd0) (s_type late, s_msg late) ->
  exists c s', ota_command rnd 0 (firstn 239 image) = Ok c
  /\ update_program lib exit_callbacks s image rnd0 es0 ((rnd, es ++ more) :: rounds) = (s', [(c, [])], OtaFailed).
Proof. exact late_program. Qed.
Print Assumptions C97_program_late.

(** What C59 says of the result stays true with any callbacks *)
Theorem C97_what_the_node_gets : forall lib cbs s file rounds s' log st, update_run lib cbs s file rounds s' log st ->
  exists bytes, se_sent s' = se_sent s ++ bytes /\ received_over lib bytes (commands_of log)
  /\ forall old, fold_left (node_receives 200) (commands_of log) old
     = firstn (239 * length log) file ++ skipn (Nat.min (239 * length log) (length file)) old.
Proof. exact update_node. Qed.
Print Assumptions C97_what_the_node_gets.
Theorem C97_done : forall lib cbs s file rounds s' log, update_run lib cbs s file rounds s' log OtaDone ->
  Forall confirmed log
  /\ forall old, fold_left (node_receives 200) (commands_of log) old = file ++ skipn (length file) old.
Proof. exact update_done. Qed.
Print Assumptions C97_done.
Theorem C97_failed : forall lib cbs s file rounds s' log, update_run lib cbs s file rounds s' log OtaFailed ->
  exists l x, log = l ++ [x] /\ Forall confirmed l /\ ~ confirmed x.
Proof. exact update_failed. Qed.
Print Assumptions C97_failed.

(** An image of one byte, tags 5 and 7: both writes confirmed, the first late *)
Definition C97_start : Session := mkSession (mkReader (new_parser false) (set_connected (new_modem false true true)) true) None None [].
Definition C97_sent (n tag : Z) : Sent := mkSent n 1 [163; tag] (MCmd (mkCommand [] None false (Some tag) true true (Some false))).
Definition C97_events : list DeviceEvent := [DBytes (wire [C97_sent 0 5]); DBytes (wire [C97_sent 1 7])].
Example C97_hypotheses : in_use C97_start /\ listening C97_start
  /\ brings C97_events ([] ++ C97_sent 0 5 :: [C97_sent 1 7])
  /\ completes (Some 5) (1, s_msg (C97_sent 0 5)) /\ completes_other (Some 7) (1, s_msg (C97_sent 0 5)).
Proof.
  assert (K : forall n tag, 0 <= n <= 255 -> tag = 5 \/ tag = 7 -> sent_ok false (C97_sent n tag)).
  { intros n tag N T. unfold sent_ok, C97_sent. cbn [s_counter s_type s_payload s_msg].
    refine (conj N (conj _ (conj _ _))); [unfold is_byte; lia | |].
    - split; [constructor; [unfold is_byte; lia | constructor; [unfold is_byte; lia | constructor]] | unfold zlen; cbn [length]; lia].
    - intros rest _. apply carries_alp; [reflexivity | discriminate | discriminate |].
      destruct T as [-> | ->]; vm_compute; reflexivity. }
  split; [|split; [|split; [|split]]].
  - refine (conj eq_refl (conj eq_refl (conj eq_refl (conj _ (conj _ eq_refl))))); unfold is_byte; cbn; lia.
  - repeat split.
  - exists [wire [C97_sent 0 5]; wire [C97_sent 1 7]]. split; [reflexivity|]. split; [|reflexivity].
    constructor; [apply K; auto; lia|]. constructor; [apply K; auto; lia|]. constructor.
  - eexists. refine (conj eq_refl (conj _ (conj eq_refl eq_refl))). cbn. lia.
  - eexists. refine (conj eq_refl (conj _ (conj eq_refl _))); [cbn; lia | discriminate].
Qed.
Example C97_case : (exists s' c, update_program true exit_callbacks C97_start [65] 5 [] [(7, C97_events)] = (s', [(c, [])], OtaFailed))
  /\ (exists s' c a, update_program true (mkCallbacks (fun _ _ => false) (fun _ _ => false)) C97_start [65] 5 [] [(7, C97_events)] = (s', [(c, a)], OtaDone))
  /\ (exists s' c a, update_program true exit_callbacks C97_start [65] 5 [DBytes (wire [C97_sent 0 5])] [(7, [DBytes (wire [C97_sent 1 7])])] = (s', [(c, a)], OtaDone)
       /\ reader_runs s')
  /\ may_stop (events_cb true exit_callbacks C97_start [DBytes (frame 0 5 [2])]) = true
  /\ may_stop (events_cb true exit_callbacks C97_start (C97_events ++ [DBytes (frame 0 5 [2])])) = false.
Proof.
  split; [|split; [|split; [|split]]]; [eexists _, _ | eexists _, _, _ | eexists _, _, _; split | |]; vm_compute; reflexivity.
Qed.
