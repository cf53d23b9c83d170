(** Several threads sending through one modem: property C58. *)
From Verif Require Import MBase SThreads LThreads LThreads2.

(** whatever the interleaving, the wire carries whole frames one after the
    other, then at most the beginning of the frame of the thread that is
    writing; each thread's frames are, in order, the commands for which its
    calls have returned normally, and no command is skipped or sent twice *)
Theorem C58_frames_never_interleave : forall c programs sched s, Forall program_bytes programs ->
  threads_run (threads_start c programs) sched = Some s ->
  exists L part, sh_wire s = flat_map tr_frame L ++ part /\ Forall transmission_ok L
  /\ length (sh_threads s) = length programs
  /\ (forall i t, nth_error (sh_threads s) i = Some t ->
        of_thread i L = returned_normally t /\ nth i programs [] = map fst (t_log t) ++ current t ++ t_todo t)
  /\ (part = [] \/ exists i t, nth_error (sh_threads s) i = Some t /\ writing t part).
Proof. exact threads_wire. Qed.
Print Assumptions C58_frames_never_interleave.

(** a receiver gets exactly these commands, whatever chunks it reads; frames
    out of step only show in its error counter *)
Theorem C58_all_delivered : forall lib c programs sched s q chunks, Forall program_bytes programs ->
  threads_run (threads_start c programs) sched = Some s -> all_done s ->
  sp_skip q = true -> sp_buf q = [] -> is_byte (sp_down q) -> concat chunks = sh_wire s -> chunks <> [] ->
  exists L q', feeds lib q chunks q' (map (fun x => (1, MRaw (tr_alp x))) L) [] /\ sp_buf q' = []
  /\ sp_errs q' = sp_errs q + jumps (sp_down q) (map tr_counter L)
  /\ forall i t, nth_error (sh_threads s) i = Some t ->
       of_thread i L = returned_normally t /\ nth i programs [] = map fst (t_log t).
Proof. exact threads_delivered. Qed.
Print Assumptions C58_all_delivered.

(** no interleaving gets stuck, and none runs for ever *)
Theorem C58_no_deadlock : forall c programs sched s, Forall program_bytes programs ->
  threads_run (threads_start c programs) sched = Some s ->
  (forall i, thread_step s i = None) -> all_done s.
Proof. exact no_deadlock. Qed.
Print Assumptions C58_no_deadlock.
Theorem C58_every_schedule_ends : forall c programs, exists n, forall sched s,
  threads_run (threads_start c programs) sched = Some s -> (length sched <= n)%nat.
Proof. exact schedules_end. Qed.
Print Assumptions C58_every_schedule_ends.

(** as long as the counter cannot reach 256, a command that can be serialized
    is refused only for its size *)
Theorem C58_no_spurious_errors_before_wrap : forall c programs sched s, 0 <= c -> c + zlen (concat programs) <= 255 ->
  threads_run (threads_start c programs) sched = Some s ->
  forall i t alp e, nth_error (sh_threads s) i = Some t -> In (Ok alp, Some e) (t_log t) ->
  e = ValueError /\ 255 < zlen alp.
Proof. exact no_wrap_no_error. Qed.
Print Assumptions C58_no_spurious_errors_before_wrap.

(** at the wrap a thread can see the counter at 256: its call raises
    [ValueError] for a command that is perfectly legal *)
Theorem C58_spurious_error_refuted : forall a b, is_payload a -> is_payload b -> exists sched s,
  threads_run (threads_start 255 [[Ok a]; [Ok b]]) sched = Some s
  /\ exists t0 t1, sh_threads s = [t0; t1] /\ t_log t1 = [(Ok b, Some ValueError)].
Proof. exact race_256. Qed.
Print Assumptions C58_spurious_error_refuted.

(** two threads can send frames with the same counter *)
Theorem C58_distinct_counters_refuted : forall c a b, 0 <= c < 255 -> is_payload a -> is_payload b -> exists sched s,
  threads_run (threads_start c [[Ok a]; [Ok b]]) sched = Some s /\ all_done s
  /\ sh_wire s = frame c 1 a ++ frame c 1 b.
Proof. exact race_duplicate. Qed.
Print Assumptions C58_distinct_counters_refuted.

(** Threads whose calls do not overlap, in any order: the frames and the counter
    are those of [build_serial_frame], *)
Theorem C58_one_call : forall s i t a r, nth_error (sh_threads s) i = Some t -> t_pc t = TIdle -> t_todo t = Ok a :: r ->
  sh_lock s = None -> is_byte (sh_counter s) -> is_payload a ->
  exists n p' f, build_serial_frame (mkSP [] true (sh_counter s) 0 0) (Ok a) = (p', Ok f)
  /\ threads_run s (repeat i n) = Some (mkShared (sp_up p') None (sh_wire s ++ f) (set_nth i (mkThread r TIdle (t_log t ++ [(Ok a, None)])) (sh_threads s))).
Proof. exact turn. Qed.
Print Assumptions C58_one_call.
Theorem C58_in_turn : forall c programs order l, is_byte c -> in_turn programs order = Some (map Ok l) -> Forall is_payload l ->
  exists sched s fs p', threads_run (threads_start c programs) sched = Some s
    /\ sends (mkSP [] true c 0 0) (map Ok l) fs p' /\ sh_wire s = concat fs /\ sh_counter s = sp_up p'.
Proof. exact turns_start. Qed.
Print Assumptions C58_in_turn.
(** so that a receiver in step counts no loss, also at the wrap *)
Theorem C58_in_turn_no_loss : forall lib c programs order l q chunks, is_byte c -> in_turn programs order = Some (map Ok l) -> Forall is_payload l ->
  sp_skip q = true -> sp_buf q = [] -> is_byte (sp_down q) -> counter_after (sp_down q) = c ->
  exists sched s, threads_run (threads_start c programs) sched = Some s
    /\ (concat chunks = sh_wire s -> chunks <> [] ->
        exists q', feeds lib q chunks q' (map (fun a => (1, MRaw a)) l) [] /\ sp_buf q' = [] /\ sp_errs q' = sp_errs q).
Proof. exact turns_received. Qed.
Print Assumptions C58_in_turn_no_loss.
Example C58_case_in_turn : in_turn [[Ok [81]; Ok [83]]; [Ok [82]]] [0; 1; 0]%nat = Some (map Ok [[81]; [82]; [83]])
  /\ exists s, threads_run (threads_start 255 [[Ok [81]; Ok [83]]; [Ok [82]]]) (repeat 0 16 ++ repeat 1 15 ++ repeat 0 15)%nat = Some s
     /\ all_done s /\ sh_wire s = frame 255 1 [81] ++ frame 0 1 [82] ++ frame 1 1 [83].
Proof.
  split; [vm_compute; reflexivity|]. eexists. split; [vm_compute; reflexivity|]. unfold all_done.
  split; [repeat constructor | vm_compute; reflexivity].
Qed.

(** two threads, the second overtaking the first *)
Example C58_case :
  exists s, threads_run (threads_start 7 [[Ok [81]]; [Ok [82]; Err KeyError]])
              (repeat 0 5 ++ repeat 1 16 ++ repeat 0 10)%nat = Some s
  /\ all_done s /\ Forall program_bytes [[Ok [81]]; [Ok [82]; Err KeyError]]
  /\ sh_wire s = frame 8 1 [82] ++ frame 7 1 [81]
  /\ map t_log (sh_threads s) = [[(Ok [81], None)]; [(Ok [82], None); (Err KeyError, Some KeyError)]].
Proof.
  eexists. split; [vm_compute; reflexivity|]. unfold all_done, program_bytes, is_byte.
  split; [repeat constructor|]. split; [repeat constructor; discriminate|]. split; vm_compute; reflexivity.
Qed.
