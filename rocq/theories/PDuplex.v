(** Both ends of the serial line send and receive at the same time: property C84. *)
From Verif Require Import MBase SDuplex LDuplex.

(** whatever the two ends do, in whatever order and with reads of whatever length:
    no call of [parse] raises or reports an error, each end has got, in order and
    once, the first of the messages the other end sent; the others are under way,
    and if nothing is under way there are none; a command that cannot be sent
    disturbs nothing *)
Theorem C84_both_ways : forall lib a b l ma mb, at_rest a -> at_rest b -> talk (sp_skip a) (sp_skip b) l ma mb ->
  exists w under_way_b under_way_a, moves lib (idle_pair a b) l = Some w
  /\ as_data ma = p_got_b w ++ under_way_b /\ as_data mb = p_got_a w ++ under_way_a
  /\ (p_ab w = [] -> under_way_b = []) /\ (p_ba w = [] -> under_way_a = [])
  /\ p_errors w = []
  /\ sp_errs (p_a w) = sp_errs a + first_jump b a (p_got_a w) /\ sp_errs (p_b w) = sp_errs b + first_jump a b (p_got_b w).
Proof. exact duplex. Qed.
Print Assumptions C84_both_ways.

(** after any such history one long enough read at each end brings the rest *)
Theorem C84_drained : forall lib a b l ma mb w, at_rest a -> at_rest b -> talk (sp_skip a) (sp_skip b) l ma mb ->
  moves lib (idle_pair a b) l = Some w -> forall n k, (length (p_ab w) <= n)%nat -> (length (p_ba w) <= k)%nat ->
  exists w', moves lib w [BReads n; AReads k] = Some w' /\ p_got_b w' = as_data ma /\ p_got_a w' = as_data mb
  /\ p_ab w' = [] /\ p_ba w' = [] /\ p_errors w' = [] /\ at_rest (p_a w') /\ at_rest (p_b w').
Proof. exact duplex_drain. Qed.
Print Assumptions C84_drained.

(** two new objects: the first frame that arrives at an end counts as one error *)
Theorem C84_new_objects : forall lib ska skb l ma mb, talk ska skb l ma mb ->
  exists w, moves lib (idle_pair (new_parser ska) (new_parser skb)) l = Some w /\ p_errors w = []
  /\ sp_errs (p_a w) = (match p_got_a w with [] => 0 | _ => 1 end) /\ sp_errs (p_b w) = (match p_got_b w with [] => 0 | _ => 1 end).
Proof. exact duplex_fresh. Qed.
Print Assumptions C84_new_objects.

(** a schedule: frames cross, B reads the first frame of A in three pieces and sends
    in between, one command of A is too long *)
Definition C84_schedule : list Move :=
  [ASends (Ok [192; 0; 7]); BReads 4; BSends (Ok [1]); BReads 5; ASends (Ok (repeat 0 256)); AReads 100;
   ASends (Ok [2]); BSends (Ok [3; 3]); BReads 3; AReads 2].
Example C84_case : talk true true C84_schedule [MRaw [192; 0; 7]; MRaw [2]] [MRaw [1]; MRaw [3; 3]]
  /\ exists w, moves true (idle_pair (new_parser true) (new_parser true)) C84_schedule = Some w
  /\ p_got_b w = [(1, MRaw [192; 0; 7])] /\ p_got_a w = [(1, MRaw [1])]
  /\ p_ab w <> [] /\ p_ba w <> [] /\ sp_buf (p_b w) <> [] /\ sp_buf (p_a w) <> [] /\ sp_errs (p_a w) = 1.
Proof.
  assert (T : forall d, zlen d <= 255 -> Forall is_byte d -> transmits true (Ok d) (MRaw d)).
  { intros d L F. apply transmits_raw. exact (conj F L). }
  split.
  - unfold C84_schedule.
    apply talk_a; [apply T; [unfold zlen; cbn; lia | repeat constructor; unfold is_byte; lia]|].
    apply talk_b_reads. apply talk_b; [apply T; [unfold zlen; cbn; lia | repeat constructor; unfold is_byte; lia]|].
    apply talk_b_reads. apply talk_a_refused; [right; eexists; split; [reflexivity | vm_compute; reflexivity]|].
    apply talk_a_reads. apply talk_a; [apply T; [unfold zlen; cbn; lia | repeat constructor; unfold is_byte; lia]|].
    apply talk_b; [apply T; [unfold zlen; cbn; lia | repeat constructor; unfold is_byte; lia]|].
    apply talk_b_reads, talk_a_reads, talk_nil.
  - eexists. split; [vm_compute; reflexivity|]. cbn. repeat split; discriminate.
Qed.
