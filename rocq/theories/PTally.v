(** C106: the counters of a Parser used by several threads. *)
From Coq Require Import ZArith List.
From Verif Require Import Bits MBase MAlp MSerial MInside MTally STally STally2 LTally LTally2 LTally3.
Import ListNotations.
Open Scope Z_scope.

Theorem C106_alone : forall p w i c, nth_error (ta_at w) i = Some TIdle ->
  exists k w', tally_run w (TFrame i c :: repeat (TGo i) k) = Some w'
  /\ counters_in p w' = bump (counters_in p w) c /\ ta_at w' = ta_at w.
Proof. exact tally_alone. Qed.
Print Assumptions C106_alone.
Theorem C106_alternately : forall p n ls w, alternately (tally_of p n) ls w ->
  counters_in p w = fold_left bump (counters_of ls) p.
Proof. exact tally_turns. Qed.
Print Assumptions C106_alternately.
Theorem C106_alternately_exists : forall p n calls, Forall (fun x => (fst x < n)%nat) calls ->
  exists ls w, alternately (tally_of p n) ls w /\ counters_of ls = map snd calls.
Proof. exact tally_turns_exist. Qed.
Print Assumptions C106_alternately_exists.
Theorem C106_comes_out : forall w i, (i < length (ta_at w))%nat ->
  exists k w', tally_run w (repeat (TGo i) k) = Some w' /\ ta_at w' = move i TIdle (ta_at w).
Proof. exact tally_comes_out. Qed.
Print Assumptions C106_comes_out.
Theorem C106_byte_at_rest : forall p n ls w, counters_ok p -> Forall is_byte (counters_of ls) ->
  tally_run (tally_of p n) ls = Some w -> all_out w -> is_byte (ta_down w).
Proof. exact tally_range. Qed.
Print Assumptions C106_byte_at_rest.
Theorem C106_errors_bounded : forall p n ls w, counters_ok p -> Forall is_byte (counters_of ls) ->
  tally_run (tally_of p n) ls = Some w ->
  sp_errs p <= ta_errs w <= sp_errs p + Z.of_nat (length (counters_of ls)).
Proof. exact tally_bounds. Qed.
Print Assumptions C106_errors_bounded.
Theorem C106_recovers : forall w more v, alternately w more v ->
  successive (counters_of more) -> Forall is_byte (counters_of more) -> ta_errs v <= ta_errs w + 1.
Proof. exact tally_recovers. Qed.
Print Assumptions C106_recovers.
Theorem C106_no_false_alarm_refuted : forall sk, exists ls w, tally_run (tally_of (new_parser sk) 2) ls = Some w /\ all_out w
  /\ counters_of ls = [1; 2] /\ sp_errs (fold_left bump (counters_of ls) (new_parser sk)) = 0 /\ ta_errs w = 1.
Proof. exact tally_false_alarm. Qed.
Print Assumptions C106_no_false_alarm_refuted.
Theorem C106_all_counted_refuted : forall sk, exists ls w, tally_run (tally_of (new_parser sk) 2) ls = Some w /\ all_out w
  /\ counters_of ls = [5; 9] /\ sp_errs (fold_left bump (counters_of ls) (new_parser sk)) = 2 /\ ta_errs w = 1.
Proof. exact tally_undercount. Qed.
Print Assumptions C106_all_counted_refuted.
Theorem C106_never_decreases_refuted : forall sk, exists ls more w v, tally_run (tally_of (new_parser sk) 2) ls = Some w
  /\ tally_run w more = Some v /\ Forall is_byte (counters_of (ls ++ more)) /\ ta_errs v < ta_errs w.
Proof. exact tally_goes_down. Qed.
Print Assumptions C106_never_decreases_refuted.
Theorem C106_always_byte_refuted : forall sk N, exists ls w, tally_run (tally_of (new_parser sk) 2) ls = Some w
  /\ Forall is_byte (counters_of ls) /\ N < ta_down w.
Proof. exact tally_unbounded. Qed.
Print Assumptions C106_always_byte_refuted.

(** the messages, errors and buffers do not depend on the counters, however these change meanwhile *)
Theorem C106_messages_unaffected : forall lib p n ls w, shaken lib (inside_of p n) ls w ->
  exists v, inside_run lib (inside_of p n) ls = Some v /\ in_results v = in_results w
  /\ in_places v = in_places w /\ in_store v = in_store w /\ in_cur v = in_cur w.
Proof. exact counters_shaken. Qed.
Print Assumptions C106_messages_unaffected.

(** the cases are met: two threads take turns, over the wrap from 255 to 0; the first frame is out of step *)
Example C106_case_turns : exists w, alternately (tally_of (new_parser true) 2)
    (TFrame 0 255 :: repeat (TGo 0) 7 ++ TFrame 1 0 :: repeat (TGo 1) 5 ++ TFrame 0 1 :: repeat (TGo 0) 4 ++ []) w
  /\ successive [255; 0; 1] /\ ta_down w = 1 /\ ta_errs w = 1.
Proof.
  eexists. split.
  - econstructor; [vm_compute; reflexivity | repeat constructor|].
    econstructor; [vm_compute; reflexivity | repeat constructor|].
    econstructor; [vm_compute; reflexivity | repeat constructor|]. constructor.
  - repeat split.
Qed.
(** two threads interleaved at the wrap, both out in the end *)
Example C106_case_rest : exists w, counters_ok (mkSP [] true 0 255 0)
  /\ tally_run (tally_of (mkSP [] true 0 255 0) 2)
      ([TFrame 0 0; TFrame 1 1; TGo 0; TGo 0; TGo 1]%nat ++ repeat (TGo 0) 3 ++ repeat (TGo 1) 7) = Some w
  /\ all_out w /\ ta_down w = 1 /\ ta_errs w = 1.
Proof.
  eexists. split; [split; discriminate|]. split; [vm_compute; reflexivity|]. split; [repeat constructor|]. split; reflexivity.
Qed.
(** a frame is received while its counters are changed; only these differ *)
Example C106_case_shaken : exists w, shaken false (inside_of (new_parser true) 1)
    (ICall 0 [192; 0; 1; 4; 1; 185; 21; 65] :: repeat (IGo 0) 17) w
  /\ in_results w = [(0%nat, Ok (mkPR [(4, MRaw [65])] 64 0 []))] /\ in_errs w = 9.
Proof.
  eexists. split.
  - econstructor; [vm_compute; reflexivity|]. apply sh_change with (d := 300) (e := 8). cbn [repeat].
    repeat (econstructor; [vm_compute; reflexivity|]). constructor.
  - split; reflexivity.
Qed.
