(** C70 on a line that damages frames: the loop of examples/engineering_mode.py. *)
From Coq Require Import String.
From Verif Require Import SResend LResend LPrograms LConverse PDamage PPrograms.
Open Scope string_scope.
Open Scope list_scope.
Open Scope Z_scope.

(** The program repeats its command as long as the damage leaves no confirmation, and
    ends with the first call of which a confirmation is left; it looks at nothing else *)
Theorem C70_damaged_line : forall lib s rnd o c lost r rest, in_use s -> 0 <= rnd <= 255 -> engineering_command rnd o = Ok c ->
  Forall heard_ok (lost ++ [r]) -> Forall (fun r => to_repeat (call_left c r)) lost ->
  all_tag_responses (call_left c r) -> confirmed (call_left c r) ->
  exists s2, engineering lib s c (map as_events lost ++ as_events r :: rest) = (s2, map (call_left c) (lost ++ [r]), EngDone) /\ in_use s2.
Proof. intros lib s rnd o c lost r rest U H E. destruct (engineering_wf rnd o c H E) as [W L]. exact (resend_done lib s c lost r rest U W L). Qed.
Print Assumptions C70_damaged_line.
(** while there is none it goes on, for ever if need be, and survives *)
Theorem C70_damaged_line_goes_on : forall lib s rnd o c lost, in_use s -> 0 <= rnd <= 255 -> engineering_command rnd o = Ok c ->
  Forall heard_ok lost -> Forall (fun r => to_repeat (call_left c r)) lost ->
  exists s2, engineering lib s c (map as_events lost) = (s2, map (call_left c) lost, EngRunning) /\ in_use s2.
Proof. intros lib s rnd o c lost U H E. destruct (engineering_wf rnd o c H E) as [W L]. exact (resend_goes_on lib s c lost U W L). Qed.
Print Assumptions C70_damaged_line_goes_on.
(** a confirmation that arrives damaged, then a good one *)
Definition C70_answer : Sent := mkSent 2 1 [163; 5] (MCmd (reply_seen 5 (mkReply true false []))).
Definition C70_lost : Heard := (hurt_line, [arriving hurt_line]).
Definition C70_heard : Heard := ([Whole C70_answer], [sent_frame C70_answer]).
Example C70_case_damaged : exists c, engineering_command 5 C70_local = Ok c /\ Forall heard_ok ([C70_lost; C70_lost] ++ [C70_heard])
  /\ Forall (fun r => to_repeat (call_left c r)) [C70_lost; C70_lost] /\ all_tag_responses (call_left c C70_heard) /\ confirmed (call_left c C70_heard).
Proof.
  destruct (engineering_command 5 C70_local) as [c|] eqn:C; [|vm_compute in C; discriminate]. exists c. vm_compute in C. injection C as <-.
  assert (H : heard_ok C70_lost).
  { split; [|vm_compute; reflexivity]. cbn [fst C70_lost].
    repeat constructor; try (vm_compute; discriminate); try (vm_compute; congruence); try (intros; apply carries_logging). }
  assert (K : heard_ok C70_heard).
  { split; [|vm_compute; reflexivity]. cbn [fst C70_heard]. constructor; [|constructor]. destruct (reply_exists 5 (mkReply true false [])) as (c & C).
    assert (O : reply_ok 5 (mkReply true false [])) by (refine (conj _ (conj (Forall_nil _) (conj eq_refl _))); [lia | cbn; lia]).
    destruct (reply_transmits 5 _ c O C) as (bs & E & P & K). apply reply_shape in C. subst c.
    assert (bs = [163; 5]) as -> by (vm_compute in E; congruence).
    unfold arrival_ok, sent_ok, C70_answer. cbn [s_counter s_type s_payload s_msg]. refine (conj _ (conj _ (conj P K))); unfold is_byte; lia. }
  split; [reflexivity|]. split; [cbn [app]; repeat (constructor; [assumption|]); constructor|].
  set (c := mkCommand _ _ _ _ _ _ _).
  assert (E1 : snd (call_left c C70_lost) = []) by (vm_compute; reflexivity).
  assert (E2 : snd (call_left c C70_heard) = [MCmd (reply_seen 5 (mkReply true false []))]) by (vm_compute; reflexivity).
  assert (T : to_repeat (call_left c C70_lost)).
  { split; [intros m I; rewrite E1 in I; destruct I|]. intros (a & I & _). rewrite E1 in I. destruct I. }
  split; [repeat (constructor; [exact T|]); constructor|]. split.
  - intros m I. rewrite E2 in I. destruct I as [<-|[]]. eexists. split; [reflexivity|]. vm_compute. discriminate.
  - eexists. split; [rewrite E2; left; reflexivity|]. split; [reflexivity|]. split; [reflexivity|]. vm_compute. discriminate.
Qed.
