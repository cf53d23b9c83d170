(** C59 on a line that damages frames: examples/write_update.py. *)
From Verif Require Import SImage LImage LConverse PDamage PResend.
Open Scope list_scope.
Open Scope Z_scope.

(** Every call returns what the damage leaves of the replies to it; with C59_done, C59_failed
    and C59_running this decides how the run goes *)
Theorem C59_damaged_line : forall lib rounds s file s' log st, in_use s -> Forall is_byte file ->
  Forall image_round_ok rounds -> ota lib s file 0 (map as_round rounds) = (s', log, st) ->
  in_use s' /\ Forall2 returned_left log (firstn (length log) rounds).
Proof. intros lib rounds s file s' log st U F. apply image_results; [exact U | exact F | lia]. Qed.
Print Assumptions C59_damaged_line.
(** the first confirmation that is lost ends the run with "write failed", although the
    node has got that piece, too *)
Theorem C59_damaged_confirmation : forall lib s file good r more, in_use s -> Forall is_byte file -> zlen file <= len_max ->
  Forall image_round_ok (good ++ r :: more) -> Forall confirmation_left good -> confirmation_lost r -> (239 * length good < length file)%nat ->
  exists s' log bytes, ota lib s file 0 (map as_round (good ++ r :: more)) = (s', log, OtaFailed) /\ length log = S (length good) /\ in_use s'
  /\ se_sent s' = se_sent s ++ bytes /\ received_over lib bytes (commands_of log)
  /\ forall old, fold_left (node_receives 200) (commands_of log) old
     = firstn (239 * S (length good)) file ++ skipn (Nat.min (239 * S (length good)) (length file)) old.
Proof. exact image_damaged. Qed.
Print Assumptions C59_damaged_confirmation.
(** two pieces: the first one confirmed, the confirmation of the second one damaged *)
Example C59_case_damaged : Forall image_round_ok [(5, C70_heard); (5, C70_lost)] /\ confirmation_left (5, C70_heard) /\ confirmation_lost (5, C70_lost)
  /\ snd (ota true (new_session false true false) (repeat 65 240) 0 (map as_round [(5, C70_heard); (5, C70_lost)])) = OtaFailed.
Proof.
  destruct C70_case_damaged as (_ & _ & H & _). cbn [app] in H. inversion H as [|? ? H1 H2]; subst. inversion H2 as [|? ? _ H3]; subst. inversion H3; subst.
  assert (E1 : forall c, c_tag c = Some 5 -> snd (call_left c C70_lost) = []).
  { intros c T. unfold call_left, expected, replies, pick, is_reply. cbn [snd x_command]. rewrite T. vm_compute. reflexivity. }
  assert (E2 : forall c, c_tag c = Some 5 -> snd (call_left c C70_heard) = [MCmd (reply_seen 5 (mkReply true false []))]).
  { intros c T. unfold call_left, expected, replies, pick, is_reply. cbn [snd x_command]. rewrite T. vm_compute. reflexivity. }
  split; [repeat (constructor; [split; [cbn; lia | assumption]|]); constructor|]. split; [|split; [|vm_compute; reflexivity]].
  - intros c T. cbn [fst snd] in *. eexists. rewrite (E2 c T). split; [left; reflexivity|]. unfold call_left. cbn [fst]. rewrite T. repeat split. vm_compute. discriminate.
  - intros c T (a & I & _). cbn [fst snd] in *. rewrite (E1 c T) in I. destruct I.
Qed.
