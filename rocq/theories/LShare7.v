From Coq Require Import Lia.
From Verif Require Import MBase MCt MSp MOperands MAlp LBits LBuild.
From Verif Require Import SShare LShare LShare2 LShare3 LShare4 LShare5 LShare6.
Local Open Scope nat_scope.

Theorem request_made_later h v o h' r l : new_request h v o = Ok (h', r) ->
  (forall k, In k l -> target k <> Some r /\ target k <> Some (length h)) ->
  forall vo, let g := program h' l in
  the_off g (given o DEFAULT_REQ_OFFSET) = Some vo -> the_req g r = Some (mkDataRequest vo (mkLength v)).
Proof.
  intros M T vo g O. unfold new_request in M.
  destruct (of_class (the_off h _)) as [ov|]; cbn [rbind] in M; [|discriminate].
  destruct (mk_data_request v ov) as [dv|] eqn:MD; cbn [rbind put] in M; [|discriminate]. injection M as <- <-.
  assert (DL : dr_length dv = mkLength v).
  { unfold mk_data_request, mk_length, validated in MD. destruct (in_range 0 1073741823 v); cbn [rbind] in MD; [|discriminate].
    now injection MD as <-. }
  assert (LL : length ((h ++ [OLen (dr_length dv)]) ++ [OReq (given o DEFAULT_REQ_OFFSET) (length h)]) = S (S (length h))) by (rewrite !app_length; cbn; lia).
  unfold the_req. unfold g at 1. rewrite program_keeps; [|rewrite !app_length; cbn; lia|intros k I; now apply T].
  rewrite nth_new, O. unfold the_len. unfold g. rewrite program_keeps; [|rewrite LL; lia|intros k I; now apply T].
  rewrite <- app_assoc. cbn [app]. pose proof (nth_at h [OLen (dr_length dv); OReq (given o DEFAULT_REQ_OFFSET) (length h)] 0) as N.
  rewrite Nat.add_0_r in N. rewrite N. cbn [nth_error]. now rewrite DL.
Qed.
Theorem offset_made_later h id o h' r l : new_offset h id o = Ok (h', r) -> (forall k, In k l -> target k <> Some r) ->
  forall vl, let g := program h' l in
  the_len g (given o DEFAULT_LENGTH) = Some vl -> the_off g r = Some (mkOffset id vl).
Proof.
  intros M T vl g L. unfold new_offset in M.
  destruct (of_class (the_len h _)) as [lv|]; cbn [rbind] in M; [|discriminate].
  destruct (mk_offset id lv) as [x|]; cbn [rbind put] in M; [|discriminate]. injection M as <- <-.
  unfold the_off. unfold g at 1. rewrite program_keeps; [|rewrite app_length; cbn; lia|exact T]. rewrite nth_new. now rewrite L.
Qed.
