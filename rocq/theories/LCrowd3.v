(** C105: schedules. *)
From Verif Require Import Bits MThreads LThreads SCrowd LModem LSched LSync LCrowd.
Open Scope Z_scope.

Ltac turn := repeat (eapply turn_cons; [first [exact I | reflexivity | split; repeat constructor] | cbv -[Z.eqb]; rewrite ?Z.eqb_refl; reflexivity|]); apply turn_nil.
(** thread 0 calls and waits *)
Definition one_waits (tag : Z) : list CrowdLabel := NCall 0 (Some tag) true :: repeat (NThread 0) 6.
(** reader 0 has an answer in its hands, reader 1 handles the final one *)
Lemma answer_missing cb rbcb conn t a c : c_tag a = Some t -> c_completed a = false -> c_tag c = Some t -> c_completed c = true ->
  exists ls w, calls_in_turn (new_crowd cb rbcb conn 2 1) ls w /\ taken ls = [(1, MCmd a); (1, MCmd c)]
  /\ cr_log w = [(0%nat, Some t, Returned (Some 1%nat) [MCmd c])]
  /\ nth 1 (m_heap (cr_m w)) [] = [MCmd c; MCmd a].
Proof.
  intros T1 K1 T2 K2. destruct a as [ac st ge tag re co er], c as [ac' st' ge' tag' re' co' er']. cbn in T1, K1, T2, K2. subst.
  exists (one_waits t ++ [NArrive 0 1 (MCmd (mkCommand ac st ge (Some t) re false er)); NReader 0;
           NArrive 1 1 (MCmd (mkCommand ac' st' ge' (Some t) re' true er')); NReader 1; NReader 1; NReader 1; NReader 1]
          ++ repeat (NThread 0) 3 ++ repeat (NReader 0) 3).
  unfold one_waits. cbn [repeat app]. eexists. split; [turn|]. repeat split.
Qed.
(** the order of the answers is not that of their arrival, although all are there *)
Lemma answers_swapped cb rbcb conn t a c : c_tag a = Some t -> c_completed a = false -> c_tag c = Some t -> c_completed c = true ->
  exists ls w, calls_in_turn (new_crowd cb rbcb conn 2 1) ls w /\ taken ls = [(1, MCmd a); (1, MCmd c)]
  /\ cr_log w = [(0%nat, Some t, Returned (Some 1%nat) [MCmd c; MCmd a])].
Proof.
  intros T1 K1 T2 K2. destruct a as [ac st ge tag re co er], c as [ac' st' ge' tag' re' co' er']. cbn in T1, K1, T2, K2. subst.
  exists (one_waits t ++ [NArrive 0 1 (MCmd (mkCommand ac st ge (Some t) re false er)); NReader 0;
           NArrive 1 1 (MCmd (mkCommand ac' st' ge' (Some t) re' true er')); NReader 1; NReader 1; NReader 1; NReader 1]
          ++ repeat (NReader 0) 3 ++ repeat (NThread 0) 3).
  unfold one_waits. cbn [repeat app]. eexists. split; [turn|]. repeat split.
Qed.
