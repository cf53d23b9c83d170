(** One application thread and the reader: every ALP message is in exactly one
    place (C54). *)
From Coq Require Import Lia Permutation.
From Verif Require Import SSync LModem LSched  LSync.

Definition KInv (b : list Msg) (pre : list Label) (w : World) : Prop :=
  (m_resp (w_m w) < length (m_heap (w_m w)))%nat
  /\ (forall r x, w_r w = RAppend r x -> (r < length (m_heap (w_m w)))%nat)
  /\ Permutation (concat (m_heap (w_m w)) ++ m_cb_calls (w_m w) ++ m_unsol (w_m w) ++ held (w_r w))
       (b ++ alp_messages (arrivals pre)).
Lemma arrivals_snoc pre l : arrivals (pre ++ [l]) = arrivals pre ++ arrivals [l].
Proof. induction pre as [|[] pre IH]; cbn; try rewrite IH; try reflexivity; destruct l; reflexivity. Qed.
Lemma kept_step b pre w l w1 : KInv b pre w -> step w l = Some w1 -> KInv b (pre ++ [l]) w1.
Proof.
  intros (B & R & P) S. unfold KInv. rewrite arrivals_snoc, alp_messages_app, (app_assoc b).
  assert (C : (exists t x, l = LMsg t x) \/ l = LReader \/ ((forall t x, l <> LMsg t x) /\ l <> LReader /\ arrivals [l] = [])).
  { destruct l; [left; eauto | right; left; reflexivity | | |]; right; right; repeat split; try discriminate. }
  destruct w as [m r a rets]. cbn [w_m w_r w_a w_rets] in *. destruct C as [(t & x & ->) | [-> | (N1 & N2 & ->)]].
  - unfold step in S. cbn [w_m w_r w_a w_rets] in S. destruct r; try discriminate. injection S as <-. cbn [w_m w_r].
    split; [exact B|]. split; [discriminate|]. cbn [arrivals held] in *. rewrite app_nil_r in P.
    unfold alp_messages at 2. cbn [filter fst]. destruct (t <=? 3); cbn [map snd].
    + rewrite (app_assoc (m_cb_calls m)), (app_assoc (concat (m_heap m))). apply Permutation_app_tail. exact P.
    + rewrite !app_nil_r. exact P.
  - cbn [arrivals]. change (alp_messages []) with (@nil Msg). rewrite app_nil_r.
    unfold step in S. cbn [w_m w_r w_a w_rets] in S. destruct r as [|t x|x|r x|x]; [discriminate| | | |].
    + destruct (is_response m t x) eqn:IR; injection S as <-; cbn [w_m w_r held].
      * split; [exact B|]. split; [discriminate|]. apply is_response_iff in IR. destruct IR as [Lt _].
        cbn [held] in P. replace (t <=? 3) with true in P by (symmetry; apply Z.leb_le; exact Lt). exact P.
      * destruct (dispatch_other_sync m t x) as (E1 & E2 & E3 & E4 & E5). rewrite E2, E3. split; [exact B|].
        split; [discriminate|]. cbn [held] in P. etransitivity; [|exact P].
        unfold dispatch_other. destruct (t <=? 3) eqn:Q; rewrite ?andb_true_r, ?andb_false_r.
        -- destruct (m_has_cb m && m_connected m); cbn [set_out m_cb_calls m_unsol].
           ++ rewrite !app_nil_r, <- !app_assoc. do 2 apply Permutation_app_head. apply Permutation_app_comm.
           ++ assert (t =? 5 = false) as -> by (apply Z.leb_le in Q; apply Z.eqb_neq; lia).
              assert (t =? 4 = false) as -> by (apply Z.leb_le in Q; apply Z.eqb_neq; lia).
              cbn [set_out m_cb_calls m_unsol]. rewrite app_nil_r. apply Permutation_refl.
        -- destruct (t =? 5); [destruct (m_has_rbcb m) | destruct (t =? 4)]; cbn [set_out m_cb_calls m_unsol]; apply Permutation_refl.
    + injection S as <-. cbn [w_m w_r held] in *. split; [exact B|]. split; [|exact P].
      intros r y Q. injection Q as <- <-. exact B.
    + injection S as <-. cbn [w_m w_r held set_sync m_heap m_resp m_cb_calls m_unsol] in *. rewrite heap_append_length.
      split; [exact B|]. split; [discriminate|]. rewrite app_nil_r.
      etransitivity; [|exact P]. etransitivity; [apply Permutation_app_tail; apply concat_heap_append; eapply R; reflexivity|].
      rewrite <- !app_assoc. apply Permutation_app_head. cbn [app]. rewrite app_assoc. apply Permutation_cons_append.
    + injection S as <-. destruct (msg_completed x); cbn in *; (split; [exact B|]); (split; [discriminate|]); exact P.
  - change (alp_messages []) with (@nil Msg). rewrite app_nil_r.
    assert (S' : exists v, step (mkWorld m r a []) l = Some v /\ w_m v = w_m w1 /\ w_r v = w_r w1).
    { unfold step in S |- *. cbn [w_m w_r w_a w_rets] in S |- *.
      destruct l as [t x| |tag sync| |]; [exfalso; eapply N1; reflexivity | congruence | | |];
        destruct a as [|tg s|tg s|tg s|tg|tg s|tg|tg|tg]; try discriminate;
        repeat match goal with |- context [if ?c then _ else _] => destruct c end;
        injection S as <-; eexists; repeat split. }
    destruct S' as (v & S' & V1 & V2). destruct (thread_static _ _ _ _ _ S' N1 N2) as (M1 & M2 & M3 & M4 & M5 & M6).
    rewrite V1 in *. rewrite V2 in *. split; [auto|]. split.
    + intros q x Q. rewrite M1 in Q. specialize (R q x Q). lia.
    + rewrite M1, M2, M3, M4. exact P.
Qed.
Lemma kept_run b ls : forall pre w w1, KInv b pre w -> run w ls = Some w1 -> KInv b (pre ++ ls) w1.
Proof.
  induction ls as [|l ls IH]; cbn; intros pre w w1 K E.
  - injection E as <-. rewrite app_nil_r. exact K.
  - destruct (step w l) as [v|] eqn:S; [|discriminate]. change (l :: ls) with ([l] ++ ls). rewrite app_assoc.
    eapply IH; [|exact E]. eapply kept_step; eassumption.
Qed.
Lemma kept_from m ls w : (m_resp m < length (m_heap m))%nat -> run (mkWorld m RIdle AIdle []) ls = Some w ->
  Permutation (concat (m_heap (w_m w)) ++ m_cb_calls (w_m w) ++ m_unsol (w_m w) ++ held (w_r w))
    ((concat (m_heap m) ++ m_cb_calls m ++ m_unsol m) ++ alp_messages (arrivals ls)).
Proof.
  intros H E. apply (kept_run (concat (m_heap m) ++ m_cb_calls m ++ m_unsol m) ls [] (mkWorld m RIdle AIdle []) w); [|exact E].
  split; [exact H|]. split; [discriminate|]. cbn [w_m w_r held]. change (alp_messages (arrivals [])) with (@nil Msg).
  rewrite !app_nil_r. apply Permutation_refl.
Qed.
Lemma kept_somewhere cb rbcb ls w : run (new_world cb rbcb) ls = Some w ->
  Permutation (concat (m_heap (w_m w)) ++ m_cb_calls (w_m w) ++ m_unsol (w_m w) ++ held (w_r w)) (alp_messages (arrivals ls)).
Proof. intros E. exact (kept_from (new_modem false cb rbcb) ls w (le_n 1) E). Qed.
