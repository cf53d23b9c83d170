From Verif Require Import SModem LModem LSched.

Lemma sub_refl {A} (l : list A) : subsequence l l.
Proof. induction l; constructor; auto. Qed.
Lemma sub_empty {A} (l : list A) : subsequence [] l.
Proof. induction l; constructor; auto. Qed.
Lemma sub_app {A} (a b : list A) : subsequence a b -> forall c d, subsequence c d -> subsequence (a ++ c) (b ++ d).
Proof. induction 1; intros c d H'; cbn [app]; try constructor; auto. Qed.
Lemma sub_in {A} (a b : list A) x : subsequence a b -> In x a -> In x b.
Proof. induction 1; cbn; intuition. Qed.

Lemma other_heap m t x : m_heap (dispatch_other m t x) = m_heap m /\ m_resp (dispatch_other m t x) = m_resp m.
Proof.
  unfold dispatch_other. destruct (_ && _ && _); [auto|]. destruct (t =? 5); [destruct (m_has_rbcb m); auto|].
  destruct (t =? 4); [auto|]. destruct (t <=? 3); auto.
Qed.
(** one step: what happens to the heap and the current list *)
Lemma step_heap w l w' : step w l = Some w' ->
  (m_heap (w_m w') = m_heap (w_m w) /\ m_resp (w_m w') = m_resp (w_m w))
  \/ (exists r x, w_r w = RAppend r x /\ l = LReader /\ w_r w' = RDone x
       /\ m_heap (w_m w') = heap_append (m_heap (w_m w)) r x /\ m_resp (w_m w') = m_resp (w_m w))
  \/ (l = LApp /\ w_r w' = w_r w /\ m_heap (w_m w') = m_heap (w_m w) ++ [[]] /\ m_resp (w_m w') = length (m_heap (w_m w))).
Proof.
  destruct w as [m r a rets]. unfold step. cbn [w_m w_r w_a w_rets]. intro E.
  destruct l as [t x| |tag sync| |].
  - destruct r; try discriminate. injection E as <-. auto.
  - destruct r as [|t x|x|r x|x]; try discriminate.
    + destruct (is_response m t x); injection E as <-; [auto|]. left. cbn. apply other_heap.
    + injection E as <-. auto.
    + injection E as <-. right. left. exists r, x. cbn. auto.
    + injection E as <-. left. cbn. destruct (msg_completed x); auto.
  - destruct a; try discriminate. injection E as <-. auto.
  - destruct a as [|tag sync|tag sync|tag sync|tag|tag sync|tag|tag|tag]; try discriminate; try (injection E as <-; auto).
    + right. right. cbn. auto.
    + destruct sync; injection E as <-; auto.
    + destruct (m_completed m); injection E as <-; auto.
    + destruct (m_completed m); injection E as <-; auto.
  - destruct a; try discriminate. injection E as <-. auto.
Qed.
Lemma step_pending w l w' r x : step w l = Some w' -> w_r w' = RAppend r x ->
  w_r w = RAppend r x \/ (w_r w = RLoad x /\ r = m_resp (w_m w) /\ m_heap (w_m w') = m_heap (w_m w)).
Proof.
  destruct w as [m rr a rets]. unfold step. cbn [w_m w_r w_a w_rets]. intros E H.
  destruct l as [t y| |tag sync| |].
  - destruct rr; try discriminate. injection E as <-. discriminate.
  - destruct rr as [|t y|y|r' y|y]; try discriminate.
    + destruct (is_response m t y); injection E as <-; discriminate.
    + injection E as <-. cbn in H. injection H as <- <-. auto.
    + injection E as <-. discriminate.
    + injection E as <-. discriminate.
  - destruct a; try discriminate. injection E as <-. auto.
  - destruct a as [|tag sync|tag sync|tag sync|tag|tag sync|tag|tag|tag]; try discriminate; try (injection E as <-; auto).
    + destruct sync; injection E as <-; auto.
    + destruct (m_completed m); injection E as <-; auto.
    + destruct (m_completed m); injection E as <-; auto.
  - destruct a; try discriminate. injection E as <-. auto.
Qed.

(** ** Retired lists never change *)
Lemma retired_step w l w' r : step w l = Some w' -> exists_object w r -> retired w r ->
  list_object w' r = list_object w r /\ exists_object w' r /\ retired w' r.
Proof.
  intros E X [N P]. unfold list_object, exists_object, retired in *.
  assert (P' : m_resp (w_m w') <> r -> forall x, w_r w' <> RAppend r x).
  { intros _ x H. destruct (step_pending w l w' r x E H) as [K|(_ & K & _)]; [exact (P x K) | congruence]. }
  destruct (step_heap w l w' E) as [(H1 & H2)|[(r' & x & K & _ & _ & H1 & H2)|(_ & _ & H1 & H2)]].
  - rewrite H1, H2. repeat split; auto. apply P'. congruence.
  - assert (r' <> r) by (intros ->; exact (P x K)). rewrite H1, H2, heap_append_length, heap_append_other by assumption.
    repeat split; auto. apply P'. congruence.
  - rewrite H1, H2, app_length, nth_old by exact X. repeat split; try lia. apply P'. lia.
Qed.
Lemma retired_frozen ls : forall w w' r, run w ls = Some w' -> exists_object w r -> retired w r ->
  list_object w' r = list_object w r.
Proof.
  induction ls as [|l ls IH]; intros w w' r R X P; cbn [run] in R.
  - injection R as <-. reflexivity.
  - destruct (step w l) as [w1|] eqn:E; [|discriminate]. destruct (retired_step w l w1 r E X P) as (A & B & C).
    rewrite (IH w1 w' r R B C). exact A.
Qed.

(** ** All lists together hold the responses in order of arrival *)
Definition pending_ok (w : World) : Prop :=
  S (m_resp (w_m w)) = length (m_heap (w_m w))
  /\ forall r x, w_r w = RAppend r x -> (r < length (m_heap (w_m w)))%nat /\ concat (skipn (S r) (m_heap (w_m w))) = [].
Lemma concat_append h : forall r x, (r < length h)%nat -> concat (skipn (S r) h) = [] ->
  concat (heap_append h r x) = concat h ++ [x].
Proof.
  induction h as [|l h IH]; intros [|r] x L E; cbn [length] in L; try lia.
  - cbn [skipn] in E. cbn [heap_append concat]. rewrite E, !app_nil_r. reflexivity.
  - cbn [heap_append concat]. cbn [skipn] in E. rewrite IH, app_assoc by (try lia; exact E). reflexivity.
Qed.
Lemma step_in_hand w l w' : step w l = Some w' ->
  in_hand w' = in_hand w ++ map snd (arrivals [l]) \/ (in_hand w' = [] /\ map snd (arrivals [l]) = []).
Proof.
  destruct w as [m rr a rets]. unfold step. cbn [w_m w_r w_a w_rets]. intros E.
  destruct l as [t y| |tag sync| |].
  - destruct rr; try discriminate. injection E as <-. auto.
  - destruct rr as [|t y|y|r' y|y]; try discriminate.
    + destruct (is_response m t y); injection E as <-; auto.
    + injection E as <-. auto.
    + injection E as <-. auto.
    + injection E as <-. auto.
  - destruct a; try discriminate. injection E as <-. destruct rr; auto.
  - left. rewrite app_nil_r. destruct a as [|tag sync|tag sync|tag sync|tag|tag sync|tag|tag|tag]; try discriminate; try (injection E as <-; auto).
    + destruct sync; injection E as <-; auto.
    + destruct (m_completed m); injection E as <-; auto.
    + destruct (m_completed m); injection E as <-; auto.
  - left. rewrite app_nil_r. destruct a; try discriminate. injection E as <-. auto.
Qed.
Lemma order_step w l w' : pending_ok w -> step w l = Some w' ->
  pending_ok w' /\ exists ext, concat (m_heap (w_m w')) = concat (m_heap (w_m w)) ++ ext
    /\ subsequence (ext ++ in_hand w') (in_hand w ++ map snd (arrivals [l])).
Proof.
  intros [SL P] E. assert (IHd := step_in_hand w l w' E).
  assert (IHs : subsequence (in_hand w') (in_hand w ++ map snd (arrivals [l]))).
  { destruct IHd as [->|[-> _]]; [apply sub_refl | apply sub_empty]. }
  destruct (step_heap w l w' E) as [(H1 & H2)|[(r' & x & K & -> & K' & H1 & H2)|(-> & K & H1 & H2)]].
  - split.
    + split; [rewrite H1, H2; exact SL|]. intros r x H. rewrite H1.
      destruct (step_pending w l w' r x E H) as [Q|(_ & -> & _)]; [exact (P r x Q)|].
      split; [lia|]. rewrite SL, skipn_all. reflexivity.
    + exists []. rewrite H1, app_nil_r. split; [reflexivity | exact IHs].
  - destruct (P r' x K) as [L C]. split.
    + split; [rewrite H1, H2, heap_append_length; exact SL|]. intros r y H. congruence.
    + exists [x]. rewrite H1, concat_append by assumption. split; [reflexivity|].
      unfold in_hand. rewrite K, K'. cbn. apply sub_refl.
  - split.
    + split; [rewrite H1, H2, app_length; cbn; lia|]. intros r x H. rewrite H1, app_length. rewrite K in H.
      destruct (P r x H) as [L C]. split; [lia|]. rewrite skipn_app, concat_app, C.
      replace (S r - length (m_heap (w_m w)))%nat with 0%nat by lia. reflexivity.
    + exists []. rewrite H1, concat_app, app_nil_r. cbn [concat app]. rewrite app_nil_r. split; [reflexivity | exact IHs].
Qed.
Lemma sub_trans {A} (b c : list A) : subsequence b c -> forall a, subsequence a b -> subsequence a c.
Proof.
  induction 1 as [|x b c H IH|x b c H IH]; intros a K; [exact K| |constructor; auto].
  inversion K; subst; constructor; auto.
Qed.
Lemma arrivals_cons l ls : map snd (arrivals (l :: ls)) = map snd (arrivals [l]) ++ map snd (arrivals ls).
Proof. destruct l; reflexivity. Qed.
Lemma order_run ls : forall w w', pending_ok w -> run w ls = Some w' ->
  pending_ok w' /\ exists ext, concat (m_heap (w_m w')) = concat (m_heap (w_m w)) ++ ext
    /\ subsequence (ext ++ in_hand w') (in_hand w ++ map snd (arrivals ls)).
Proof.
  induction ls as [|l ls IH]; intros w w' P R; cbn [run] in R.
  - injection R as <-. split; [exact P|]. exists []. cbn. rewrite !app_nil_r. split; [reflexivity | apply sub_refl].
  - destruct (step w l) as [w1|] eqn:E; [|discriminate]. destruct (order_step w l w1 P E) as (P1 & e1 & C1 & S1).
    destruct (IH w1 w' P1 R) as (P2 & e2 & C2 & S2). split; [exact P2|]. exists (e1 ++ e2).
    rewrite C2, C1, <- app_assoc. split; [reflexivity|].
    rewrite arrivals_cons, app_assoc, <- app_assoc.
    eapply sub_trans; [apply sub_app; [exact S1 | apply sub_refl]|]. rewrite <- app_assoc.
    apply sub_app; [apply sub_refl | exact S2].
Qed.
Lemma in_one_list cb rbcb ls w : run (new_world cb rbcb) ls = Some w ->
  subsequence (concat (m_heap (w_m w)) ++ in_hand w) (map snd (arrivals ls)).
Proof.
  intro R. destruct (order_run ls (new_world cb rbcb) w) as (_ & ext & C & S).
  - split; [reflexivity|]. intros r x H. discriminate.
  - exact R.
  - cbn in C, S. rewrite C. exact S.
Qed.

(** ** Lists only grow at the end *)
Lemma grows_step w l w' r : step w l = Some w' -> exists_object w r ->
  exists_object w' r /\ exists ext, list_object w' r = list_object w r ++ ext
    /\ subsequence (ext ++ in_hand w') (in_hand w ++ map snd (arrivals [l])).
Proof.
  intros E X. unfold list_object, exists_object in *.
  assert (IHs : subsequence (in_hand w') (in_hand w ++ map snd (arrivals [l]))).
  { destruct (step_in_hand w l w' E) as [->|[-> _]]; [apply sub_refl | apply sub_empty]. }
  destruct (step_heap w l w' E) as [(H1 & H2)|[(r' & x & K & -> & K' & H1 & H2)|(_ & _ & H1 & H2)]]; rewrite H1.
  - split; [exact X|]. exists []. rewrite app_nil_r. split; [reflexivity | exact IHs].
  - rewrite heap_append_length. split; [exact X|]. destruct (Nat.eq_dec r' r) as [->|N].
    + exists [x]. rewrite heap_append_same by exact X. split; [reflexivity|]. unfold in_hand. rewrite K, K'. apply sub_refl.
    + exists []. rewrite heap_append_other by exact N. rewrite app_nil_r. split; [reflexivity | exact IHs].
  - rewrite app_length, nth_old by exact X. split; [lia|]. exists []. rewrite app_nil_r. split; [reflexivity | exact IHs].
Qed.
Lemma grows_run ls : forall w w' r, run w ls = Some w' -> exists_object w r ->
  exists ext, list_object w' r = list_object w r ++ ext
    /\ subsequence (ext ++ in_hand w') (in_hand w ++ map snd (arrivals ls)).
Proof.
  induction ls as [|l ls IH]; intros w w' r R X; cbn [run] in R.
  - injection R as <-. exists []. cbn. rewrite !app_nil_r. split; [reflexivity | apply sub_refl].
  - destruct (step w l) as [w1|] eqn:E; [|discriminate].
    destruct (grows_step w l w1 r E X) as (X1 & e1 & L1 & S1). destruct (IH w1 w' r R X1) as (e2 & L2 & S2).
    exists (e1 ++ e2). rewrite L2, L1, <- app_assoc. split; [reflexivity|].
    rewrite arrivals_cons, app_assoc, <- app_assoc.
    eapply sub_trans; [apply sub_app; [exact S1 | apply sub_refl]|]. rewrite <- app_assoc.
    apply sub_app; [apply sub_refl | exact S2].
Qed.
Lemma sub_app_l {A} (a b c : list A) : subsequence (a ++ b) c -> subsequence a c.
Proof.
  intro H. eapply sub_trans; [exact H|]. rewrite <- (app_nil_r a) at 1. apply sub_app; [apply sub_refl | apply sub_empty].
Qed.
Lemma grows ls w w' r : run w ls = Some w' -> exists_object w r ->
  exists ext, list_object w' r = list_object w r ++ ext /\ subsequence ext (in_hand w ++ map snd (arrivals ls)).
Proof.
  intros R X. destruct (grows_run ls w w' r R X) as (ext & A & B). exists ext. split; [exact A|]. eapply sub_app_l. exact B.
Qed.

(** ** A returned list grows after it was returned *)
Definition growing_schedule (tag : option Z) (c1 c2 : Command) : list Label :=
  [LExec tag true] ++ apps 5 ++ [LMsg 1 (MCmd c1); LReader; LReader; LReader; LReader] ++ apps 3
  ++ [LMsg 1 (MCmd c2); LReader; LReader; LReader].
Lemma returned_grows cb rbcb tag c1 c2 : c_tag c1 = Some tag -> c_tag c2 = Some tag -> c_completed c1 = true ->
  exists ls w, run (new_world cb rbcb) ls = Some w
  /\ w_rets w = [(Some tag, Some 1%nat, [MCmd c1])] /\ w_a w = AIdle /\ list_object w 1 = [MCmd c1; MCmd c2].
Proof.
  intros T1 T2 K. exists (growing_schedule (Some tag) c1 c2).
  destruct c1 as [a1 s1 g1 tag1 r1 k1 e1], c2 as [a2 s2 g2 tag2 r2 k2 e2]. cbn in T1, T2, K. subst.
  unfold growing_schedule, apps, new_world, new_modem. cbn [repeat app]. eexists. split; [go_run|]. repeat split.
Qed.
(** starting another command while the reader is idle retires all lists *)
Lemma next_retires w tag sync w' r : w_r w = RIdle -> run w [LExec tag sync; LApp] = Some w' -> exists_object w r ->
  retired w' r.
Proof.
  destruct w as [m rr a rets]. cbn [w_r]. intros -> R X. unfold exists_object in X. cbn [w_m] in X. cbn [run step w_a] in R.
  destruct a; try discriminate. injection R as <-. unfold retired. cbn [w_m w_r m_resp set_sync]. split; [lia | discriminate].
Qed.
