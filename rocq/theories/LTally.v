(** Lemmas on the counters of a Parser used by several threads. *)
From Coq Require Import Lia ZArith List.
From Coq Require Import ZifyBool.
From Verif Require Import Bits MBase MSerial MTally STally.
Import ListNotations.
Open Scope Z_scope.

Lemma move_len : forall i y l, length (move i y l) = length l.
Proof. intros i y l; revert i; induction l as [|x r IH]; intros [|i]; cbn; auto. Qed.
Lemma move_nth : forall i y l x, nth_error l i = Some x -> nth_error (move i y l) i = Some y.
Proof. induction i as [|i IH]; intros y [|a r] x E; cbn in *; try discriminate; eauto. Qed.
Lemma move_move : forall i y z l, move i z (move i y l) = move i z l.
Proof. induction i as [|i IH]; intros y z [|a r]; cbn; auto. now rewrite IH. Qed.
Lemma move_same : forall i x l, nth_error l i = Some x -> move i x l = l.
Proof. induction i as [|i IH]; intros x [|a r] E; cbn in *; try discriminate; [congruence|]. now rewrite IH. Qed.
Lemma move_forall (P : TPlace -> Prop) : forall i y l, Forall P l -> P y -> Forall P (move i y l).
Proof. induction i as [|i IH]; intros y [|a r] H Y; cbn; auto; inversion H; subst; auto. Qed.
Lemma forall_nth (P : TPlace -> Prop) : forall i l x, Forall P l -> nth_error l i = Some x -> P x.
Proof. intros i l x H E. apply nth_error_In in E. rewrite Forall_forall in H. auto. Qed.
Lemma move_exists (P : TPlace -> Prop) : forall i y l x, nth_error l i = Some x -> P y -> Exists P (move i y l).
Proof. induction i as [|i IH]; intros y [|a r] x E Y; cbn in *; try discriminate; [now left|right; eauto]. Qed.
Lemma move_keeps (P : TPlace -> Prop) : forall i y l x, nth_error l i = Some x -> ~ P x -> Exists P l -> Exists P (move i y l).
Proof.
  induction i as [|i IH]; intros y [|a r] x E N H; cbn in *; try discriminate; inversion H; subst.
  - injection E as <-. contradiction.
  - now right.
  - now left.
  - right. eauto.
Qed.

(** threads that can still add an error *)
Definition may_add (x : TPlace) : Z := match x with TIdle | TSet _ => 0 | _ => 1 end.
Fixpoint may_sum (l : list TPlace) : Z := match l with [] => 0 | x :: r => may_add x + may_sum r end.
Lemma may_nonneg : forall l, 0 <= may_sum l.
Proof. induction l as [|x r IH]; cbn [may_sum]; [lia|]. destruct x; cbn [may_add]; lia. Qed.
Lemma may_move : forall i y l x, nth_error l i = Some x -> may_sum (move i y l) = may_sum l - may_add x + may_add y.
Proof.
  induction i as [|i IH]; intros y [|a r] x E; cbn [nth_error] in E; try discriminate; cbn [move may_sum].
  - injection E as <-. lia.
  - rewrite (IH y r x E). lia.
Qed.
Definition stored (x : TPlace) : Prop := match x with TTest _ | TReset _ => True | _ => False end.
Definition place_ok (s top : Z) (x : TPlace) : Prop :=
  match x with
  | TIdle => True
  | TStore c d => is_byte c /\ 0 <= d
  | TErrStore c e => is_byte c /\ s <= e <= top
  | TLoad c | TTest c | TReset c | TCompare c | TErrLoad c | TSet c => is_byte c
  end.
Definition tally_inv (s f : Z) (w : Tally) : Prop :=
  0 <= ta_down w /\ (ta_down w <= 255 \/ Exists stored (ta_at w))
  /\ s <= ta_errs w /\ ta_errs w + may_sum (ta_at w) <= s + f
  /\ Forall (place_ok s (s + f - may_sum (ta_at w))) (ta_at w).
Lemma place_more : forall s a b x, a <= b -> place_ok s a x -> place_ok s b x.
Proof. intros s a b [] L H; cbn in *; auto. intuition lia. Qed.
Lemma places_more : forall s a b l, a <= b -> Forall (place_ok s a) l -> Forall (place_ok s b) l.
Proof. intros s a b l L. apply Forall_impl. intros x. now apply place_more. Qed.

Lemma frame_inv : forall s f w i c w', tally_inv s f w -> is_byte c -> tally_step w (TFrame i c) = Some w' -> tally_inv s (f + 1) w'.
Proof.
  intros s f w i c w' (D & B & E1 & E2 & P) C H. cbn in H.
  destruct (nth_error (ta_at w) i) as [x|] eqn:N; [|discriminate]. destruct x; try discriminate.
  injection H as <-. unfold tally_inv; cbn [ta_down ta_errs ta_at]. rewrite (may_move _ (TLoad c) _ _ N).
  cbn [may_add]. split; [exact D|]. split.
  - destruct B as [B|B]; [now left|right]. apply (move_keeps _ _ _ _ _ N); [intros []|exact B].
  - split; [exact E1|]. split; [lia|]. apply move_forall; [|exact C].
    apply (places_more _ _ _ _ (ltac:(lia) : s + f - may_sum (ta_at w) <= s + (f + 1) - (may_sum (ta_at w) - 0 + 1)) P).
Qed.
Lemma go_inv : forall s f w i w', tally_inv s f w -> tally_step w (TGo i) = Some w' -> tally_inv s f w'.
Proof.
  intros s f w i w' (D & B & E1 & E2 & P) H. cbn in H.
  destruct (nth_error (ta_at w) i) as [x|] eqn:N; [|discriminate].
  pose proof (forall_nth _ _ _ _ P N) as Px.
  assert (K : forall y, ~ stored x -> Exists stored (ta_at w) -> Exists stored (move i y (ta_at w))).
  { intros y. apply (move_keeps _ _ _ _ _ N). }
  assert (Y : forall y, stored y -> Exists stored (move i y (ta_at w))).
  { intros y. apply (move_exists _ _ _ _ _ N). }
  assert (R : forall y d e, 0 <= d -> (d <= 255 \/ Exists stored (move i y (ta_at w))) -> s <= e ->
     e + may_sum (ta_at w) - may_add x + may_add y <= s + f -> may_add y <= may_add x ->
     place_ok s (s + f - may_sum (ta_at w)) y -> tally_inv s f (mkTally d e (move i y (ta_at w)))).
  { intros y d e H1 H2 H3 H4 H5 H6. unfold tally_inv; cbn [ta_down ta_errs ta_at].
    rewrite (may_move _ y _ _ N). split; [exact H1|]. split; [exact H2|]. split; [exact H3|]. split; [lia|].
    apply move_forall.
    - refine (places_more _ _ _ _ _ P). lia.
    - refine (place_more _ _ _ _ _ H6). lia. }
  assert (B' : forall y, ~ stored x -> ta_down w <= 255 \/ Exists stored (move i y (ta_at w))).
  { intros y Nx. destruct B as [B|B]; [now left|right; now apply K]. }
  destruct x; cbn [tally_go] in H; try discriminate; cbn [place_ok] in Px; cbn [may_add] in R.
  - injection H as <-. apply R; cbn [may_add place_ok]; auto; lia.
  - injection H as <-. apply R; cbn [may_add place_ok]; try lia; try tauto. right. now apply Y.
  - injection H as <-. destruct (255 <? ta_down w) eqn:G; apply R; cbn [may_add place_ok]; auto; try lia.
    right. now apply Y.
  - injection H as <-. apply R; cbn [may_add place_ok]; auto; lia.
  - injection H as <-. destruct (c =? ta_down w) eqn:G; apply R; cbn [may_add place_ok]; auto; lia.
  - injection H as <-. apply R; cbn [may_add place_ok]; auto; try lia. split; [exact Px|lia].
  - injection H as <-. apply R; cbn [may_add place_ok]; auto; try lia; tauto.
  - injection H as <-. unfold is_byte in Px. apply R; cbn [may_add place_ok]; auto; lia.
Qed.
Lemma run_inv : forall ls s f w w', tally_inv s f w -> Forall is_byte (counters_of ls) -> tally_run w ls = Some w' ->
  tally_inv s (f + Z.of_nat (length (counters_of ls))) w'.
Proof.
  induction ls as [|l r IH]; intros s f w w' I C H; cbn [tally_run] in H.
  - injection H as <-. cbn. now rewrite Z.add_0_r.
  - destruct (tally_step w l) as [v|] eqn:E; [|discriminate]. destruct l as [i c|i].
    + unfold counters_of in C; cbn [flat_map app] in C. inversion C; subst.
      pose proof (IH _ _ _ _ (frame_inv _ _ _ _ _ _ I H2 E) H3 H) as Q.
      unfold counters_of; cbn [flat_map app length]. unfold counters_of in Q.
      rewrite Nat2Z.inj_succ. replace (f + Z.succ _) with (f + 1 + Z.of_nat (length (flat_map (fun l => match l with TFrame _ c => [c] | TGo _ => [] end) r))) by lia. exact Q.
    + exact (IH _ _ _ _ (go_inv _ _ _ _ _ I E) C H).
Qed.
Lemma start_inv : forall p n, counters_ok p -> tally_inv (sp_errs p) 0 (tally_of p n).
Proof.
  intros p n C. unfold counters_ok, is_byte in C. unfold tally_inv, tally_of; cbn [ta_down ta_errs ta_at].
  assert (Z0 : may_sum (repeat TIdle n) = 0) by (induction n; cbn; auto).
  rewrite Z0. split; [lia|]. split; [left; lia|]. split; [lia|]. split; [lia|]. clear Z0.
  induction n; cbn [repeat]; constructor; auto. exact Logic.I.
Qed.
Lemma out_not_stored : forall w, all_out w -> ~ Exists stored (ta_at w).
Proof.
  intros w O X. apply Exists_exists in X. destruct X as (x & M & S1). unfold all_out in O. rewrite Forall_forall in O.
  rewrite <- (O x M) in S1. exact S1.
Qed.

Lemma tally_range : forall p n ls w, counters_ok p -> Forall is_byte (counters_of ls) -> tally_run (tally_of p n) ls = Some w ->
  all_out w -> is_byte (ta_down w).
Proof.
  intros p n ls w C B H O. destruct (run_inv _ _ _ _ _ (start_inv p n C) B H) as (D & [L|X] & _).
  - split; assumption.
  - destruct (out_not_stored _ O X).
Qed.
Lemma tally_bounds : forall p n ls w, counters_ok p -> Forall is_byte (counters_of ls) -> tally_run (tally_of p n) ls = Some w ->
  sp_errs p <= ta_errs w <= sp_errs p + Z.of_nat (length (counters_of ls)).
Proof.
  intros p n ls w C B H. destruct (run_inv _ _ _ _ _ (start_inv p n C) B H) as (_ & _ & L & U & _).
  pose proof (may_nonneg (ta_at w)). lia.
Qed.
