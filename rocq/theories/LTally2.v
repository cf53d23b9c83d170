(** Lemmas on the counters of a Parser used by several threads: one thread at a time, and schedules. *)
From Coq Require Import Lia ZArith List.
From Coq Require Import ZifyBool.
From Verif Require Import Bits MBase MSerial MTally STally LTally.
Import ListNotations.
Open Scope Z_scope.

Lemma tally_app : forall a b w, tally_run w (a ++ b) = match tally_run w a with Some v => tally_run v b | None => None end.
Proof. induction a as [|l r IH]; intros b w; cbn; auto. destruct (tally_step w l); auto. Qed.
Lemma go_eq : forall d e i x l, nth_error l i = Some x ->
  tally_step (mkTally d e l) (TGo i) = match tally_go d e x with Some (d', e', y) => Some (mkTally d' e' (move i y l)) | None => None end.
Proof. intros d e i x l N. cbn. now rewrite N. Qed.

(** what the counters become when the thread at [x] goes on alone *)
Definition compared (c d e : Z) : Z * Z := if c =? d then (d, e) else (c, e + 1).
Definition finally (d e : Z) (x : TPlace) : Z * Z :=
  match x with
  | TIdle => (d, e)
  | TLoad c => compared c (if 255 <? d + 1 then 0 else d + 1) e
  | TStore c v => compared c (if 255 <? v + 1 then 0 else v + 1) e
  | TTest c => compared c (if 255 <? d then 0 else d) e
  | TReset c => compared c 0 e
  | TCompare c => compared c d e
  | TErrLoad c => (c, e + 1)
  | TErrStore c v => (c, v + 1)
  | TSet c => (c, e)
  end.
Lemma finally_go : forall d e x d' e' y, tally_go d e x = Some (d', e', y) -> finally d' e' y = finally d e x.
Proof.
  intros d e x d' e' y H. destruct x; cbn [tally_go] in H; try discriminate; injection H as <- <- <-; cbn [finally]; auto.
  - destruct (255 <? d); reflexivity.
  - unfold compared. destruct (c =? d); reflexivity.
Qed.
Lemma bump_compared : forall p c, (sp_down (bump p c), sp_errs (bump p c)) = finally (sp_down p) (sp_errs p) (TLoad c).
Proof. intros p c. unfold bump; cbn [finally]; unfold compared. destruct (c =? _); reflexivity. Qed.
Lemma bump_in : forall p w d e c, (d, e) = finally (ta_down w) (ta_errs w) (TLoad c) ->
  mkSP (sp_buf p) (sp_skip p) (sp_up p) d e = bump (counters_in p w) c.
Proof.
  intros p w d e c H. pose proof (bump_compared (counters_in p w) c) as Q. unfold counters_in in *; cbn [sp_down sp_errs] in Q.
  rewrite <- H in Q. injection Q as Q1 Q2. unfold bump in *; cbn [sp_buf sp_skip sp_up sp_down sp_errs] in *.
  destruct (negb _); cbn [sp_down sp_errs] in *; now rewrite Q1, Q2.
Qed.

(** the thread comes to the end of the lines *)
Lemma comes_out : forall x d e i l, nth_error l i = Some x ->
  exists k, tally_run (mkTally d e l) (repeat (TGo i) k)
    = Some (mkTally (fst (finally d e x)) (snd (finally d e x)) (move i TIdle l)).
Proof.
  assert (S1 : forall x d e i l d' e' y, nth_error l i = Some x -> tally_go d e x = Some (d', e', y) ->
    (forall l', nth_error l' i = Some y -> exists k, tally_run (mkTally d' e' l') (repeat (TGo i) k)
      = Some (mkTally (fst (finally d' e' y)) (snd (finally d' e' y)) (move i TIdle l'))) ->
    exists k, tally_run (mkTally d e l) (repeat (TGo i) k)
      = Some (mkTally (fst (finally d e x)) (snd (finally d e x)) (move i TIdle l))).
  { intros x d e i l d' e' y N G H. destruct (H (move i y l) (move_nth _ _ _ _ N)) as [k R].
    exists (S k). cbn [repeat tally_run]. rewrite (go_eq d e i x l N), G, R, move_move, (finally_go _ _ _ _ _ _ G). reflexivity. }
  assert (H0 : forall d e i l, nth_error l i = Some TIdle -> exists k, tally_run (mkTally d e l) (repeat (TGo i) k)
      = Some (mkTally (fst (finally d e TIdle)) (snd (finally d e TIdle)) (move i TIdle l))).
  { intros d e i l N. exists 0%nat. cbn. now rewrite (move_same _ _ _ N). }
  assert (H1 : forall c d e i l, nth_error l i = Some (TSet c) -> exists k, tally_run (mkTally d e l) (repeat (TGo i) k)
      = Some (mkTally (fst (finally d e (TSet c))) (snd (finally d e (TSet c))) (move i TIdle l))).
  { intros. eapply S1; [eassumption|reflexivity|auto]. }
  assert (H2 : forall c v d e i l, nth_error l i = Some (TErrStore c v) -> exists k, tally_run (mkTally d e l) (repeat (TGo i) k)
      = Some (mkTally (fst (finally d e (TErrStore c v))) (snd (finally d e (TErrStore c v))) (move i TIdle l))).
  { intros. eapply S1; [eassumption|reflexivity|auto]. }
  assert (H3 : forall c d e i l, nth_error l i = Some (TErrLoad c) -> exists k, tally_run (mkTally d e l) (repeat (TGo i) k)
      = Some (mkTally (fst (finally d e (TErrLoad c))) (snd (finally d e (TErrLoad c))) (move i TIdle l))).
  { intros. eapply S1; [eassumption|reflexivity|auto]. }
  assert (H4 : forall c d e i l, nth_error l i = Some (TCompare c) -> exists k, tally_run (mkTally d e l) (repeat (TGo i) k)
      = Some (mkTally (fst (finally d e (TCompare c))) (snd (finally d e (TCompare c))) (move i TIdle l))).
  { intros. eapply S1; [eassumption|reflexivity|]. destruct (c =? d); auto. }
  assert (H5 : forall c d e i l, nth_error l i = Some (TReset c) -> exists k, tally_run (mkTally d e l) (repeat (TGo i) k)
      = Some (mkTally (fst (finally d e (TReset c))) (snd (finally d e (TReset c))) (move i TIdle l))).
  { intros. eapply S1; [eassumption|reflexivity|auto]. }
  assert (H6 : forall c d e i l, nth_error l i = Some (TTest c) -> exists k, tally_run (mkTally d e l) (repeat (TGo i) k)
      = Some (mkTally (fst (finally d e (TTest c))) (snd (finally d e (TTest c))) (move i TIdle l))).
  { intros. eapply S1; [eassumption|reflexivity|]. destruct (255 <? d); auto. }
  assert (H7 : forall c v d e i l, nth_error l i = Some (TStore c v) -> exists k, tally_run (mkTally d e l) (repeat (TGo i) k)
      = Some (mkTally (fst (finally d e (TStore c v))) (snd (finally d e (TStore c v))) (move i TIdle l))).
  { intros. eapply S1; [eassumption|reflexivity|auto]. }
  intros x d e i l N. destruct x; eauto. eapply S1; [eassumption|reflexivity|auto].
Qed.
Lemma tally_comes_out : forall w i, (i < length (ta_at w))%nat ->
  exists k w', tally_run w (repeat (TGo i) k) = Some w' /\ ta_at w' = move i TIdle (ta_at w).
Proof.
  intros [d e l] i L. cbn [ta_at] in *. destruct (nth_error l i) as [x|] eqn:N.
  - destruct (comes_out x d e i l N) as [k R]. eauto.
  - apply nth_error_None in N. lia.
Qed.
Lemma tally_alone : forall p w i c, nth_error (ta_at w) i = Some TIdle ->
  exists k w', tally_run w (TFrame i c :: repeat (TGo i) k) = Some w'
  /\ counters_in p w' = bump (counters_in p w) c /\ ta_at w' = ta_at w.
Proof.
  intros p [d e l] i c N. cbn [ta_at] in N. destruct (comes_out (TLoad c) d e i (move i (TLoad c) l) (move_nth _ _ _ _ N)) as [k R].
  eexists k, _. split.
  - cbn [tally_run tally_step ta_at ta_down ta_errs]. rewrite N. exact R.
  - cbn [ta_at]. split; [|now rewrite move_move, (move_same _ _ _ N)].
    unfold counters_in at 1; cbn [ta_down ta_errs]. apply bump_in. cbn [ta_down ta_errs]. now rewrite <- surjective_pairing.
Qed.

Lemma go_len : forall w l w', tally_step w l = Some w' -> length (ta_at w') = length (ta_at w).
Proof.
  intros w [i c|i] w' H; cbn in H; destruct (nth_error (ta_at w) i) as [x|]; try discriminate.
  - destruct x; try discriminate. injection H as <-. apply move_len.
  - destruct (tally_go _ _ x) as [[[d e] y]|]; [|discriminate]. injection H as <-. apply move_len.
Qed.
Lemma run_len : forall ls w w', tally_run w ls = Some w' -> length (ta_at w') = length (ta_at w).
Proof.
  induction ls as [|l r IH]; intros w w' H; cbn in H; [now injection H as <-|].
  destruct (tally_step w l) as [v|] eqn:E; [|discriminate]. rewrite (IH _ _ H). now apply go_len with l.
Qed.
Lemma run_finally : forall k i w w' x, nth_error (ta_at w) i = Some x -> tally_run w (repeat (TGo i) k) = Some w' ->
  exists y, nth_error (ta_at w') i = Some y /\ finally (ta_down w') (ta_errs w') y = finally (ta_down w) (ta_errs w) x.
Proof.
  induction k as [|k IH]; intros i w w' x N H; cbn [repeat tally_run] in H.
  - injection H as <-. eauto.
  - cbn [tally_step] in H. rewrite N in H.
    destruct (tally_go (ta_down w) (ta_errs w) x) as [[[d e] y]|] eqn:G; [|discriminate].
    destruct (IH i (mkTally d e (move i y (ta_at w))) w' y (move_nth _ _ _ _ N) H) as (z & Nz & Fz). exists z. split; [exact Nz|]. rewrite Fz. cbn [ta_down ta_errs].
    now apply finally_go.
Qed.
Lemma frame_result : forall p w i c k w', tally_run w (TFrame i c :: repeat (TGo i) k) = Some w' -> all_out w' ->
  counters_in p w' = bump (counters_in p w) c.
Proof.
  intros p w i c k w' H O. cbn [tally_run tally_step] in H. destruct (nth_error (ta_at w) i) as [x|] eqn:N; [|discriminate].
  destruct x; try discriminate.
  destruct (run_finally k i (mkTally (ta_down w) (ta_errs w) (move i (TLoad c) (ta_at w))) w' (TLoad c) (move_nth _ _ _ _ N) H) as (y & Ny & F).
  rewrite <- (forall_nth _ _ _ _ O Ny) in F. cbn [finally ta_down ta_errs] in F. now apply bump_in.
Qed.
Lemma counters_app : forall a b, counters_of (a ++ b) = counters_of a ++ counters_of b.
Proof. intros. apply flat_map_app. Qed.
Lemma counters_go : forall i k, counters_of (repeat (TGo i) k) = [].
Proof. intros i k. induction k; cbn; auto. Qed.
Lemma counters_call : forall i c k ls, counters_of (TFrame i c :: repeat (TGo i) k ++ ls) = c :: counters_of ls.
Proof. intros. change (c :: counters_of (repeat (TGo i) k ++ ls) = c :: counters_of ls). now rewrite counters_app, counters_go. Qed.
Lemma tally_turns_from : forall w ls w', alternately w ls w' -> forall p, counters_in p w' = fold_left bump (counters_of ls) (counters_in p w).
Proof.
  intros w ls w' A. induction A as [|w i c k w1 ls w2 R O A IH]; intros p; [reflexivity|].
  rewrite IH, counters_call. cbn [fold_left]. now rewrite (frame_result p _ _ _ _ _ R O).
Qed.
Lemma counters_start : forall p n, counters_in p (tally_of p n) = p.
Proof. intros [] n. reflexivity. Qed.
Lemma tally_turns : forall p n ls w, alternately (tally_of p n) ls w -> counters_in p w = fold_left bump (counters_of ls) p.
Proof. intros p n ls w A. rewrite (tally_turns_from _ _ _ A). now rewrite counters_start. Qed.
Lemma turns_exist_from : forall calls w, all_out w -> Forall (fun x => (fst x < length (ta_at w))%nat) calls ->
  exists ls w', alternately w ls w' /\ counters_of ls = map snd calls.
Proof.
  induction calls as [|[i c] r IH]; intros w O F; [exists [], w; split; [constructor|reflexivity]|].
  inversion F as [|? ? L F']; subst. cbn [fst] in L. destruct (nth_error (ta_at w) i) as [x|] eqn:N; [|apply nth_error_None in N; lia].
  pose proof (forall_nth _ _ _ _ O N) as <-.
  destruct (tally_alone (new_parser true) w i c N) as (k & w1 & R & _ & P).
  assert (O1 : all_out w1) by (unfold all_out; now rewrite P).
  destruct (IH w1 O1) as (ls & w2 & A & C); [now rewrite P|].
  exists (TFrame i c :: repeat (TGo i) k ++ ls), w2. split; [econstructor; eauto|]. rewrite counters_call, C. reflexivity.
Qed.
Lemma start_out : forall p n, all_out (tally_of p n).
Proof. intros p n. unfold all_out, tally_of; cbn [ta_at]. induction n; cbn; auto. Qed.
Lemma tally_turns_exist : forall p n calls, Forall (fun x => (fst x < n)%nat) calls ->
  exists ls w, alternately (tally_of p n) ls w /\ counters_of ls = map snd calls.
Proof.
  intros p n calls F. apply turns_exist_from; [apply start_out|]. unfold tally_of; cbn [ta_at]. now rewrite repeat_length.
Qed.

(** after any schedule: successive frames cost at most one error *)
Lemma bump_down : forall p c, sp_down (bump p c) = c.
Proof. intros p c. unfold bump. destruct (c =? _) eqn:E; cbn; [lia|reflexivity]. Qed.
Lemma bump_errs : forall p c, sp_errs (bump p c) <= sp_errs p + 1.
Proof. intros p c. unfold bump. destruct (negb _); cbn; lia. Qed.
Lemma bump_next : forall p, is_byte (sp_down p) -> sp_errs (bump p ((sp_down p + 1) mod 256)) = sp_errs p.
Proof.
  intros p [L U]. unfold bump. assert (E : (sp_down p + 1) mod 256 = if 255 <? sp_down p + 1 then 0 else sp_down p + 1).
  { destruct (255 <? sp_down p + 1) eqn:G; [|apply Z.mod_small; lia]. replace (sp_down p + 1) with 256 by lia. reflexivity. }
  rewrite E, Z.eqb_refl. reflexivity.
Qed.
Lemma in_step_after : forall r c p, is_byte c -> sp_down p = c -> successive (c :: r) -> Forall is_byte r -> sp_errs (fold_left bump r p) = sp_errs p.
Proof.
  induction r as [|b r IH]; intros c p B D S0 F; [reflexivity|]. destruct S0 as [E S1]. inversion F; subst. cbn [fold_left].
  rewrite (IH ((sp_down p + 1) mod 256)); auto using bump_down. now apply bump_next.
Qed.
Lemma fold_recovers : forall cs p, successive cs -> Forall is_byte cs -> sp_errs (fold_left bump cs p) <= sp_errs p + 1.
Proof.
  intros [|c r] p S1 F; cbn [fold_left]; [lia|]. inversion F; subst.
  rewrite (in_step_after r c); auto using bump_down, bump_errs.
Qed.
Lemma tally_recovers : forall w more v, alternately w more v ->
  successive (counters_of more) -> Forall is_byte (counters_of more) -> ta_errs v <= ta_errs w + 1.
Proof.
  intros w more v A S1 F. pose proof (tally_turns_from _ _ _ A (new_parser true)) as Q.
  pose proof (fold_recovers _ (counters_in (new_parser true) w) S1 F) as R. rewrite <- Q in R. exact R.
Qed.

(** schedules *)
Lemma tally_false_alarm : forall sk, exists ls w, tally_run (tally_of (new_parser sk) 2) ls = Some w /\ all_out w
  /\ counters_of ls = [1; 2] /\ sp_errs (fold_left bump (counters_of ls) (new_parser sk)) = 0 /\ ta_errs w = 1.
Proof.
  intros sk. exists (TFrame 0 1 :: repeat (TGo 0) 2 ++ TFrame 1 2 :: repeat (TGo 1) 4 ++ repeat (TGo 0) 5).
  eexists. split; [vm_compute; reflexivity|]. repeat split. repeat constructor.
Qed.
Lemma tally_undercount : forall sk, exists ls w, tally_run (tally_of (new_parser sk) 2) ls = Some w /\ all_out w
  /\ counters_of ls = [5; 9] /\ sp_errs (fold_left bump (counters_of ls) (new_parser sk)) = 2 /\ ta_errs w = 1.
Proof.
  intros sk. exists (TFrame 0 5 :: repeat (TGo 0) 5 ++ TFrame 1 9 :: repeat (TGo 1) 7 ++ repeat (TGo 0) 2).
  eexists. split; [vm_compute; reflexivity|]. repeat split. repeat constructor.
Qed.
Lemma tally_goes_down : forall sk, exists ls more w v, tally_run (tally_of (new_parser sk) 2) ls = Some w
  /\ tally_run w more = Some v /\ Forall is_byte (counters_of (ls ++ more)) /\ ta_errs v < ta_errs w.
Proof.
  intros sk. exists (TFrame 0 5 :: repeat (TGo 0) 5 ++ TFrame 1 9 :: repeat (TGo 1) 7 ++ TFrame 1 20 :: repeat (TGo 1) 7), [TGo 0].
  eexists _, _. split; [vm_compute; reflexivity|]. split; [vm_compute; reflexivity|]. split; [|vm_compute; reflexivity].
  vm_compute. repeat (constructor; [split; discriminate|]). constructor.
Qed.
Definition one_round : list TLabel :=
  [TFrame 1 0; TGo 1; TGo 0; TGo 0; TGo 0; TGo 1; TFrame 0 0; TGo 0; TGo 1; TGo 1; TGo 1; TGo 0]%nat.
Lemma round_adds : forall d e, 255 < d -> tally_run (mkTally d e [TTest 0; TIdle]) one_round = Some (mkTally (d + 2) e [TTest 0; TIdle]).
Proof.
  intros d e L. unfold one_round. assert (A : (255 <? d) = true) by lia. assert (B : (255 <? d + 1) = true) by lia.
  cbn [tally_run tally_step nth_error ta_at ta_down ta_errs tally_go move]. rewrite A.
  cbn [tally_run tally_step nth_error ta_at ta_down ta_errs tally_go move].
  rewrite Z.eqb_refl. cbn [tally_run tally_step nth_error ta_at ta_down ta_errs tally_go move]. rewrite B.
  cbn [tally_run tally_step nth_error ta_at ta_down ta_errs tally_go move]. rewrite Z.eqb_refl.
  cbn [tally_run tally_step nth_error ta_at ta_down ta_errs tally_go move]. replace (d + 1 + 1) with (d + 2) by lia. reflexivity.
Qed.
Lemma tally_unbounded : forall sk N, exists ls w, tally_run (tally_of (new_parser sk) 2) ls = Some w
  /\ Forall is_byte (counters_of ls) /\ N < ta_down w.
Proof.
  intros sk N. assert (H : forall m, exists ls e, tally_run (tally_of (new_parser sk) 2) ls = Some (mkTally (256 + 2 * Z.of_nat m) e [TTest 0; TIdle])
    /\ Forall is_byte (counters_of ls)).
  { induction m as [|m (ls & e & R & F)].
    - exists (TFrame 0 255 :: repeat (TGo 0) 7 ++ [TFrame 0 0; TGo 0; TGo 0]%nat). eexists. split; [vm_compute; reflexivity|].
      vm_compute. repeat (constructor; [split; discriminate|]). constructor.
    - exists (ls ++ one_round), e. split.
      + rewrite tally_app, R, round_adds by lia. do 2 f_equal. lia.
      + rewrite counters_app. apply Forall_app. split; [exact F|]. vm_compute. repeat (constructor; [split; discriminate|]). constructor. }
  destruct (H (Z.to_nat N)) as (ls & e & R & F). exists ls. eexists. split; [exact R|]. split; [exact F|]. cbn [ta_down]. lia.
Qed.
