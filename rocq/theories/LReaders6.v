(** Any number of reader threads: [stop_reading] waits for the reader started last. *)
From Coq Require Import Lia Arith.
From Verif Require Import SReaders LReaders LReaders2 LReaders3 LReaders4 LReaders5.
Set Implicit Arguments.

Lemma calls_set_call w x d y c : the_call (set_call x d w) y = Some c -> c = d \/ the_call w y = Some c.
Proof.
  destruct w as [a inp cn o ts l aps], x as [i|i], y as [k|k]; cbn [the_call set_call k_apps k_threads]; try (auto; fail);
    rewrite nth_set; destruct (Nat.eqb i k); auto.
  - destruct (nth_error aps k); [|discriminate]. intro H. injection H as <-. auto.
  - destruct (nth_error ts k); [|discriminate]. intro H. injection H as <-. auto.
Qed.
Lemma calls_set_reader w i t y c : the_call (set_reader i t w) y = Some c -> t = KBusy c \/ the_call w y = Some c.
Proof.
  destruct w as [a inp cn o ts l aps], y as [k|k]; cbn [the_call set_reader k_apps k_threads]; [auto|].
  rewrite nth_set. destruct (Nat.eqb i k); [|auto]. destruct (nth_error ts k); [|discriminate].
  destruct t; try discriminate. intro H. injection H as <-. auto.
Qed.
Definition dead_in (ts : list KThread) (j : nat) : Prop := exists t, nth_error ts j = Some t /\ alive_reader t = false.
Lemma dead_set_call w x c d j : the_call w x = Some c -> dead_in (k_threads w) j -> dead_in (k_threads (set_call x d w)) j.
Proof.
  destruct w as [a inp cn o ts l aps], x as [i|i]; cbn [the_call set_call k_apps k_threads]; [auto|].
  intros E (t & T & D). exists t. split; [|exact D]. rewrite nth_set. destruct (Nat.eqb_spec i j) as [->|]; [|exact T].
  rewrite T in E. destruct t; discriminate.
Qed.
Lemma dead_set_reader w i x y j : nth_error (k_threads w) i = Some x -> alive_reader x = true ->
  dead_in (k_threads w) j -> dead_in (k_threads (set_reader i y w)) j.
Proof.
  destruct w as [a inp cn o ts l aps]; cbn [set_reader k_threads]. intros E A (t & T & D). exists t. split; [|exact D].
  rewrite nth_set. destruct (Nat.eqb_spec i j) as [->|]; [|exact T]. congruence.
Qed.
Lemma starting_call w x d : ~ starting w -> d <> CCreate -> d <> CBegin -> ~ starting (set_call x d w).
Proof. intros N D1 D2 [y [H|H]]; apply calls_set_call in H as [H|H]; try congruence; apply N; exists y; auto. Qed.
Lemma starting_reader w i t : ~ starting w -> t <> KBusy CCreate -> t <> KBusy CBegin -> ~ starting (set_reader i t w).
Proof. intros N D1 D2 [y [H|H]]; apply calls_set_reader in H as [H|H]; try congruence; apply N; exists y; auto. Qed.
Lemma starting_same w v : k_threads v = k_threads w -> k_apps v = k_apps w -> ~ starting w -> ~ starting v.
Proof.
  intros T A N [y H]. apply N. exists y. assert (E : the_call w y = the_call v y) by (destruct y; cbn; rewrite ?T, ?A; reflexivity).
  rewrite E. exact H.
Qed.

(** what becomes of the call of application thread [i] *)
Lemma app_set_call w x d i : x <> App i -> the_call (set_call x d w) (App i) = the_call w (App i).
Proof.
  destruct w as [a inp cn o ts l aps], x as [k|k]; cbn [the_call set_call k_apps]; [|reflexivity]. intro N.
  rewrite nth_set. destruct (Nat.eqb_spec k i) as [->|]; [congruence | reflexivity].
Qed.
Lemma app_set_call_own w i c d : the_call w (App i) = Some c -> the_call (set_call (App i) d w) (App i) = Some d.
Proof.
  destruct w as [a inp cn o ts l aps]; cbn [the_call set_call k_apps]. intro E. rewrite nth_set, Nat.eqb_refl, E. reflexivity.
Qed.
Lemma app_set_reader w k t i : the_call (set_reader k t w) (App i) = the_call w (App i).
Proof. destruct w; reflexivity. Qed.

(** (or nothing is claimed) *)
Definition waits (any : Prop) (i last : nat) (w : Port) : Prop := any \/
  (  the_call w (App i) = Some CCancel \/ the_call w (App i) = Some CLook \/ the_call w (App i) = Some (CJoin last)
  \/ dead_in (k_threads w) last).
Definition who_dec (x y : Who) : {x = y} + {x <> y}.
Proof. decide equality; apply Nat.eq_dec. Defined.

Lemma step_waits any w l v i : port_step w l = Some v -> is_start l = false -> (k_last w < length (k_threads w))%nat -> ~ starting w -> waits any i (k_last w) w ->
  ~ starting v /\ k_last v = k_last w /\ waits any i (k_last w) v.
Proof.
  intros S St Ln N W.
  (* a reader goes on *)
  assert (R : forall u k x y, ~ starting u -> k_last u = k_last w -> waits any i (k_last w) u ->
    nth_error (k_threads u) k = Some x -> alive_reader x = true -> y <> KBusy CCreate -> y <> KBusy CBegin ->
    ~ starting (set_reader k y u) /\ k_last (set_reader k y u) = k_last w /\ waits any i (k_last w) (set_reader k y u)).
  { intros u k x y Nu Lu Wu E A Y1 Y2. split; [apply starting_reader; assumption|]. split; [destruct u; exact Lu|].
    unfold waits. rewrite app_set_reader. destruct Wu as [Wu|[Wu|[Wu|[Wu|Wu]]]]; auto. do 4 right. eapply dead_set_reader; eassumption. }
  (* a thread goes on in its call *)
  assert (C : forall u x c d, ~ starting u -> k_last u = k_last w -> waits any i (k_last w) u -> the_call u x = Some c ->
    d <> CCreate -> d <> CBegin ->
    (x = App i -> any \/ d = CCancel \/ d = CLook \/ d = CJoin (k_last w) \/ dead_in (k_threads u) (k_last w)) ->
    ~ starting (set_call x d u) /\ k_last (set_call x d u) = k_last w /\ waits any i (k_last w) (set_call x d u)).
  { intros u x c d Nu Lu Wu E D1 D2 X. split; [apply starting_call; assumption|].
    split; [destruct u, x; exact Lu|]. unfold waits. destruct (who_dec x (App i)) as [->|Ne].
    - rewrite (@app_set_call_own u i c d E). destruct (X eq_refl) as [A|[->|[->|[->|D]]]]; auto. do 4 right. eapply dead_set_call; eassumption.
    - rewrite (@app_set_call u x d i Ne). destruct Wu as [Wu|[Wu|[Wu|[Wu|Wu]]]]; auto. do 4 right. eapply dead_set_call; eassumption. }
  assert (Same : forall u, k_threads u = k_threads w -> k_apps u = k_apps w -> ~ starting u /\ waits any i (k_last w) u).
  { intros u T A. split; [eapply starting_same; eauto|]. unfold waits in *. cbn [the_call] in *. rewrite T, A. exact W. }
  destruct l as [b|k|k ok|k|x|x|x]; cbn [port_step is_start] in *; try discriminate.
  - destruct (k_open w); [|discriminate]. injection S as <-. destruct (Same (set_input (k_input w ++ [b]) w)) as [? ?]; [destruct w; reflexivity..|].
    split; [assumption|]. split; [destruct w; reflexivity | assumption].
  - destruct (nth_error (k_threads w) k) as [t|] eqn:E; [|discriminate]. destruct t as [| | |b|c|]; try discriminate.
    + injection S as <-. eapply R; eauto; destruct (k_active w); discriminate.
    + destruct (negb (k_open w)); [injection S as <-; eapply R; eauto; try reflexivity; discriminate|].
      destruct (k_cancelled w).
      * injection S as <-. destruct (Same (set_cancelled false w)) as [? ?]; [destruct w; reflexivity..|].
        apply (R _ k KRead); auto; try discriminate; try (destruct w; reflexivity); destruct w; exact E.
      * destruct (k_input w) as [|b r]; [discriminate|]. injection S as <-.
        destruct (Same (set_input r w)) as [? ?]; [destruct w; reflexivity..|].
        apply (R _ k KRead); auto; try discriminate; try (destruct w; reflexivity); destruct w; exact E.
    + injection S as <-. eapply R; eauto; try reflexivity; discriminate.
  - destruct (nth_error (k_threads w) k) as [t|] eqn:E; [|discriminate]. destruct t as [| | |b|c|]; try discriminate.
    destruct c; try discriminate. injection S as <-. eapply R; eauto; destruct ok; discriminate.
  - destruct (nth_error (k_threads w) k) as [t|] eqn:E; [|discriminate]. destruct t as [| | |b|c|]; try discriminate.
    destruct (k_open w); [|discriminate]. injection S as <-. destruct (Same (close_port w)) as [? ?]; [destruct w; reflexivity..|].
    apply (R _ k KRead); auto; try discriminate; try (destruct w; reflexivity); destruct w; exact E.
  - destruct (the_call w x) as [c|] eqn:E; [|discriminate]. destruct c; try discriminate. injection S as <-.
    destruct (Same (set_active false w)) as [? ?]; [destruct w; reflexivity..|].
    eapply C; eauto; try discriminate; [destruct w; reflexivity | rewrite the_call_active; exact E].
  - destruct (the_call w x) as [c|] eqn:E; [|discriminate]. destruct c as [| | |j| |]; try discriminate.
    + injection S as <-. destruct (Same (set_cancelled (if k_open w then true else k_cancelled w) w)) as [? ?]; [destruct w; reflexivity..|].
      eapply C; eauto; try discriminate; [destruct w; reflexivity | rewrite the_call_cancelled; exact E].
    + injection S as <-. eapply C; eauto; discriminate.
    + destruct (nth_error (k_threads w) j) as [t|] eqn:T.
      2:{ injection S as <-. eapply C; eauto; try discriminate. intros ->. destruct W as [W|[W|[W|[W|W]]]]; try congruence; [auto| |auto].
          rewrite E in W. injection W as ->. exfalso. apply nth_error_None in T. lia. }
      assert (X : set_call x CNone w = v /\ (x = App i -> alive_reader t = false)).
      { destruct t; try (injection S as <-; split; [reflexivity | intros; reflexivity]);
          (destruct x as [y|y]; [discriminate|]; destruct (Nat.eqb y j); [|discriminate]; injection S as <-; split; [reflexivity | discriminate]). }
      destruct X as [<- X]. eapply C; eauto; try discriminate. intro Hx. pose proof (X Hx) as A. subst x.
      destruct W as [W|[W|[W|[W|W]]]]; try congruence; [auto| |auto]. rewrite E in W. injection W as ->. do 4 right. exists t. auto.
    + exfalso. apply N. exists x. auto.
    + exfalso. apply N. exists x. auto.
Qed.
Lemma run_waits any i n : forall rest ls v w, port_run (new_port n) ls = Some v -> port_run v rest = Some w -> starts rest = 0%nat ->
  ~ starting v -> waits any i (k_last v) v -> ~ starting w /\ k_last w = k_last v /\ waits any i (k_last v) w.
Proof.
  induction rest as [|l rest IH]; intros ls v w R Q St N W; cbn [port_run] in Q; [injection Q as <-; auto|].
  destruct (port_step v l) as [u|] eqn:S; [|discriminate].
  unfold starts in St. cbn in St. destruct (is_start l) eqn:I; [discriminate|].
  destruct (run_orderly _ _ R) as [O _].
  assert (Ln : (k_last v < length (k_threads v))%nat) by lia.
  destruct (@step_waits any v l u i S I Ln N W) as (Nu & Lu & Wu). rewrite <- Lu in Wu |- *.
  apply (IH (ls ++ [l]) u w); auto. rewrite port_run_app, R. cbn. rewrite S. reflexivity.
Qed.
Lemma not_starting n ls w : port_run (new_port n) ls = Some w -> starts ls = 0%nat -> ~ starting w.
Proof.
  intros R St. apply (@run_waits True 0 n ls [] (new_port n) w eq_refl R St); [|left; exact Logic.I].
  intros [[i|i] [H|H]]; cbn in H.
  1,2: apply nth_error_In, repeat_spec in H; discriminate.
  all: destruct i as [|[|i]]; discriminate.
Qed.
(** ** Results *)
Lemma waits_for_last n ls i v rest w : port_run (new_port n) (ls ++ [KStop (App i)]) = Some v -> ~ starting v ->
  port_run v rest = Some w -> starts rest = 0%nat -> the_call w (App i) = Some CNone ->
  exists t, nth_error (k_threads w) (k_last v) = Some t /\ alive_reader t = false.
Proof.
  intros R N Q St E. assert (W : waits False i (k_last v) v).
  { right. left. destruct (port_run_snoc _ _ _ R) as (u & Ru & S). cbn [port_step] in S.
    destruct (the_call u (App i)) as [[]|] eqn:Eu; try discriminate. injection S as <-.
    apply (@app_set_call_own _ i CNone). rewrite the_call_active. exact Eu. }
  destruct (@run_waits False i n rest _ v w R Q St N W) as (_ & _ & [[]|[H|[H|[H|H]]]]); try congruence. exact H.
Qed.
Lemma stopped_for_good n ls i v rest w : port_run (new_port n) (ls ++ [KStop (App i)]) = Some v ->
  port_run v rest = Some w -> starts (ls ++ rest) = 0%nat -> the_call w (App i) = Some CNone ->
  live w = 0%nat /\ forall more x, starts more = 0%nat -> port_run w more = Some x -> handed w more = [].
Proof.
  intros R Q St E. rewrite starts_app in St.
  assert (Sv : starts (ls ++ [KStop (App i)]) = 0%nat) by (rewrite starts_app; unfold starts at 2; cbn; lia).
  assert (Sr : starts rest = 0%nat) by lia.
  destruct (@waits_for_last n ls i v rest w R (@not_starting n _ _ R Sv) Q Sr E) as (t & T & D).
  assert (Rw : port_run (new_port n) ((ls ++ [KStop (App i)]) ++ rest) = Some w) by (rewrite port_run_app, R; exact Q).
  pose proof (run_threads _ _ Rw) as Th. rewrite starts_app, Sv, Sr in Th.
  assert (T0 : nth_error (k_threads w) (k_last v) <> None) by congruence. apply nth_error_Some in T0.
  assert (A : k_active v = false).
  { destruct (port_run_snoc _ _ _ R) as (u & _ & S). cbn [port_step] in S. destruct (the_call u (App i)) as [[]|]; try discriminate.
    injection S as <-. destruct u; reflexivity. }
  destruct (run_in_read _ _ Q A Sr) as [Aw _]. clear A.
  destruct (k_threads w) as [|t0 [|t1 ts]] eqn:K; cbn [length] in *; try lia.
  assert (L0 : k_last v = 0%nat) by lia. rewrite L0 in T. injection T as ->.
  assert (L : live w = 0%nat) by (unfold live; rewrite K; cbn; rewrite D; reflexivity).
  split; [exact L|]. intros more x Sm Rm. destruct (run_in_read _ _ Rm Aw Sm) as [_ H].
  assert (Z : in_read w = 0%nat) by (unfold in_read; rewrite K; cbn; destruct t; try discriminate D; reflexivity).
  destruct (handed w more); [reflexivity|]. cbn in H. lia.
Qed.
