(** Any number of reader threads: after an exception of the device. *)
From Coq Require Import Lia Arith.
From Verif Require Import SReaders LReaders LReaders2 LReaders3 LReaders4 LReaders5 LReaders6.
Set Implicit Arguments.

Lemma open_call x d w : k_open (set_call x d w) = k_open w /\ k_input (set_call x d w) = k_input w.
Proof. destruct w, x; auto. Qed.
Lemma open_reader i t w : k_open (set_reader i t w) = k_open w /\ k_input (set_reader i t w) = k_input w.
Proof. destruct w; auto. Qed.
Lemma open_same u w : k_open (set_active u w) = k_open w /\ k_input (set_active u w) = k_input w
  /\ k_open (set_cancelled u w) = k_open w /\ k_input (set_cancelled u w) = k_input w
  /\ k_open (create w) = k_open w /\ k_input (create w) = k_input w.
Proof. destruct w; cbn; auto 8. Qed.
Lemma step_closed w l v : port_step w l = Some v -> k_open w = false ->
  k_open v = false /\ k_input v = k_input w /\ came [l] = [].
Proof.
  intros S O.
  assert (C : forall x d u, k_open u = k_open w /\ k_input u = k_input w -> k_open (set_call x d u) = false /\ k_input (set_call x d u) = k_input w /\ @nil Z = []).
  { intros x d u [Ou Iu]. destruct (open_call x d u) as [-> ->]. rewrite Ou, Iu. auto. }
  assert (R : forall i t, k_open (set_reader i t w) = false /\ k_input (set_reader i t w) = k_input w /\ @nil Z = []).
  { intros i t. destruct (open_reader i t w) as [-> ->]. auto. }
  destruct l as [b|k|k ok|k|x|x|x]; cbn [port_step came flat_map app] in *.
  - rewrite O in S. discriminate.
  - destruct (nth_error (k_threads w) k) as [t|]; [|discriminate]. destruct t as [| | |b|c|]; try discriminate.
    + injection S as <-. apply R.
    + rewrite O in S. cbn in S. injection S as <-. apply R.
    + injection S as <-. apply R.
  - destruct (nth_error (k_threads w) k) as [[| | |b|[]|]|]; try discriminate. injection S as <-. apply R.
  - destruct (nth_error (k_threads w) k) as [[| | |b|c|]|]; try discriminate. rewrite O in S. discriminate.
  - destruct (the_call w x) as [[]|]; try discriminate. injection S as <-. apply C. destruct (open_same false w); tauto.
  - destruct (the_call w x) as [[]|]; try discriminate. injection S as <-. apply C. destruct (open_same true w); tauto.
  - destruct (the_call w x) as [c|]; [|discriminate]. destruct c as [| | |j| |]; try discriminate.
    + injection S as <-. apply C. destruct (open_same (if k_open w then true else k_cancelled w) w); tauto.
    + injection S as <-. apply C; auto.
    + assert (E : v = set_call x CNone w).
      { destruct (nth_error (k_threads w) j) as [t|]; [|congruence]. destruct t; try congruence;
          (destruct x; [discriminate|]; destruct (Nat.eqb _ _); congruence). }
      subst v. apply C; auto.
    + injection S as <-. apply C. destruct (open_same true w); tauto.
    + injection S as <-. apply C. destruct (nth_error (k_threads w) (k_last w)) as [[]|]; auto. apply open_reader.
Qed.
Lemma run_closed : forall ls w v, port_run w ls = Some v -> k_open w = false ->
  k_open v = false /\ k_input v = k_input w /\ came ls = [] /\ Permutation (handed w ls ++ held v) (held w).
Proof.
  induction ls as [|l ls IH]; intros w v H O; cbn [port_run handed] in *.
  - injection H as <-. auto.
  - destruct (port_step w l) as [u|] eqn:S; [|discriminate].
    destruct (step_closed _ _ S O) as (Ou & Iu & Cu). destruct (IH _ _ H Ou) as (Ov & Iv & Cv & Pv).
    split; [exact Ov|]. split; [congruence|].
    split; [change (l :: ls) with ([l] ++ ls); rewrite came_app, Cu, Cv; reflexivity|].
    pose proof (step_moves _ _ S) as M. rewrite Iu, Cu in M. rewrite <- app_assoc.
    eapply Permutation_trans; [apply Permutation_app_head, Pv|].
    revert M. generalize (held w) (held u) (k_input w) (handed_by w l). intros hw hu inp d M. inversion M; subst.
    + reflexivity.
    + exfalso. match goal with H : ?a = ?b |- _ => apply (f_equal (@length Z)) in H; rewrite ?app_length in H; cbn in H; lia end.
    + cbn. apply Permutation_middle.
Qed.
Lemma failed_closed w i v : port_step w (KFails i) = Some v -> k_open v = false.
Proof.
  cbn [port_step]. destruct (nth_error (k_threads w) i) as [[]|]; try discriminate. destruct (k_open w); [|discriminate].
  intro H. injection H as <-. destruct w; reflexivity.
Qed.
Lemma after_failure n ls i w rest v : port_run (new_port n) (ls ++ [KFails i]) = Some w -> port_run w rest = Some v ->
  came rest = [] /\ k_input v = k_input w /\ Permutation (handed w rest ++ held v) (held w).
Proof.
  intros R Q. destruct (port_run_snoc _ _ _ R) as (u & _ & S). apply failed_closed in S.
  destruct (run_closed _ _ Q S) as (_ & ? & ? & ?). auto.
Qed.
