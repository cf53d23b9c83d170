(** Lemmas for any number of reader threads: stopping, and what is waited for. *)
From Coq Require Import Lia Arith.
From Verif Require Import SReaders LReaders LReaders2.
Set Implicit Arguments.

(** * Weights over the threads and calls *)
Section Weigh.
Variable f : KThread -> nat.
Variable g : Call -> nat.
Definition weigh (w : Port) : nat := (list_sum (map f (k_threads w)) + list_sum (map g (k_apps w)))%nat.
Lemma weigh_reader w i x y : nth_error (k_threads w) i = Some x -> (weigh (set_reader i y w) + f x = weigh w + f y)%nat.
Proof.
  destruct w as [a inp cn o ts l aps]. cbn [k_threads]. intro E. destruct (nth_cut _ _ E) as (p & q & -> & _ & S).
  unfold weigh, set_reader. cbn [k_threads k_apps]. rewrite S, !sum_cut. lia.
Qed.
Lemma weigh_call w x c d : the_call w x = Some c -> (forall e e', f (KBusy e) + g e' = f (KBusy e') + g e)%nat ->
  (weigh (set_call x d w) + g c = weigh w + g d)%nat.
Proof.
  destruct w as [a inp cn o ts l aps], x as [i|i]; cbn [the_call k_threads k_apps]; intros H Fg.
  - destruct (nth_cut _ _ H) as (p & q & -> & _ & S). unfold weigh, set_call. cbn [k_threads k_apps].
    rewrite S, !sum_cut. lia.
  - destruct (nth_error ts i) as [t|] eqn:E; [|discriminate].
    destruct (nth_cut _ _ E) as (p & q & -> & _ & S). destruct t; try discriminate. injection H as ->.
    unfold weigh, set_call. cbn [k_threads k_apps]. rewrite S, !sum_cut. specialize (Fg c d). lia.
Qed.
Lemma weigh_create w : weigh (create w) = (weigh w + f KNew)%nat.
Proof.
  destruct w as [a inp cn o ts l aps]. unfold weigh, create. cbn [k_threads k_apps].
  rewrite (sum_cut f ts KNew []). cbn. lia.
Qed.
Lemma weigh_active b w : weigh (set_active b w) = weigh w. Proof. destruct w; reflexivity. Qed.
Lemma weigh_cancelled b w : weigh (set_cancelled b w) = weigh w. Proof. destruct w; reflexivity. Qed.
Lemma weigh_input b w : weigh (set_input b w) = weigh w. Proof. destruct w; reflexivity. Qed.
Lemma weigh_close w : weigh (close_port w) = weigh w. Proof. destruct w; reflexivity. Qed.
End Weigh.
Lemma threads_active b w : k_threads (set_active b w) = k_threads w. Proof. destruct w; reflexivity. Qed.
Lemma threads_cancelled b w : k_threads (set_cancelled b w) = k_threads w. Proof. destruct w; reflexivity. Qed.
Lemma threads_input b w : k_threads (set_input b w) = k_threads w. Proof. destruct w; reflexivity. Qed.
Lemma threads_close w : k_threads (close_port w) = k_threads w. Proof. destruct w; reflexivity. Qed.

(** * The readers in [read()] after [stop_reading] *)
Definition rd (t : KThread) : nat := if reading t then 1 else 0.
Definition no_call (c : Call) : nat := 0.
Lemma in_read_eq w : in_read w = weigh rd no_call w.
Proof.
  unfold in_read, weigh. assert (Z0 : list_sum (map no_call (k_apps w)) = 0%nat) by (induction (k_apps w); cbn; auto).
  rewrite Z0, Nat.add_0_r. induction (k_threads w) as [|t r IH]; [reflexivity|]. cbn [filter map].
  change (list_sum (rd t :: map rd r)) with (rd t + list_sum (map rd r))%nat. unfold rd at 1. destruct (reading t); cbn [length plus]; lia.
Qed.
Lemma step_in_read w l v : port_step w l = Some v -> k_active w = false -> is_start l = false ->
  k_active v = false /\ (in_read v + length (handed_by w l) <= in_read w)%nat.
Proof.
  rewrite !in_read_eq. set (wg := weigh rd no_call).
  assert (R : forall u i x y, nth_error (k_threads u) i = Some x -> (wg (set_reader i y u) + rd x = wg u + rd y)%nat)
    by (intros; apply weigh_reader; assumption).
  assert (C : forall u x c d, the_call u x = Some c -> wg (set_call x d u) = wg u).
  { intros u x c d E. pose proof (@weigh_call rd no_call u x c d E (fun _ _ => eq_refl)) as W. change (no_call c) with 0%nat in W. change (no_call d) with 0%nat in W. fold wg in W. lia. }
  assert (A : forall i t u, k_active (set_reader i t u) = k_active u) by (intros ? ? []; reflexivity).
  assert (B : forall x c u, k_active (set_call x c u) = k_active u) by (intros [] ? []; reflexivity).
  intros H Off.
  destruct l as [b|i|i ok|i|x|x|x]; cbn [port_step is_start handed_by length] in *; try discriminate; intros _.
  - destruct (k_open w); [|discriminate]. injection H as <-. split; [destruct w; exact Off|].
    unfold wg. rewrite weigh_input. lia.
  - destruct (nth_error (k_threads w) i) as [t|] eqn:E; [|discriminate].
    destruct t as [| | |b|c|]; try discriminate.
    + rewrite Off in H. injection H as <-. rewrite A. split; [exact Off|].
      specialize (R w i KTop KEnded E). cbn [rd reading length] in *. lia.
    + destruct (k_open w); cbn [negb] in H.
      2:{ injection H as <-. rewrite A. split; [exact Off|]. specialize (R w i KRead KEnded E). cbn [rd reading length] in *. lia. }
      destruct (k_cancelled w); [|destruct (k_input w) as [|b r]; [discriminate|]]; injection H as <-; rewrite A.
      * split; [destruct w; exact Off|]. specialize (R (set_cancelled false w) i KRead KTop).
        rewrite threads_cancelled in R. specialize (R E). unfold wg in *. rewrite weigh_cancelled in R. cbn [rd reading length] in *. lia.
      * split; [destruct w; exact Off|]. specialize (R (set_input r w) i KRead (KGot b)).
        rewrite threads_input in R. specialize (R E). unfold wg in *. rewrite weigh_input in R. cbn [rd reading length] in *. lia.
    + injection H as <-. rewrite A. split; [exact Off|]. specialize (R w i (KGot b) (KBusy CNone) E). cbn [rd reading length] in *. lia.
  - destruct (nth_error (k_threads w) i) as [t|] eqn:E; [|discriminate].
    destruct t as [| | |b|[]|]; try discriminate. injection H as <-. rewrite A. split; [exact Off|].
    specialize (R w i (KBusy CNone) (if ok then KTop else KEnded) E). destruct ok; cbn [rd reading length] in *; lia.
  - destruct (nth_error (k_threads w) i) as [t|] eqn:E; [|discriminate]. destruct t; try discriminate.
    destruct (k_open w); [|discriminate]. injection H as <-. rewrite A. split; [destruct w; exact Off|].
    specialize (R (close_port w) i KRead KEnded). rewrite threads_close in R. specialize (R E).
    unfold wg in *. rewrite weigh_close in R. cbn [rd reading length] in *. lia.
  - destruct (the_call w x) as [[]|] eqn:E; try discriminate. injection H as <-. rewrite B.
    split; [destruct w; reflexivity|]. rewrite (C _ x CNone) by (rewrite the_call_active; exact E).
    unfold wg. rewrite weigh_active. lia.
  - destruct (the_call w x) as [c|] eqn:E; [|discriminate].
    assert (Q : forall d v', Some (set_call x d w) = Some v' -> k_active v' = false /\ (wg v' + 0 <= wg w)%nat)
      by (intros d v' Hq; injection Hq as <-; rewrite B, (C _ x c) by exact E; split; [exact Off | lia]).
    destruct c; try discriminate.
    + injection H as <-. rewrite B. split; [destruct w; exact Off|].
      rewrite (C _ x CCancel) by (rewrite the_call_cancelled; exact E). unfold wg. rewrite weigh_cancelled. lia.
    + eapply Q, H.
    + destruct (nth_error (k_threads w) j) as [t|]; [|eapply Q, H].
      destruct t; try (eapply Q, H); (destruct x; [discriminate|]; destruct (Nat.eqb _ _); [eapply Q, H | discriminate]).
    + injection H as <-. rewrite B. split; [destruct w; exact Off|].
      rewrite (C _ x CCreate) by (apply the_call_create; exact E). unfold wg. rewrite weigh_create. cbn [rd reading]. lia.
    + destruct (nth_error (k_threads w) (k_last w)) as [t|] eqn:L; [|eapply Q, H]. destruct t; try (eapply Q, H).
      injection H as <-. rewrite B, A. split; [exact Off|].
      rewrite (C _ x CBegin) by (apply the_call_start; assumption). specialize (R w _ KNew KTop L). cbn [rd reading length] in *. lia.
Qed.
Lemma run_in_read ls : forall w v, port_run w ls = Some v -> k_active w = false -> starts ls = 0%nat ->
  k_active v = false /\ (in_read v + length (handed w ls) <= in_read w)%nat.
Proof.
  induction ls as [|l ls IH]; intros w v H Off St; cbn [port_run handed] in *.
  - injection H as <-. cbn. split; [exact Off | lia].
  - destruct (port_step w l) as [u|] eqn:S; [|discriminate].
    unfold starts in St. cbn in St. destruct (is_start l) eqn:I; [discriminate|].
    destruct (step_in_read _ _ S Off I) as [Off' L]. destruct (IH _ _ H Off' St) as [Off'' L'].
    rewrite app_length. split; [exact Off'' | lia].
Qed.

(** * Nothing runs for ever *)
Definition cw (c : Call) : nat :=
  match c with CNone => 0 | CCancel => 5 | CLook => 2 | CJoin _ => 1 | CCreate => 4 | CBegin => 3 end.
Definition tw (t : KThread) : nat :=
  match t with KNew => 0 | KTop => 2 | KRead => 1 | KGot _ => 4 | KBusy c => 3 + cw c | KEnded => 0 end.
Definition work (w : Port) : nat := (weigh tw cw w + 4 * length (k_input w) + if k_cancelled w then 2 else 0)%nat.
Lemma step_work w l v : port_step w l = Some v -> own_step l -> (work v < work w)%nat.
Proof.
  unfold work. set (wg := weigh tw cw).
  assert (R : forall u i x y, nth_error (k_threads u) i = Some x -> (wg (set_reader i y u) + tw x = wg u + tw y)%nat)
    by (intros; apply weigh_reader; assumption).
  assert (C : forall u x c d, the_call u x = Some c -> (wg (set_call x d u) + cw c = wg u + cw d)%nat).
  { intros u x c d E. apply weigh_call; [exact E|]. intros e e'. cbn [tw]. lia. }
  assert (A : forall i t u, k_input (set_reader i t u) = k_input u /\ k_cancelled (set_reader i t u) = k_cancelled u)
    by (intros ? ? []; split; reflexivity).
  assert (B : forall x c u, k_input (set_call x c u) = k_input u /\ k_cancelled (set_call x c u) = k_cancelled u)
    by (intros [] ? []; split; reflexivity).
  intros H O. destruct l as [b|i|i ok|i|x|x|x]; cbn [port_step own_step] in *; try contradiction.
  - destruct (nth_error (k_threads w) i) as [t|] eqn:E; [|discriminate].
    destruct t as [| | |b|c|]; try discriminate.
    + injection H as <-. destruct (A i (if k_active w then KRead else KEnded) w) as [-> ->].
      specialize (R w i KTop (if k_active w then KRead else KEnded) E). destruct (k_active w); cbn [tw] in *; lia.
    + destruct (k_open w); cbn [negb] in H.
      2:{ injection H as <-. destruct (A i KEnded w) as [-> ->].
          specialize (R w i KRead KEnded E). cbn [tw] in *. lia. }
      destruct (k_cancelled w) eqn:Cn; [|destruct (k_input w) as [|b r] eqn:I; [discriminate|]]; injection H as <-.
      * destruct (A i KTop (set_cancelled false w)) as [-> ->]. specialize (R (set_cancelled false w) i KRead KTop).
        rewrite threads_cancelled in R. specialize (R E). unfold wg in *. rewrite weigh_cancelled in R.
        replace (k_input (set_cancelled false w)) with (k_input w) by (destruct w; reflexivity).
        replace (k_cancelled (set_cancelled false w)) with false by (destruct w; reflexivity). cbn [tw] in *. lia.
      * destruct (A i (KGot b) (set_input r w)) as [-> ->]. specialize (R (set_input r w) i KRead (KGot b)).
        rewrite threads_input in R. specialize (R E). unfold wg in *. rewrite weigh_input in R.
        replace (k_input (set_input r w)) with r by (destruct w; reflexivity).
        replace (k_cancelled (set_input r w)) with (k_cancelled w) by (destruct w; reflexivity). rewrite Cn. cbn [tw length] in *. lia.
    + injection H as <-. destruct (A i (KBusy CNone) w) as [-> ->]. specialize (R w i (KGot b) (KBusy CNone) E). cbn [tw cw] in *. lia.
  - destruct (nth_error (k_threads w) i) as [t|] eqn:E; [|discriminate].
    destruct t as [| | |b|[]|]; try discriminate. injection H as <-.
    destruct (A i (if ok then KTop else KEnded) w) as [-> ->].
    specialize (R w i (KBusy CNone) (if ok then KTop else KEnded) E). destruct ok; cbn [tw cw] in *; lia.
  - destruct (the_call w x) as [c|] eqn:E; [|discriminate].
    assert (Q : forall d v', Some (set_call x d w) = Some v' -> (cw d < cw c)%nat ->
       (wg v' + 4 * length (k_input v') + (if k_cancelled v' then 2 else 0) < wg w + 4 * length (k_input w) + if k_cancelled w then 2 else 0)%nat).
    { intros d v' Hq L. injection Hq as <-. destruct (B x d w) as [-> ->]. specialize (C w x c d E). lia. }
    destruct c; try discriminate.
    + injection H as <-. set (u := set_cancelled _ w). destruct (B x CLook u) as [-> ->].
      specialize (C u x CCancel CLook). unfold u in C at 1. rewrite the_call_cancelled in C. specialize (C E).
      unfold wg in *. replace (weigh tw cw u) with (weigh tw cw w) in C by (unfold u; rewrite weigh_cancelled; reflexivity).
      replace (k_input u) with (k_input w) by (destruct w; reflexivity).
      cbn [cw] in *. destruct (k_cancelled u), (k_cancelled w); lia.
    + eapply Q; [exact H | cbn; lia].
    + destruct (nth_error (k_threads w) j) as [t|]; [|eapply Q; [exact H | cbn; lia]].
      destruct t; try (eapply Q; [exact H | cbn; lia]);
        (destruct x; [discriminate|]; destruct (Nat.eqb _ _); [eapply Q; [exact H | cbn; lia] | discriminate]).
    + injection H as <-. destruct (B x CBegin (create w)) as [-> ->].
      specialize (C _ x _ CBegin (the_call_create w x E)). unfold wg in *. rewrite weigh_create in C.
      replace (k_input (create w)) with (k_input w) by (destruct w; reflexivity).
      replace (k_cancelled (create w)) with (k_cancelled w) by (destruct w; reflexivity). cbn [cw tw] in *. lia.
    + destruct (nth_error (k_threads w) (k_last w)) as [t|] eqn:L; [|eapply Q; [exact H | cbn; lia]].
      destruct t; try (eapply Q; [exact H | cbn; lia]). injection H as <-.
      destruct (B x CNone (set_reader (k_last w) KTop w)) as [-> ->]. destruct (A (k_last w) KTop w) as [-> ->].
      specialize (C _ x _ CNone (the_call_start w x _ E L)). specialize (R w _ KNew KTop L). cbn [cw tw] in *. lia.
Qed.
Lemma run_work ls : forall w v, port_run w ls = Some v -> Forall own_step ls -> (length ls + work v <= work w)%nat.
Proof.
  induction ls as [|l ls IH]; intros w v H F; cbn [port_run length] in *; [injection H as <-; lia|].
  destruct (port_step w l) as [u|] eqn:S; [|discriminate]. inversion F as [|? ? O F']; subst.
  apply (step_work _ _ S) in O. apply (IH _ _ H) in F'. lia.
Qed.
