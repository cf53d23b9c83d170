(** Lemmas for any number of reader threads: what is waited for, and schedules. *)
From Coq Require Import Lia Arith.
From Verif Require Import SReaders LReaders LReaders2 LReaders3.
Set Implicit Arguments.

(** * No two threads wait for each other *)
Definition orderly (w : Port) : Prop :=
  S (k_last w) = length (k_threads w)
  /\ forall i j, nth_error (k_threads w) i = Some (KBusy (CJoin j)) -> (i <= j)%nat.
Lemma nth_set A (l : list A) : forall i k y, nth_error (set_nth i y l) k =
  if Nat.eqb i k then match nth_error l k with Some _ => Some y | None => None end else nth_error l k.
Proof. induction l as [|x l IH]; intros [|i] [|k] y; cbn; try reflexivity; [destruct (Nat.eqb i k); reflexivity | apply IH]. Qed.
Lemma orderly_reader w i t : orderly w -> (forall j, t <> KBusy (CJoin j)) -> orderly (set_reader i t w).
Proof.
  destruct w as [a inp cn o ts l aps]. intros [L J] N. split; cbn in *.
  - rewrite set_length. exact L.
  - intros k j. rewrite nth_set. destruct (Nat.eqb i k); [|apply J]. destruct (nth_error ts k); [|discriminate].
    intro H. injection H as H. destruct (N j H).
Qed.
Lemma orderly_call w x c d : orderly w -> the_call w x = Some c -> (forall j, d = CJoin j -> j = k_last w) -> orderly (set_call x d w).
Proof.
  destruct w as [a inp cn o ts l aps]. intros [L J] E N. destruct x as [i|i]; [split; assumption|]. split; cbn in *.
  - rewrite set_length. exact L.
  - intros k j. rewrite nth_set. destruct (Nat.eqb_spec i k) as [->|]; [|apply J].
    destruct (nth_error ts k) eqn:K; [|discriminate].
    intro H. injection H as H. rewrite (N _ H). assert (nth_error ts k <> None) as K' by congruence.
    apply nth_error_Some in K'. lia.
Qed.
Lemma orderly_same w v : k_last v = k_last w -> k_threads v = k_threads w -> orderly w -> orderly v.
Proof. unfold orderly. intros -> ->. auto. Qed.
Lemma orderly_create w : orderly w -> orderly (create w).
Proof.
  destruct w as [a inp cn o ts l aps]. intros [L J]. split; cbn in *.
  - rewrite app_length. cbn. lia.
  - intros i j E. destruct (Nat.lt_ge_cases i (length ts)) as [Lt|Ge].
    + rewrite nth_error_app1 in E by exact Lt. apply J, E.
    + rewrite nth_error_app2 in E by exact Ge. destruct (i - length ts)%nat as [|[|]]; discriminate.
Qed.
Lemma step_orderly w l v : port_step w l = Some v -> orderly w -> orderly v.
Proof.
  intros H O.
  destruct l as [b|i|i ok|i|x|x|x]; cbn [port_step] in H.
  - destruct (k_open w); [|discriminate]. injection H as <-. eapply orderly_same; [| |exact O]; destruct w; reflexivity.
  - destruct (nth_error (k_threads w) i) as [t|] eqn:E; [|discriminate].
    destruct t as [| | |b|c|]; try discriminate.
    + injection H as <-. apply orderly_reader; [exact O|]. destruct (k_active w); discriminate.
    + destruct (k_open w); cbn [negb] in H; [|injection H as <-; apply orderly_reader; [exact O | discriminate]].
      destruct (k_cancelled w); [|destruct (k_input w); [discriminate|]]; injection H as <-; apply orderly_reader; try discriminate;
        (eapply orderly_same; [| |exact O]; destruct w; reflexivity).
    + injection H as <-. apply orderly_reader; [exact O | discriminate].
  - destruct (nth_error (k_threads w) i) as [t|] eqn:E; [|discriminate].
    destruct t as [| | |b|[]|]; try discriminate. injection H as <-. apply orderly_reader; [exact O|]. destruct ok; discriminate.
  - destruct (nth_error (k_threads w) i) as [t|] eqn:E; [|discriminate]. destruct t; try discriminate.
    destruct (k_open w); [|discriminate]. injection H as <-. apply orderly_reader; [|discriminate].
    eapply orderly_same; [| |exact O]; destruct w; reflexivity.
  - destruct (the_call w x) as [[]|] eqn:E; try discriminate. injection H as <-.
    apply orderly_call with CNone; [|rewrite the_call_active; exact E | discriminate].
    eapply orderly_same; [| |exact O]; destruct w; reflexivity.
  - destruct (the_call w x) as [[]|] eqn:E; try discriminate. injection H as <-.
    apply orderly_call with CNone; [|rewrite the_call_active; exact E | discriminate].
    eapply orderly_same; [| |exact O]; destruct w; reflexivity.
  - destruct (the_call w x) as [c|] eqn:E; [|discriminate].
    assert (Q : Some (set_call x CNone w) = Some v -> orderly v)
      by (intro Hq; injection Hq as <-; apply orderly_call with c; [exact O | exact E | discriminate]).
    destruct c; try discriminate.
    + injection H as <-. apply orderly_call with CCancel; [|rewrite the_call_cancelled; exact E | discriminate].
      eapply orderly_same; [| |exact O]; destruct w; reflexivity.
    + injection H as <-. apply orderly_call with CLook; [exact O | exact E |]. intros j Hj. injection Hj as <-. reflexivity.
    + destruct (nth_error (k_threads w) j) as [t|]; [|apply Q, H].
      destruct t; try (apply Q, H); (destruct x; [discriminate|]; destruct (Nat.eqb _ _); [apply Q, H | discriminate]).
    + injection H as <-. apply orderly_call with CCreate; [apply orderly_create, O | apply the_call_create, E | discriminate].
    + destruct (nth_error (k_threads w) (k_last w)) as [t|] eqn:L; [|apply Q, H]. destruct t; try (apply Q, H).
      injection H as <-. apply orderly_call with CBegin; [|apply the_call_start; assumption | discriminate].
      apply orderly_reader; [exact O | discriminate].
Qed.
Lemma run_orderly n ls : forall w, port_run (new_port n) ls = Some w -> orderly w.
Proof.
  induction ls as [|l ls IH] using rev_ind; intros w H.
  - injection H as <-. split; [reflexivity|]. intros [|[|i]] j E; discriminate.
  - destruct (port_run_snoc _ _ _ H) as (v & R & S). eapply step_orderly; [exact S | apply IH, R].
Qed.

(** ** At rest *)
Definition waits_for_input (w : Port) (j : nat) : Prop :=
  nth_error (k_threads w) j = Some KRead /\ k_open w = true /\ k_cancelled w = false /\ k_input w = [].
Lemma rest_read w j : at_rest w -> nth_error (k_threads w) j = Some KRead -> waits_for_input w j.
Proof.
  intros Rs E. pose proof (Rs (KLoop j) Logic.I) as H. cbn in H. rewrite E in H. split; [exact E|].
  destruct (k_open w); [|discriminate]. destruct (k_cancelled w); [discriminate|]. destruct (k_input w); [auto | discriminate].
Qed.
Lemma rest_call w x c : at_rest w -> the_call w x = Some c -> c = CNone /\ (exists i, x = App i) \/
  exists j t, c = CJoin j /\ nth_error (k_threads w) j = Some t /\ t <> KNew /\ t <> KEnded
    /\ forall i, x = Reader i -> i <> j.
Proof.
  intros Rs E. pose proof (Rs (KGoOn x) Logic.I) as H. cbn in H. rewrite E in H. destruct c; try discriminate.
  - left. split; [reflexivity|]. destruct x as [i|i]; [eauto|]. exfalso. cbn in E.
    pose proof (Rs (KDone i true) Logic.I) as D. cbn in D. destruct (nth_error (k_threads w) i) as [[]|]; try discriminate.
    injection E as ->. discriminate.
  - right. destruct (nth_error (k_threads w) j) as [t|] eqn:T; [|discriminate]. exists j, t. split; [reflexivity|]. split; [exact T|].
    split; [intro Z0; subst t; discriminate|]. split; [intro Z0; subst t; discriminate|].
    intros i -> ->. destruct t; try discriminate; rewrite Nat.eqb_refl in H; discriminate.
Qed.
Lemma rest_thread w : at_rest w -> orderly w -> forall n i t, (length (k_threads w) <= i + n)%nat ->
  nth_error (k_threads w) i = Some t -> t <> KNew -> t <> KEnded -> exists j, waits_for_input w j.
Proof.
  intros Rs [_ J]. induction n as [|n IH]; intros i t L E N1 N2.
  - assert (nth_error (k_threads w) i <> None) as K by congruence. apply nth_error_Some in K. lia.
  - destruct t as [| | |b|c|]; try contradiction.
    + pose proof (Rs (KLoop i) Logic.I) as H. cbn in H. rewrite E in H. discriminate.
    + exists i. apply rest_read; assumption.
    + pose proof (Rs (KLoop i) Logic.I) as H. cbn in H. rewrite E in H. discriminate.
    + assert (C : the_call w (Reader i) = Some c) by (cbn; rewrite E; reflexivity).
      destruct (rest_call _ Rs C) as [[_ [k Hk]]|(j & t & -> & T & T1 & T2 & Nj)]; [discriminate|].
      apply IH with j t; auto. specialize (J _ _ E). specialize (Nj i eq_refl). lia.
Qed.
Lemma rest_waits n ls w x c : port_run (new_port n) ls = Some w -> at_rest w -> the_call w x = Some c -> c <> CNone ->
  exists j, waits_for_input w j.
Proof.
  intros R Rs C N. pose proof (run_orderly _ _ R) as O.
  destruct (rest_call _ Rs C) as [[-> _]|(j & t & -> & T & T1 & T2 & Nj)]; [contradiction|].
  apply (rest_thread Rs O) with (length (k_threads w)) j t; auto. lia.
Qed.
Lemma rest_held w : at_rest w -> held w = [].
Proof.
  intro Rs. assert (A : forall t, In t (k_threads w) -> hand t = []).
  { intros t I. apply In_nth_error in I as [i E]. destruct t; try reflexivity. exfalso.
    pose proof (Rs (KLoop i) Logic.I) as H. cbn in H. rewrite E in H. discriminate. }
  rewrite held_eq. induction (k_threads w) as [|t r IH]; [reflexivity|]. cbn [flat_map].
  rewrite (A t) by (left; reflexivity). apply IH. intros u I. apply A. right. exact I.
Qed.

(** * Bytes are conserved *)
Lemma run_count ls : forall w v, port_run w ls = Some v ->
  (length (held w) + length (k_input w) + length (came ls) = length (handed w ls) + length (held v) + length (k_input v))%nat.
Proof.
  induction ls as [|l ls IH]; intros w v H; cbn [port_run handed] in *; [injection H as <-; cbn; lia|].
  destruct (port_step w l) as [u|] eqn:S; [|discriminate]. specialize (IH _ _ H).
  change (l :: ls) with ([l] ++ ls). rewrite came_app, !app_length.
  assert (M : (length (held w) + length (k_input w) + length (came [l]) = length (handed_by w l) + length (held u) + length (k_input u))%nat)
    by (destruct (step_moves _ _ S); repeat rewrite app_length; cbn [length]; lia).
  lia.
Qed.
Lemma run_stopped n ls v rest w : port_run (new_port n) ls = Some v -> k_active v = false ->
  starts rest = 0%nat -> port_run v rest = Some w -> at_rest w ->
  (in_read v <= length (held v) + length (k_input v) + length (came rest))%nat ->
  live w = 0%nat /\ forall x c, the_call w x = Some c -> c = CNone.
Proof.
  intros R Off St R' Rs L.
  assert (RR : port_run (new_port n) (ls ++ rest) = Some w) by (rewrite port_run_app, R; exact R').
  assert (NR : forall j, ~ waits_for_input w j).
  { intros j (E & _ & _ & I). destruct (run_in_read _ _ R' Off St) as [_ L']. apply run_count in R'.
    rewrite (rest_held Rs), I in R'. cbn [length] in R'.
    assert (1 <= in_read w)%nat.
    { unfold in_read. destruct (nth_cut _ _ E) as (p & q & -> & _). rewrite filter_app, app_length. cbn. lia. }
    lia. }
  split.
  - pose proof (run_orderly _ _ RR) as O.
    assert (A : forall t, In t (k_threads w) -> alive_reader t = false).
    { intros t I. apply In_nth_error in I as [i E].
      destruct (alive_reader t) eqn:Al; [|reflexivity]. exfalso.
      destruct (rest_thread Rs O (length (k_threads w)) i) with (t := t) as [j W]; auto.
      - lia.
      - intros ->. discriminate.
      - intros ->. discriminate.
      - exact (NR j W). }
    unfold live. induction (k_threads w) as [|t r IH]; [reflexivity|]. cbn [filter].
    rewrite (A t) by (left; reflexivity). apply IH. intros u I. apply A. right. exact I.
  - intros x c C. assert (D : c = CNone \/ c <> CNone) by (destruct c; auto; right; discriminate). destruct D as [D|D]; [exact D|].
    exfalso. destruct (rest_waits _ _ _ RR Rs C D) as [k W]. exact (NR k W).
Qed.
