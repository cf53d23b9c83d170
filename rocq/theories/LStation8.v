(** C102: a reader whose call raised. *)
From Coq Require Import Lia.
From Verif Require Import LInside LInside2 LInside3 LInside5.
From Verif Require Import SStation MReaders LReaders LStation.
Set Implicit Arguments.
Close Scope Z_scope.

Lemma result_or lib v i v' : inside_step lib v (IGo i) = Some v' ->
  in_results v' = in_results v \/ exists r, in_results v' = in_results v ++ [(i, r)] /\ in_places v' = put i PIdle (in_places v).
Proof.
  assert (P : forall i y w, in_results (put_place i y w) = in_results w) by (intros j y [? ? ? ? ? ? ? ?]; reflexivity).
  assert (B : forall r b w, in_results (put_bytes r b w) = in_results w) by (intros j y [? ? ? ? ? ? ? ?]; reflexivity).
  assert (N : forall b w, in_results (new_bytes b w) = in_results w) by (intros j [? ? ? ? ? ? ? ?]; reflexivity).
  assert (C : forall k w, in_results (count k w) = in_results w /\ in_places (count k w) = in_places w) by (intros k [? ? ? ? ? ? ? ?]; split; reflexivity).
  assert (D : forall r w, in_results (finish i r w) = in_results w ++ [(i, r)] /\ in_places (finish i r w) = put i PIdle (in_places w))
    by (intros r [? ? ? ? ? ? ? ?]; split; reflexivity).
  assert (H : forall e l w, in_results (handle lib i e l w) = in_results w
    \/ exists r, in_results (handle lib i e l w) = in_results w ++ [(i, r)] /\ in_places (handle lib i e l w) = put i PIdle (in_places w)).
  { intros e l w. unfold handle. destruct (is_read_error lib e); [left; apply P|]. destruct (no_args e); [right; eexists; apply D | left; apply P]. }
  assert (U : forall u r b l w, in_results (use lib i u r b l w) = in_results w
    \/ exists x, in_results (use lib i u r b l w) = in_results w ++ [(i, x)] /\ in_places (use lib i u r b l w) = put i PIdle (in_places w)).
  { intros u r b l w. destruct u as [msg| | |s|t m n|e|e|e k|e|[[[t m] n]|]]; cbn [use];
      try (left; rewrite ?P, ?B; reflexivity).
    - destruct (header_fields (zlen b) (stream_of s)) as [[[[[[[counter t] len] c1] c2] payload] s']|e]; [|apply H].
      destruct (calculate_crc payload) as [h o].
      match goal with |- context[match ?x with Ok _ => _ | Err _ => _ end] => destruct x as [[m n]|e] end.
      + left. rewrite P. apply C.
      + destruct (H e l (count counter w)) as [M|(x & M1 & M2)]; [left; rewrite M; apply C | right; exists x].
        destruct (C counter w) as [C1 C2]. rewrite C1 in M1. rewrite C2 in M2. auto.
    - destruct b; left; rewrite ?P, ?B; reflexivity.
    - right. eexists. apply D. }
  cbn [inside_step]. intro S. destruct (nth_error (in_places v) i) as [y|]; [|discriminate].
  destruct y as [|u l|u r l|b [t m' k|e] l]; try discriminate.
  - injection S as <-. left. apply P.
  - destruct (nth_error (in_store v) r); [|discriminate]. injection S as <-. apply U.
  - injection S as <-. left. rewrite P. apply N.
  - injection S as <-. left. rewrite P. apply N.
Qed.

Lemma raised_snoc v v' i r : in_results v' = in_results v ++ [r] -> raised v' i = if Nat.eqb (fst r) i then match snd r with Err _ => true | _ => false end else raised v i.
Proof. intro E. unfold raised. rewrite E, fold_left_app. cbn [fold_left]. destruct (Nat.eqb (fst r) i); reflexivity. Qed.
Lemma raised_same v v' i : in_results v' = in_results v -> raised v' i = raised v i.
Proof. intro E. unfold raised. rewrite E. reflexivity. Qed.

Lemma ended_stays w l v i : port_step w l = Some v -> nth_error (k_threads w) i = Some KEnded -> nth_error (k_threads v) i = Some KEnded.
Proof.
  assert (R : forall u k t, k <> i -> nth_error (k_threads u) i = Some KEnded -> nth_error (k_threads (set_reader k t u)) i = Some KEnded).
  { intros u k t N E. rewrite nth_set_reader. destruct (Nat.eqb_spec k i); [congruence | exact E]. }
  assert (C : forall u x d, x <> Reader i -> nth_error (k_threads u) i = Some KEnded -> nth_error (k_threads (set_call x d u)) i = Some KEnded).
  { intros u x d N E. rewrite nth_set_call by exact N. exact E. }
  intros H B. destruct l as [b|k|k ok|k|x|x|x]; cbn [port_step] in *.
  - destruct (k_open w); [|discriminate]. injection H as <-. destruct w; exact B.
  - destruct (Nat.eq_dec k i) as [->|Nk]; [rewrite B in H; discriminate|].
    destruct (nth_error (k_threads w) k) as [t|]; [|discriminate]. destruct t; try discriminate.
    + injection H as <-. apply R; assumption.
    + destruct (negb (k_open w)); [injection H as <-; apply R; assumption|].
      destruct (k_cancelled w); [|destruct (k_input w); [discriminate|]]; injection H as <-; apply R; (assumption || (destruct w; exact B)).
    + injection H as <-. apply R; assumption.
  - destruct (Nat.eq_dec k i) as [->|Nk]; [rewrite B in H; discriminate|].
    destruct (nth_error (k_threads w) k) as [t|]; [|discriminate]. destruct t as [| | | |[]|]; try discriminate.
    injection H as <-. apply R; assumption.
  - destruct (Nat.eq_dec k i) as [->|Nk]; [rewrite B in H; discriminate|].
    destruct (nth_error (k_threads w) k) as [t|]; [|discriminate]. destruct t; try discriminate.
    destruct (k_open w); [|discriminate]. injection H as <-. apply R; [assumption | destruct w; exact B].
  - assert (Nx : x <> Reader i) by (intros ->; cbn [the_call] in H; rewrite B in H; discriminate).
    destruct (the_call w x) as [[]|]; try discriminate. injection H as <-. apply C; [exact Nx | destruct w; exact B].
  - assert (Nx : x <> Reader i) by (intros ->; cbn [the_call] in H; rewrite B in H; discriminate).
    destruct (the_call w x) as [[]|]; try discriminate. injection H as <-. apply C; [exact Nx | destruct w; exact B].
  - assert (Nx : x <> Reader i) by (intros ->; cbn [the_call] in H; rewrite B in H; discriminate).
    destruct (the_call w x) as [[]|]; try discriminate.
    + injection H as <-. apply C; [exact Nx | destruct w; exact B].
    + injection H as <-. apply C; assumption.
    + assert (K : forall d, Some (set_call x d w) = Some v -> nth_error (k_threads v) i = Some KEnded)
        by (intros d Hd; injection Hd as <-; apply C; assumption).
      destruct (nth_error (k_threads w) j) as [[]|]; try (eapply K; exact H);
        (destruct x; [discriminate|]; destruct (Nat.eqb _ _); [eapply K; exact H | discriminate]).
    + injection H as <-. apply C; [exact Nx|]. destruct w as [a0 a1 a2 a3 a4 a5 a6]. cbn [create k_threads] in *. rewrite nth_error_app1; [exact B|].
      apply nth_error_Some. rewrite B. discriminate.
    + injection H as <-. apply C; [exact Nx|]. destruct (nth_error (k_threads w) (k_last w)) as [[]|] eqn:L; try exact B.
      apply R; [|exact B]. intros E. rewrite E in L. congruence.
Qed.

(** a reader whose last call raised is about to end *)
Definition ends_now (s : Station) (i : nat) : Prop :=
  (forall x, nth_error (in_places (st_in s)) i = Some x -> x = PIdle)
  /\ (nth_error (k_threads (st_port s)) i = Some (KBusy CNone) \/ nth_error (k_threads (st_port s)) i = Some KEnded).
Definition fallen (s : Station) : Prop := forall i, raised (st_in s) i = true -> ends_now s i.
Lemma step_results lib s x s' i : matched s -> fallen s -> station_step lib s x = Some s' -> raised (st_in s) i = true ->
  results_of i s' = results_of i s /\ raised (st_in s') i = true /\ ends_now s' i.
Proof.
  destruct s as [w v]. intros M F S Ri. destruct (F i Ri) as [Id Th]. cbn [st_in st_port] in *.
  destruct x as [l|k]; cbn [station_step] in S.
  - destruct (may v l) eqn:Y; [|discriminate]. destruct (port_step w l) as [w'|] eqn:P; [|discriminate].
    assert (Q : nth_error (k_threads w') i = Some (KBusy CNone) \/ nth_error (k_threads w') i = Some KEnded).
    { destruct Th as [Th|Th]; [|right; eapply ended_stays; eassumption].
      destruct (acting l) as [j|] eqn:A; [|left; eapply busy_stays; [exact P | exact Th | congruence]].
      destruct (Nat.eq_dec j i) as [->|Nj]; [|left; eapply busy_stays; [exact P | exact Th | congruence]].
      unfold may in Y. rewrite A in Y. destruct (nth_error (in_places v) i) as [y|] eqn:E; [|discriminate]. rewrite (Id y eq_refl) in Y. rewrite Ri in Y.
      destruct l as [b|j|j ok|j|[j|j]|[j|j]|[j|j]]; cbn [acting] in A; try discriminate; injection A as ->; cbn [port_step the_call] in P; rewrite Th in P; try discriminate.
      destruct ok; [discriminate|]. injection P as <-. right. rewrite nth_set_reader, Nat.eqb_refl, Th. reflexivity. }
    destruct (calls w l) as [[j b]|] eqn:C.
    + destruct (inside_step lib v (ICall j [b])) as [v'|] eqn:I; [|discriminate]. injection S as <-.
      apply call_places in I as [Ej ->].
      assert (Rs : in_results (put_place j (PLoad (UExtend [b]) no_locals) v) = in_results v) by (destruct v; reflexivity).
      unfold results_of, ends_now. cbn [st_in st_port]. rewrite Rs. split; [reflexivity|]. rewrite (@raised_same _ _ _ Rs). split; [exact Ri|].
      split; [|exact Q]. intros x E. rewrite places_put, put_nth in E. destruct (Nat.eqb_spec j i) as [->|Nj]; [|apply Id; exact E].
      exfalso. destruct l as [?|k|?|?|?|?|?]; try discriminate. cbn [calls] in C.
      destruct (nth_error (k_threads w) k) as [[]|] eqn:T; try discriminate. injection C as -> <-. destruct Th; congruence.
    + injection S as <-. unfold results_of, ends_now. cbn [st_in st_port]. auto.
  - destruct (inside_step lib v (IGo k)) as [v'|] eqn:I; [|discriminate]. injection S as <-.
    assert (Nk : k <> i).
    { intros ->. cbn [inside_step] in I. destruct (nth_error (in_places v) i) as [y|] eqn:E; [|discriminate]. rewrite (Id y eq_refl) in I. discriminate. }
    unfold results_of, ends_now. cbn [st_in st_port]. rewrite (@others_step lib k v v' I i) by congruence.
    destruct (@result_or _ _ _ _ I) as [E|(r & E & _)].
    + rewrite E, (@raised_same _ _ _ E). auto.
    + rewrite (@raised_snoc _ _ _ _ E). cbn [fst]. destruct (Nat.eqb_spec k i) as [X|_]; [contradiction|].
      rewrite E, filter_app. cbn [filter fst]. destruct (Nat.eqb_spec k i) as [X|_]; [contradiction|]. rewrite app_nil_r. auto.
Qed.
Lemma step_fallen lib s x s' : matched s -> fallen s -> station_step lib s x = Some s' -> fallen s'.
Proof.
  intros M F S i Ri. destruct (raised (st_in s) i) eqn:R0; [apply (@step_results lib s x s' i M F S R0)|].
  destruct s as [w v]. cbn [st_in] in *. destruct x as [l|k]; cbn [station_step] in S.
  - exfalso. destruct (may v l); [|discriminate]. destruct (port_step w l); [|discriminate]. destruct (calls w l) as [[j b]|].
    + destruct (inside_step lib v (ICall j [b])) as [v'|] eqn:I; [|discriminate]. injection S as <-. apply call_places in I as [_ ->].
      cbn [st_in] in Ri. rewrite (@raised_same v) in Ri; [congruence | destruct v; reflexivity].
    + injection S as <-. cbn [st_in] in Ri. congruence.
  - destruct (inside_step lib v (IGo k)) as [v'|] eqn:I; [|discriminate]. injection S as <-. cbn [st_in] in Ri.
    destruct (@result_or _ _ _ _ I) as [E|(r & E & Pl)]; [rewrite (@raised_same _ _ _ E) in Ri; congruence|].
    rewrite (@raised_snoc _ _ _ _ E) in Ri. cbn [fst snd] in Ri. destruct (Nat.eqb_spec k i) as [->|_]; [|congruence].
    unfold ends_now. cbn [st_in st_port]. split.
    + intros x Ex. rewrite Pl, put_nth, Nat.eqb_refl in Ex. destruct (nth_error (in_places v) i); congruence.
    + left. cbn [inside_step] in I. destruct (nth_error (in_places v) i) as [y|] eqn:Ey; [|discriminate].
      apply (M i y Ey). intros ->. discriminate.
Qed.
Lemma run_fallen lib p n m ls : forall s, station_run lib (station_of p n m) ls = Some s -> fallen s.
Proof.
  induction ls as [|x ls IH] using rev_ind; intros s R.
  - injection R as <-. intros i E. discriminate.
  - pose proof R as R'. apply station_snoc in R as (u & R & S). eapply step_fallen; [eapply run_matched; exact R | apply IH; exact R | exact S].
Qed.
Lemma last_raised s i before e : results_of i s = before ++ [Err e] -> raised (st_in s) i = true.
Proof.
  unfold results_of, raised. generalize (in_results (st_in s)) as rs. intros rs.
  rewrite <- (rev_involutive rs). generalize (rev rs) as l. intro l. revert before. induction l as [|[k r] l IH]; intros before H.
  - destruct before; discriminate.
  - cbn [rev] in *. rewrite filter_app, map_app in H. rewrite fold_left_app. cbn [fold_left filter fst snd] in *.
    destruct (Nat.eqb k i).
    + cbn [map snd] in H. apply app_inj_tail in H as [_ ->]. reflexivity.
    + cbn [map] in H. rewrite app_nil_r in H. eapply IH. exact H.
Qed.
Lemma raise_ends lib p n m ls s more v i before e : station_run lib (station_of p n m) ls = Some s ->
  results_of i s = before ++ [Err e] -> station_run lib s more = Some v ->
  results_of i v = results_of i s
  /\ (forall x, nth_error (in_places (st_in v)) i = Some x -> x = PIdle)
  /\ (nth_error (k_threads (st_port v)) i = Some (KBusy CNone) \/ nth_error (k_threads (st_port v)) i = Some KEnded).
Proof.
  intros R E Rm. apply last_raised in E. pose proof (@run_matched _ _ _ _ _ _ R) as M. pose proof (@run_fallen _ _ _ _ _ _ R) as F. clear R.
  revert s M F E Rm. induction more as [|x more IH]; intros s M F E Rm.
  - injection Rm as <-. split; [reflexivity | apply F; exact E].
  - cbn [station_run] in Rm. destruct (station_step lib s x) as [s1|] eqn:S; [|discriminate].
    destruct (@step_results _ _ _ _ _ M F S E) as (A & B & _). rewrite <- A.
    apply IH; [eapply step_matched; eassumption | eapply step_fallen; eassumption | exact B | exact Rm].
Qed.
