(** C102: the readers and their Parser together. *)
From Coq Require Import Lia.
From Verif Require Import LInside LInside2 LInside3 LInside5.
From Verif Require Import SStation MReaders LReaders LReaders2 LReaders4.
Set Implicit Arguments.
Close Scope Z_scope.

Lemma station_app lib a b : forall s, station_run lib s (a ++ b) =
  match station_run lib s a with Some v => station_run lib v b | None => None end.
Proof. induction a as [|x a IH]; intro s; [reflexivity|]. cbn [app station_run]. destruct (station_step lib s x); [apply IH | reflexivity]. Qed.
Lemma station_snoc lib s ls x v : station_run lib s (ls ++ [x]) = Some v ->
  exists u, station_run lib s ls = Some u /\ station_step lib u x = Some v.
Proof.
  rewrite station_app. destruct (station_run lib s ls) as [u|]; [|discriminate]. cbn [station_run].
  intro H. exists u. split; [reflexivity|]. destruct (station_step lib u x); exact H.
Qed.
Lemma port_labels_app a b : port_labels (a ++ b) = port_labels a ++ port_labels b.
Proof. apply flat_map_app. Qed.

Lemma handed_calls w l : handed_by w l = match calls w l with Some (_, b) => [b] | None => [] end.
Proof. destruct l as [?|i|?|?|?|?|?]; try reflexivity. cbn [handed_by calls]. destruct (nth_error (k_threads w) i) as [[]|]; reflexivity. Qed.

(** the two parts *)
Lemma step_parts lib s x s' : station_step lib s x = Some s' ->
  port_run (st_port s) (port_labels [x]) = Some (st_port s')
  /\ inside_run lib (st_in s) (parser_labels (st_port s) [x]) = Some (st_in s').
Proof.
  destruct s as [w v]. destruct x as [l|i]; cbn [station_step st_port st_in port_labels flat_map app parser_labels port_run].
  - destruct (may v l); [|discriminate]. destruct (port_step w l) as [w'|] eqn:E; [|discriminate].
    destruct (calls w l) as [[i b]|].
    + destruct (inside_step lib v (ICall i [b])) as [v'|] eqn:F; [|discriminate]. intro H. injection H as <-.
      cbn [st_port st_in app inside_run]. rewrite F. auto.
    + intro H. injection H as <-. auto.
  - destruct (inside_step lib v (IGo i)) as [v'|] eqn:F; [|discriminate]. intro H. injection H as <-.
    cbn [st_port st_in inside_run]. rewrite F. auto.
Qed.
Lemma run_parts lib : forall ls s s', station_run lib s ls = Some s' ->
  port_run (st_port s) (port_labels ls) = Some (st_port s')
  /\ inside_run lib (st_in s) (parser_labels (st_port s) ls) = Some (st_in s')
  /\ given (parser_labels (st_port s) ls) = handed (st_port s) (port_labels ls).
Proof.
  induction ls as [|x ls IH]; intros s s' R; cbn [station_run] in R.
  - injection R as <-. auto.
  - destruct (station_step lib s x) as [s1|] eqn:S; [|discriminate]. apply step_parts in S as [A B].
    specialize (IH _ _ R) as (C & D & E).
    change (x :: ls) with ([x] ++ ls). rewrite port_labels_app, port_run_app, A.
    destruct x as [l|i].
    + cbn [port_labels flat_map app port_run] in A. cbn [app parser_labels port_labels flat_map]. cbn [handed].
      cbn [parser_labels] in B. destruct (port_step (st_port s) l) as [w'|]; [|discriminate]. injection A as ->.
      rewrite app_nil_r in B. rewrite run_app, B, given_app. split; [exact C|]. split; [exact D|].
      rewrite <- E, handed_calls. fold (port_labels ls). f_equal. destruct (calls (st_port s) l) as [[i b]|]; reflexivity.
    + cbn [port_labels flat_map app port_run] in A. injection A as A. cbn [app parser_labels port_labels flat_map]. fold (port_labels ls).
      cbn [parser_labels inside_run] in *. destruct (inside_step lib (st_in s) (IGo i)) as [v|]; [|discriminate].
      injection B as ->. rewrite A. split; [exact C|]. split; [exact D|]. exact E.
Qed.

(** * A reader inside [parse] *)
Lemma nth_set_reader w i t j : nth_error (k_threads (set_reader i t w)) j =
  if Nat.eqb i j then match nth_error (k_threads w) j with Some _ => Some t | None => None end else nth_error (k_threads w) j.
Proof. destruct w as [a0 a1 a2 a3 a4 a5 a6]. cbn [set_reader k_threads]. apply nth_set. Qed.
Lemma nth_set_call w x d j : x <> Reader j -> nth_error (k_threads (set_call x d w)) j = nth_error (k_threads w) j.
Proof.
  destruct w as [a0 a1 a2 a3 a4 a5 a6], x as [i|i]; cbn [set_call k_threads]; intro N; [reflexivity|]. rewrite nth_set.
  destruct (Nat.eqb_spec i j); [congruence | reflexivity].
Qed.
Lemma busy_stays w l v i c : port_step w l = Some v -> nth_error (k_threads w) i = Some (KBusy c) -> acting l <> Some i ->
  nth_error (k_threads v) i = Some (KBusy c).
Proof.
  assert (R : forall u k t, k <> i -> nth_error (k_threads u) i = Some (KBusy c) -> nth_error (k_threads (set_reader k t u)) i = Some (KBusy c)).
  { intros u k t N E. rewrite nth_set_reader. destruct (Nat.eqb_spec k i); [congruence | exact E]. }
  assert (C : forall u x d, x <> Reader i -> nth_error (k_threads u) i = Some (KBusy c) -> nth_error (k_threads (set_call x d u)) i = Some (KBusy c)).
  { intros u x d N E. rewrite nth_set_call by exact N. exact E. }
  intros H B N. destruct l as [b|k|k ok|k|x|x|x]; cbn [port_step acting] in *.
  - destruct (k_open w); [|discriminate]. injection H as <-. destruct w; exact B.
  - assert (Nk : k <> i) by congruence. destruct (nth_error (k_threads w) k) as [t|]; [|discriminate]. destruct t; try discriminate.
    + injection H as <-. apply R; assumption.
    + destruct (negb (k_open w)); [injection H as <-; apply R; assumption|].
      destruct (k_cancelled w); [|destruct (k_input w); [discriminate|]]; injection H as <-; apply R; (assumption || (destruct w; exact B)).
    + injection H as <-. apply R; assumption.
  - assert (Nk : k <> i) by congruence. destruct (nth_error (k_threads w) k) as [t|]; [|discriminate]. destruct t as [| | | |[]|]; try discriminate.
    injection H as <-. apply R; assumption.
  - assert (Nk : k <> i) by congruence. destruct (nth_error (k_threads w) k) as [t|]; [|discriminate]. destruct t; try discriminate.
    destruct (k_open w); [|discriminate]. injection H as <-. apply R; [assumption | destruct w; exact B].
  - assert (Nx : x <> Reader i) by (destruct x; congruence).
    destruct (the_call w x) as [[]|]; try discriminate. injection H as <-. apply C; [exact Nx | destruct w; exact B].
  - assert (Nx : x <> Reader i) by (destruct x; congruence).
    destruct (the_call w x) as [[]|]; try discriminate. injection H as <-. apply C; [exact Nx | destruct w; exact B].
  - assert (Nx : x <> Reader i) by (destruct x; congruence).
    destruct (the_call w x) as [[]|]; try discriminate.
    + injection H as <-. apply C; [exact Nx | destruct w; exact B].
    + injection H as <-. apply C; assumption.
    + assert (K : forall d, Some (set_call x d w) = Some v -> nth_error (k_threads v) i = Some (KBusy c))
        by (intros d Hd; injection Hd as <-; apply C; assumption).
      destruct (nth_error (k_threads w) j) as [[]|]; try (eapply K; exact H);
        (destruct x; [discriminate|]; destruct (Nat.eqb _ _); [eapply K; exact H | discriminate]).
    + injection H as <-. apply C; [exact Nx|]. destruct w as [a0 a1 a2 a3 a4 a5 a6]. cbn [create k_threads] in *. rewrite nth_error_app1; [exact B|].
      apply nth_error_Some. rewrite B. discriminate.
    + injection H as <-. apply C; [exact Nx|]. destruct (nth_error (k_threads w) (k_last w)) as [[]|] eqn:L; try exact B.
      apply R; [|exact B]. intros E. rewrite E in L. congruence.
Qed.

(** who is inside [parse] is a reader with a byte handed over *)
Definition matched (s : Station) : Prop := forall i x, nth_error (in_places (st_in s)) i = Some x -> x <> PIdle ->
  nth_error (k_threads (st_port s)) i = Some (KBusy CNone).
Lemma call_places lib v i msg v' : inside_step lib v (ICall i msg) = Some v' -> nth_error (in_places v) i = Some PIdle
  /\ v' = put_place i (PLoad (UExtend msg) no_locals) v.
Proof.
  cbn [inside_step]. destruct (nth_error (in_places v) i) as [[]|]; try discriminate. intro H. injection H as <-. auto.
Qed.
Lemma places_put i x v : in_places (put_place i x v) = put i x (in_places v).
Proof. destruct v; reflexivity. Qed.
Lemma step_matched lib s x s' : station_step lib s x = Some s' -> matched s -> matched s'.
Proof.
  destruct s as [w v]. intros S M. destruct x as [l|i]; cbn [station_step] in S.
  - destruct (may v l) eqn:Y; [|discriminate]. destruct (port_step w l) as [w'|] eqn:P; [|discriminate].
    assert (Q : forall i x, nth_error (in_places v) i = Some x -> x <> PIdle -> nth_error (k_threads w') i = Some (KBusy CNone)).
    { intros i x E N. pose proof (M i x E N) as B. cbn [st_port] in B. eapply busy_stays; [exact P | exact B|].
      intro A. unfold may in Y. rewrite A, E in Y. destruct x; congruence. }
    destruct (calls w l) as [[i b]|] eqn:C.
    + destruct (inside_step lib v (ICall i [b])) as [v'|] eqn:I; [|discriminate]. injection S as <-.
      apply call_places in I as [Ei ->]. intros j x E N. cbn [st_port st_in] in *. rewrite places_put, put_nth in E.
      destruct (Nat.eqb_spec i j) as [<-|Nj]; [|eapply Q; eassumption].
      destruct l as [?|k|?|?|?|?|?]; try discriminate. cbn [calls] in C. cbn [port_step] in P.
      destruct (nth_error (k_threads w) k) as [[]|] eqn:T; try discriminate. injection C as <- <-. injection P as <-.
      rewrite nth_set_reader, Nat.eqb_refl, T. reflexivity.
    + injection S as <-. exact Q.
  - destruct (inside_step lib v (IGo i)) as [v'|] eqn:I; [|discriminate]. injection S as <-.
    intros j x E N. cbn [st_port st_in] in *. destruct (Nat.eq_dec j i) as [->|Nj].
    + destruct (nth_error (in_places v) i) as [y|] eqn:Ey; [|cbn [inside_step] in I; rewrite Ey in I; discriminate].
      apply (M i y Ey). cbn [inside_step] in I. rewrite Ey in I. intros ->. discriminate.
    + rewrite (@others_step lib i v v' I j Nj) in E. apply (M j x E N).
Qed.
Lemma idle_start p m i x : nth_error (in_places (inside_of p m)) i = Some x -> x = PIdle.
Proof. cbn [inside_of in_places]. intro E. apply nth_error_In in E. apply repeat_spec in E. exact E. Qed.
Lemma run_matched lib p n m ls : forall s, station_run lib (station_of p n m) ls = Some s -> matched s.
Proof.
  induction ls as [|x ls IH] using rev_ind; intros s R.
  - injection R as <-. intros i x E N. exfalso. apply N. eapply idle_start. exact E.
  - apply station_snoc in R as (u & R & S). eapply step_matched; eauto.
Qed.
