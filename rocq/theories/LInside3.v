(** Several threads in one Parser: calls made one by one, and two that disturb each other. *)
From Coq Require Import ZifyBool ZifyNat.
From Verif Require Import SInside LSerial LInside LInside2.
Set Implicit Arguments.

(** a thread that is outside cannot go on *)
Lemma idle_stuck lib i v k u : nth_error (in_places v) i = Some PIdle -> inside_run lib v (repeat (IGo i) k) = Some u -> k = O /\ u = v.
Proof. destruct k; cbn; [intros _ H; injection H as <-; auto|]. intros ->. discriminate. Qed.
Lemma same_end lib i w a b u v : inside_run lib w (repeat (IGo i) a) = Some u -> inside_run lib w (repeat (IGo i) b) = Some v ->
  nth_error (in_places u) i = Some PIdle -> nth_error (in_places v) i = Some PIdle -> u = v.
Proof.
  intros A B U V. destruct (Nat.le_ge_cases a b) as [L|L].
  - replace b with (a + (b - a))%nat in B by lia. rewrite (@run_more lib i a _ _ _ A) in B. symmetry. eapply idle_stuck; eauto.
  - replace a with (b + (a - b))%nat in A by lia. rewrite (@run_more lib i b _ _ _ B) in A. eapply idle_stuck; eauto.
Qed.
Lemma given_app a b : given (a ++ b) = given a ++ given b.
Proof. apply flat_map_app. Qed.
Lemma given_go i k : given (repeat (IGo i) k) = [].
Proof. induction k; auto. Qed.

Lemma turns lib p n : byte_in p -> forall w ls calls w', one_by_one lib w ls calls w' ->
  forall hist, inside_run lib (inside_of p n) hist = Some w -> Forall is_byte (given hist) -> Forall is_byte (given ls) ->
  parser_now w' = fst (in_turn lib (parser_now w) calls)
  /\ in_results w' = in_results w ++ snd (in_turn lib (parser_now w) calls)
  /\ in_places w' = in_places w.
Proof.
  intro B. induction 1 as [w|w i msg k w1 ls calls w2 R I O IH]; intros hist H Fh Fl.
  - cbn. rewrite app_nil_r. auto.
  - change (ICall i msg :: repeat (IGo i) k ++ ls) with ([ICall i msg] ++ (repeat (IGo i) k ++ ls)) in Fl.
    rewrite !given_app, given_go in Fl. cbn [app] in Fl. apply Forall_app in Fl as [Fm Fl].
    assert (Fm' : Forall is_byte msg) by (cbn in Fm; rewrite app_nil_r in Fm; exact Fm).
    assert (Pi : nth_error (in_places w) i = Some PIdle).
    { cbn [inside_run inside_step] in R. destruct (nth_error (in_places w) i) as [[| | |]|]; congruence. }
    destruct (@inside_alone lib p n hist w i msg B Fh H Pi Fm') as (k' & w1' & R' & Q1 & Q2 & Q3).
    assert (w1' = w1).
    { cbn [inside_run] in R, R'. destruct (inside_step lib w (ICall i msg)) as [u|]; [|discriminate].
      eapply same_end; [exact R' | exact R | rewrite Q3; exact Pi | exact I]. }
    subst w1'. cbn [in_turn].
    assert (H1 : inside_run lib (inside_of p n) (hist ++ ICall i msg :: repeat (IGo i) k) = Some w1) by (rewrite run_app, H; exact R).
    destruct (IH _ H1) as (I1 & I2 & I3); [|exact Fl|].
    { rewrite given_app. apply Forall_app. split; [exact Fh|].
      change (ICall i msg :: repeat (IGo i) k) with ([ICall i msg] ++ repeat (IGo i) k). rewrite given_app, given_go, app_nil_r. exact Fm. }
    destruct (sparse lib (parser_now w) msg) as [q x]. cbn [fst snd] in Q1, Q2. rewrite Q1 in I1, I2.
    destruct (in_turn lib q calls) as [q2 xs]. cbn [fst snd] in *. rewrite I2, Q2, <- app_assoc. cbn [app].
    split; [exact I1|]. split; [reflexivity|]. congruence.
Qed.
Lemma parser_start p n : parser_now (inside_of p n) = p.
Proof. destruct p; reflexivity. Qed.
Lemma inside_turns : forall lib p n ls calls w, byte_in p -> Forall is_byte (given ls) ->
  one_by_one lib (inside_of p n) ls calls w ->
  parser_now w = fst (in_turn lib p calls) /\ in_results w = snd (in_turn lib p calls) /\ nobody_inside w.
Proof.
  intros lib p n ls calls w B F O. destruct (@turns lib p n B _ _ _ _ O [] eq_refl (Forall_nil _) F) as (A1 & A2 & A3).
  rewrite parser_start in *. split; [exact A1|]. split; [exact A2|].
  unfold nobody_inside. rewrite A3. apply Forall_forall. intros x X. apply repeat_spec in X. exact X.
Qed.
(** and any calls can be made so *)
Lemma turns_exist lib p n : byte_in p -> forall calls hist w, Forall (fun x => (fst x < n)%nat /\ Forall is_byte (snd x)) calls ->
  inside_run lib (inside_of p n) hist = Some w -> Forall is_byte (given hist) -> in_places w = repeat PIdle n ->
  exists ls w', one_by_one lib w ls calls w' /\ given ls = flat_map snd calls.
Proof.
  intro B. induction calls as [|[i msg] calls IH]; intros hist w F R Fh P.
  - exists [], w. split; [constructor | reflexivity].
  - inversion F as [|? ? [Li Fm] F']; subst. cbn [fst snd] in *.
    assert (Pi : nth_error (in_places w) i = Some PIdle) by (rewrite P; apply nth_error_repeat; exact Li).
    destruct (@inside_alone lib p n hist w i msg B Fh R Pi Fm) as (k & w1 & R1 & _ & _ & Q3).
    destruct (IH (hist ++ ICall i msg :: repeat (IGo i) k) w1 F') as (ls & w' & O & G).
    + rewrite run_app, R. exact R1.
    + rewrite given_app. apply Forall_app. split; [exact Fh|].
      change (ICall i msg :: repeat (IGo i) k) with ([ICall i msg] ++ repeat (IGo i) k). rewrite given_app, given_go, app_nil_r. cbn. rewrite app_nil_r. exact Fm.
    + congruence.
    + exists (ICall i msg :: repeat (IGo i) k ++ ls), w'. split.
      * econstructor; [exact R1 | rewrite Q3; exact Pi | exact O].
      * change (ICall i msg :: repeat (IGo i) k ++ ls) with ([ICall i msg] ++ (repeat (IGo i) k ++ ls)).
        rewrite !given_app, given_go, G. cbn. rewrite app_nil_r. reflexivity.
Qed.
Lemma inside_turns_exist : forall lib p n calls, byte_in p -> Forall (fun x => (fst x < n)%nat /\ Forall is_byte (snd x)) calls ->
  exists ls w, one_by_one lib (inside_of p n) ls calls w /\ given ls = flat_map snd calls.
Proof. intros lib p n calls B F. apply (@turns_exist lib p n B calls [] _ F eq_refl (Forall_nil _) eq_refl). Qed.

(** two schedules *)
Definition by_bytes (l : list Z) : list InLabel := flat_map (fun b => ICall 0 [b] :: repeat (IGo 0) 10) l.
Definition both_see : list InLabel :=
  by_bytes [192; 0; 1; 4; 1; 185; 21] ++ [ICall 0 [65]; IGo 0; IGo 0; ICall 1 [192]; IGo 1; IGo 1] ++ repeat (IGo 0) 7 ++ repeat (IGo 1) 7
  ++ repeat (IGo 0) 12 ++ repeat (IGo 1) 12.
Definition old_bytes : list InLabel :=
  [ICall 0 (frame 1 4 [65])] ++ repeat (IGo 0) 10 ++ [ICall 1 (frame 2 4 [66]); IGo 1; IGo 1] ++ repeat (IGo 0) 7 ++ repeat (IGo 1) 4.
Lemma inside_twice : forall lib, exists ls w, inside_run lib (inside_of (new_parser true) 2) ls = Some w /\ bytewise ls
  /\ given ls = frame 1 4 [65] ++ [192] /\ nobody_inside w /\ returned w = [(4, MRaw [65]); (4, MRaw [65])].
Proof.
  intros [|]; exists both_see; eexists; (split; [vm_compute; reflexivity|]); (split; [vm_compute; repeat constructor|]);
  (split; [vm_compute; reflexivity|]); (split; [repeat constructor | vm_compute; reflexivity]).
Qed.
Lemma inside_lost : forall lib, exists ls w, inside_run lib (inside_of (new_parser true) 2) ls = Some w
  /\ given ls = frame 1 4 [65] ++ frame 2 4 [66] /\ nobody_inside w /\ returned w = [(4, MRaw [65])]
  /\ sp_buf (parser_now w) = [] /\ Forall (fun x => match snd x with Ok r => pr_errors r = [] | Err _ => False end) (in_results w).
Proof.
  intros [|]; exists old_bytes; eexists; (split; [vm_compute; reflexivity|]); (split; [vm_compute; reflexivity|]);
  (split; [repeat constructor|]); (split; [vm_compute; reflexivity|]); (split; [vm_compute; reflexivity | repeat constructor]).
Qed.
