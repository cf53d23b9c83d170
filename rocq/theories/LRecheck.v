(** C51: a frame whose message is not complete is checked again by every call
    of [parse], and every check after the first counts as a discontinuity. *)
From Coq Require Import ZifyBool ZifyNat.
From Verif Require Import SSerial SRecheck LSerialProps LTraffic LLink.
Ltac Zify.zify_post_hook ::= Z.div_mod_to_equations.

Lemma frame_nonempty c t payload r : frame c t payload ++ r <> [].
Proof. unfold frame. destruct (calculate_crc payload). discriminate. Qed.

Section Recheck.
  Variables (c t : Z) (payload rest : list Z) (m : Msg) (skip : bool).
  Hypothesis Bc : is_byte c.
  Hypothesis Bt : is_byte t.
  Hypothesis P : is_payload payload.
  Hypothesis F : Forall is_byte rest.
  Hypothesis C : carries skip t payload rest m (length (payload ++ rest)).

  Lemma whole_bytes : Forall is_byte (payload ++ rest).
  Proof. apply Forall_app. split; [apply P | exact F]. Qed.
  Lemma prefix_bytes r x : r ++ x = rest -> Forall is_byte r /\ Forall is_byte x.
  Proof. intros <-. apply Forall_app. exact F. Qed.

  Lemma prefix_waits r x : r ++ x = rest -> x <> [] -> exists e, body_res skip t payload r = Err e /\ is_eof e = true.
  Proof.
    intros E N. destruct (prefix_bytes r x E) as [Fr Fx].
    pose proof (carries_body _ _ _ _ _ _ whole_bytes C) as K.
    assert (Fp : Forall is_byte (payload ++ r)) by (apply Forall_app; split; [apply P | exact Fr]).
    pose proof (body_spec skip t payload r Fp) as S.
    destruct (body_res skip t payload r) as [[[t' m'] n]|e] eqn:B.
    - destruct S as [-> (k & -> & _ & L & X)]. specialize (X x Fx). rewrite E, K in X. injection X as _ X.
      exfalso. rewrite <- E, !app_length in X. rewrite app_length in L. destruct x; [congruence|]. cbn [length] in X. lia.
    - exists e. split; [reflexivity|]. destruct S as (_ & X & _). destruct (is_eof e) eqn:Ee; [reflexivity|].
      specialize (X eq_refl x Fx). rewrite E, K in X. discriminate.
  Qed.

  Lemma step_wait lib p a r x : lib = true \/ ~ bit_missing skip t payload r -> byte_in p -> sp_skip p = skip -> sp_buf p ++ a = frame c t payload ++ r -> r ++ x = rest -> x <> [] ->
    exists res, sparse lib p a = (set_buf (bump p c) (frame c t payload ++ r), Ok res) /\ pr_msgs res = [] /\ pr_errors res = [].
  Proof.
    intros HL Bp S E R N. destruct (prefix_waits r x R N) as (e & B & Ee). destruct (prefix_bytes r x R) as [Fr Fx].
    assert (Er : is_read_error lib e = true).
    { destruct e; try discriminate Ee; [reflexivity|]. destruct HL as [->|HL]; [reflexivity|]. exfalso. apply HL.
      assert (Fp : Forall is_byte (payload ++ r)) by (apply Forall_app; split; [apply P | exact Fr]).
      pose proof (body_spec skip t payload r Fp) as X. rewrite B in X. apply X. right. reflexivity. }
    assert (Fa : Forall is_byte a).
    { assert (G : Forall is_byte (sp_buf p ++ a)) by (rewrite E; apply Forall_app; split; [apply frame_bytes; assumption | exact Fr]).
      apply Forall_app in G. tauto. }
    assert (W : runs lib (sp_skip p) (sp_buf p ++ a) [] [] (olist (Some c)) 0 false (frame c t payload ++ r)).
    { rewrite S, E. eapply (runs_wait lib skip _ (Some c) e).
      - apply frame_nonempty.
      - rewrite attempt_frame by (assumption || apply calc_bytes). rewrite B. reflexivity.
      - exact Er. }
    rewrite (sparse_runs _ _ _ _ _ _ _ _ _ Bp Fa W). eexists. split; [reflexivity|]. auto.
  Qed.

  Lemma step_done lib p a : byte_in p -> sp_skip p = skip -> sp_buf p ++ a = frame c t payload ++ rest ->
    exists res, sparse lib p a = (set_buf (bump p c) [], Ok res) /\ pr_msgs res = [(t, m)] /\ pr_errors res = [].
  Proof.
    intros Bp S E.
    assert (Fa : Forall is_byte a).
    { assert (G : Forall is_byte (sp_buf p ++ a)) by (rewrite E; apply Forall_app; split; [apply frame_bytes; assumption | exact F]).
      apply Forall_app in G. tauto. }
    assert (W : runs lib (sp_skip p) (sp_buf p ++ a) [(t, m)] [] (olist (Some c) ++ [])
                  (Z.of_nat (56 + 8 * length (payload ++ rest)) + 0) false []).
    { rewrite S, E. eapply (runs_got lib skip _ (Some c)).
      - apply frame_nonempty.
      - rewrite attempt_frame by (assumption || apply calc_bytes).
        rewrite (carries_body _ _ _ _ _ _ whole_bytes C). reflexivity.
      - replace ((56 + 8 * length (payload ++ rest)) / 8)%nat with (length (frame c t payload ++ rest))
          by (rewrite !app_length, frame_length; lia).
        rewrite skipn_all. constructor. }
    rewrite (sparse_runs _ _ _ _ _ _ _ _ _ Bp Fa W). eexists. split; [reflexivity|]. auto.
  Qed.

  Lemma step_counters p b : is_byte (sp_down p) ->
    sp_buf (set_buf (bump p c) b) = b /\ sp_skip (set_buf (bump p c) b) = sp_skip p
    /\ sp_down (set_buf (bump p c) b) = c
    /\ sp_errs (set_buf (bump p c) b) = sp_errs p + (if c =? counter_after (sp_down p) then 0 else 1).
  Proof.
    intros B. destruct (bump_counters p c B) as [D E]. cbn [set_buf sp_buf sp_skip sp_down sp_errs].
    rewrite bump_skip, D, E. auto.
  Qed.

  Lemma recheck_counts lib chunks : forall p a r,
    lib = true \/ (forall j, (j < length chunks)%nat -> ~ bit_missing skip t payload (r ++ concat (firstn j chunks))) -> byte_in p -> sp_skip p = skip -> is_byte (sp_down p) ->
    sp_buf p ++ a = frame c t payload ++ r -> r ++ concat chunks = rest -> (chunks <> [] -> last chunks [] <> []) ->
    exists q, feeds lib p (a :: chunks) q [(t, m)] [] /\ sp_buf q = [] /\ sp_down q = c
      /\ sp_errs q = sp_errs p + (if c =? counter_after (sp_down p) then 0 else 1) + zlen chunks.
  Proof.
    induction chunks as [|b bs IH]; intros p a r HL Bp S Bd E R N.
    - cbn [concat] in R. rewrite app_nil_r in R. subst r.
      destruct (step_done lib p a Bp S E) as (res & K & M & Er).
      destruct (step_counters p [] Bd) as (_ & _ & D & Q).
      exists (set_buf (bump p c) []). refine (conj _ (conj eq_refl (conj D _))).
      + pose proof (feeds_cons lib p a _ res [] _ [] [] K (feeds_nil lib _)) as G. rewrite M, Er in G. exact G.
      + rewrite Q. change (zlen (@nil (list Z))) with 0. lia.
    - assert (X : concat (b :: bs) <> []).
      { intros H. specialize (N ltac:(discriminate)). apply N.
        assert (G : forall l : list (list Z), concat l = [] -> last l [] = []).
        { clear. induction l as [|x l IHl]; [reflexivity|]. intros H. cbn [concat] in H. apply app_eq_nil in H. destruct H as [-> H].
          destruct l; [reflexivity|]. apply IHl. exact H. }
        apply G. exact H. }
      assert (H0 : lib = true \/ ~ bit_missing skip t payload r).
      { destruct HL as [->|HL]; [left; reflexivity | right]. specialize (HL 0%nat ltac:(cbn [length]; lia)).
        cbn [firstn concat] in HL. rewrite app_nil_r in HL. exact HL. }
      destruct (step_wait lib p a r (concat (b :: bs)) H0 Bp S E R X) as (res & K & M & Er).
      set (p1 := set_buf (bump p c) (frame c t payload ++ r)) in *.
      destruct (step_counters p (frame c t payload ++ r) Bd) as (B1 & S1 & D1 & Q1). fold p1 in B1, S1, D1, Q1.
      destruct (prefix_bytes r _ R) as [Fr _].
      destruct (IH p1 b (r ++ b)) as (q & G & Bq & Dq & Eq).
      + destruct HL as [->|HL]; [left; reflexivity | right]. intros j Lj. specialize (HL (Datatypes.S j) ltac:(cbn [length]; lia)).
        cbn [firstn concat] in HL. rewrite <- app_assoc. exact HL.
      + unfold byte_in. rewrite B1. apply Forall_app. split; [apply frame_bytes; assumption | exact Fr].
      + congruence.
      + rewrite D1. exact Bc.
      + rewrite B1, app_assoc. reflexivity.
      + rewrite <- app_assoc. exact R.
      + intros Nb. specialize (N ltac:(discriminate)). destruct bs; [congruence|]. exact N.
      + exists q. refine (conj _ (conj Bq (conj Dq _))).
        * pose proof (feeds_cons lib p a p1 res (b :: bs) q _ _ K G) as H. rewrite M, Er in H. exact H.
        * rewrite Eq, Q1, D1, zlen_cons. unfold is_byte in Bc. unfold counter_after.
          replace (c =? (c + 1) mod 256) with false by lia. lia.
  Qed.
End Recheck.

Lemma recheck lib p c t payload first chunks m :
  lib = true \/ (forall j, (j < length chunks)%nat -> ~ bit_missing (sp_skip p) t payload (first ++ concat (firstn j chunks))) ->
  sp_buf p = [] -> is_byte (sp_down p) -> is_byte c -> is_byte t -> is_payload payload ->
  Forall is_byte (first ++ concat chunks) ->
  carries (sp_skip p) t payload (first ++ concat chunks) m (length (payload ++ first ++ concat chunks)) ->
  (chunks <> [] -> last chunks [] <> []) ->
  exists q, feeds lib p ((frame c t payload ++ first) :: chunks) q [(t, m)] [] /\ sp_buf q = [] /\ sp_down q = c
    /\ sp_errs q = sp_errs p + (if c =? counter_after (sp_down p) then 0 else 1) + zlen chunks.
Proof.
  intros HL B D Bc Bt P F C N.
  apply (recheck_counts c t payload (first ++ concat chunks) m (sp_skip p)) with (r := first); try assumption; try reflexivity.
  - unfold byte_in. rewrite B. constructor.
  - rewrite B. reflexivity.
Qed.

(** the other library: the frame is given up *)
Lemma gives_up p c t payload a r : byte_in p -> is_byte c -> is_byte t -> is_payload payload -> Forall is_byte r ->
  sp_buf p ++ a = frame c t payload ++ r -> bit_missing (sp_skip p) t payload r ->
  exists q, (exists pre, tl (frame c t payload ++ r) = pre ++ sp_buf q)
    /\ (sparse false p a = (q, Err IndexError)
        \/ exists res n es, sparse false p a = (q, Ok res) /\ pr_errors res = mkPErr BoolEof n :: es
             /\ decodes (sp_skip p) (tl (frame c t payload ++ r)) (pr_msgs res)).
Proof.
  intros Bp Bc Bt P Fr E (S & N4 & N5 & M).
  assert (G : Forall is_byte (frame c t payload ++ r)) by (apply Forall_app; split; [apply frame_bytes; assumption | exact Fr]).
  assert (Fa : Forall is_byte a) by (rewrite <- E in G; apply Forall_app in G; tauto).
  assert (A : attempt (sp_skip p) (frame c t payload ++ r) = (Some c, Err BoolEof)).
  { rewrite attempt_frame by (assumption || apply calc_bytes). rewrite body_alp by assumption. rewrite M. reflexivity. }
  pose proof (frame_nonempty c t payload r) as Ne.
  destruct (frame c t payload ++ r) as [|b l] eqn:Eb; [congruence|]. cbn [tl].
  assert (Fl : Forall is_byte l) by (inversion G; assumption).
  assert (Fd : Forall is_byte (drop_c0 l)) by (apply drop_c0_bytes; exact Fl).
  destruct (runs_total false (sp_skip p) _ _ Fd (Nat.le_refl _)) as (ms & es & cs & pd & cr & fin & R).
  assert (R1 : runs false (sp_skip p) (sp_buf p ++ a) ms (mkPErr BoolEof (snd (skip_bad (b :: l))) :: es)
               (olist (Some c) ++ cs) pd cr fin).
  { rewrite E. eapply runs_skip; [discriminate | exact A | reflexivity | reflexivity |].
    rewrite skip_bad_buf. exact R. }
  rewrite (sparse_runs _ _ _ _ _ _ _ _ _ Bp Fa R1).
  destruct (drop_c0_suffix l) as (pre & El & _). destruct (runs_account _ _ _ _ _ _ _ _ _ R Fd) as ((pre' & Ef) & _).
  exists (set_buf (with_counters p (olist (Some c) ++ cs)) fin). split.
  - exists (pre ++ pre'). cbn [set_buf sp_buf]. rewrite <- app_assoc, <- Ef. exact El.
  - destruct cr; [left; reflexivity | right]. do 3 eexists. split; [reflexivity|]. split; [reflexivity|]. cbn [pr_msgs].
    rewrite El. apply decodes_app. eapply runs_decodes; [exact R | exact Fd].
Qed.
