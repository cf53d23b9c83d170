(** What several threads in one Parser get does not depend on its counters. *)
From Coq Require Import ZArith List.
From Verif Require Import Bits MBase MCrc MAlp MSerial MInside STally2.
Import ListNotations.

Definition alike (w v : Inside) : Prop :=
  in_store v = in_store w /\ in_cur v = in_cur w /\ in_skip v = in_skip w /\ in_places v = in_places w /\ in_results v = in_results w.
Lemma alike_refl : forall w, alike w w.
Proof. intros w. repeat split. Qed.
Lemma alike_place : forall i x w v, alike w v -> alike (put_place i x w) (put_place i x v).
Proof. intros i x [] [] (A & B & C & D & E). cbn in *. subst. repeat split. Qed.
Lemma alike_bytes : forall r b w v, alike w v -> alike (put_bytes r b w) (put_bytes r b v).
Proof. intros r b [] [] (A & B & C & D & E). cbn in *. subst. repeat split. Qed.
Lemma alike_new : forall b w v, alike w v -> alike (new_bytes b w) (new_bytes b v).
Proof. intros b [] [] (A & B & C & D & E). cbn in *. subst. repeat split. Qed.
Lemma alike_count : forall c w v, alike w v -> alike (count c w) (count c v).
Proof.
  intros c [s1 c1 k1 u1 d1 e1 p1 r1] [s2 c2 k2 u2 d2 e2 p2 r2] (A & B & C & D & E).
  cbn [in_store in_cur in_skip in_places in_results] in *. subst. repeat split.
Qed.
Lemma alike_finish : forall i r w v, alike w v -> alike (finish i r w) (finish i r v).
Proof. intros i r [] [] (A & B & C & D & E). cbn in *. subst. repeat split. Qed.
Lemma alike_handle : forall lib i e l w v, alike w v -> alike (handle lib i e l w) (handle lib i e l v).
Proof.
  intros lib i e l w v A. unfold handle. destruct (is_read_error lib e); [now apply alike_place|].
  destruct (no_args e); [now apply alike_finish|now apply alike_place].
Qed.
Lemma alike_skip : forall w v, alike w v -> in_skip v = in_skip w.
Proof. intros w v A. apply A. Qed.
Lemma alike_use : forall lib i u r b l w v, alike w v -> alike (use lib i u r b l w) (use lib i u r b l v).
Proof.
  intros lib i u r b l w v A. destruct u; cbn [use].
  - now apply alike_place, alike_bytes.
  - now apply alike_place.
  - now apply alike_place.
  - destruct (header_fields (zlen b) (stream_of s)) as [[[[[[[counter t] n] c1] c2] payload] s']|e]; [|now apply alike_handle].
    pose proof (alike_count counter w v A) as A1. destruct (calculate_crc payload) as [h o].
    rewrite (alike_skip _ _ A1).
    destruct (if _ || _ then _ else _) as [[m k]|e]; [now apply alike_place|now apply alike_handle].
  - now apply alike_place.
  - destruct b; [now apply alike_place|now apply alike_place, alike_bytes].
  - now apply alike_place.
  - now apply alike_place.
  - now apply alike_place.
  - destruct got as [[[t m] n]|]; [now apply alike_place|now apply alike_finish].
Qed.
Lemma alike_step : forall lib x w v w', alike w v -> inside_step lib w x = Some w' ->
  exists v', inside_step lib v x = Some v' /\ alike w' v'.
Proof.
  intros lib x w v w' A H. pose proof A as (S1 & C1 & K1 & P1 & R1). destruct x as [i msg|i]; cbn [inside_step] in *; rewrite P1.
  - destruct (nth_error (in_places w) i) as [p|]; [|discriminate]. destruct p; try discriminate.
    injection H as <-. eexists. split; [reflexivity|]. now apply alike_place.
  - destruct (nth_error (in_places w) i) as [p|]; [|discriminate]. destruct p as [|u l|u r l|b x l]; try discriminate.
    + injection H as <-. rewrite C1. eexists. split; [reflexivity|]. now apply alike_place.
    + rewrite S1. destruct (nth_error (in_store w) r) as [b|]; [|discriminate]. injection H as <-.
      eexists. split; [reflexivity|]. now apply alike_use.
    + destruct x; injection H as <-; (eexists; split; [reflexivity|]; now apply alike_place, alike_new).
Qed.
Lemma alike_run : forall lib ls w v w', alike w v -> inside_run lib w ls = Some w' ->
  exists v', inside_run lib v ls = Some v' /\ alike w' v'.
Proof.
  induction ls as [|x r IH]; intros w v w' A H; cbn [inside_run] in *.
  - injection H as <-. eauto.
  - destruct (inside_step lib w x) as [w1|] eqn:E; [|discriminate].
    destruct (alike_step _ _ _ _ _ A E) as (v1 & E1 & A1). rewrite E1. eauto.
Qed.
Lemma counters_apart : forall lib p q n ls w, sp_buf p = sp_buf q -> sp_skip p = sp_skip q ->
  inside_run lib (inside_of p n) ls = Some w ->
  exists v, inside_run lib (inside_of q n) ls = Some v /\ in_results v = in_results w
  /\ in_places v = in_places w /\ in_store v = in_store w /\ in_cur v = in_cur w.
Proof.
  intros lib p q n ls w B K H. assert (A : alike (inside_of p n) (inside_of q n)) by (unfold inside_of; rewrite B, K; repeat split).
  destruct (alike_run _ _ _ _ _ A H) as (v & R & S1 & C1 & _ & P1 & R1). exists v. auto.
Qed.
(** … nor when they are changed between any two steps *)
Lemma alike_sym : forall w v, alike w v -> alike v w.
Proof. intros w v (A & B & C & D & E). repeat split; symmetry; assumption. Qed.
Lemma alike_trans : forall w v u, alike w v -> alike v u -> alike w u.
Proof. intros w v u (A & B & C & D & E) (A' & B' & C' & D' & E'). repeat split; congruence. Qed.
Lemma shaken_alike : forall lib w ls w', shaken lib w ls w' -> forall v, alike w v ->
  exists v', inside_run lib v ls = Some v' /\ alike w' v'.
Proof.
  intros lib w ls w' H. induction H as [w|w x w1 ls w2 E H IH|w d e ls w2 H IH]; intros v A.
  - exists v. split; [reflexivity|exact A].
  - destruct (alike_step _ _ _ _ _ A E) as (v1 & E1 & A1). destruct (IH _ A1) as (v2 & R & A2).
    exists v2. split; [|exact A2]. cbn [inside_run]. now rewrite E1.
  - apply IH. apply (alike_trans _ w); [|exact A]. repeat split.
Qed.
Lemma counters_shaken : forall lib p n ls w, shaken lib (inside_of p n) ls w ->
  exists v, inside_run lib (inside_of p n) ls = Some v /\ in_results v = in_results w
  /\ in_places v = in_places w /\ in_store v = in_store w /\ in_cur v = in_cur w.
Proof.
  intros lib p n ls w H. destruct (shaken_alike _ _ _ _ H _ (alike_refl _)) as (v & R & S1 & C1 & _ & P1 & R1). exists v. auto.
Qed.
