(** Several threads in one Parser: a thread that is left alone comes out. *)
From Coq Require Import ZifyBool ZifyNat.
From Verif Require Import SInside LSerial LRun LInside LInside2 LInside3.
Set Implicit Arguments.

Section Alone.
Variable lib : bool.
Variable i : nat.

Definition idle_at (w : Inside) : Prop := nth_error (in_places w) i = Some PIdle.
Definition comes_out (w : Inside) : Prop := exists w', gets lib i w w' /\ idle_at w'.
Lemma comes_after w v : gets lib i w v -> comes_out v -> comes_out w.
Proof. intros G (w' & G' & D). exists w'. split; [eapply gets_trans; eauto | exact D]. Qed.

Lemma test_out ps st c p l rs : (i < length ps)%nat -> nth_error st c = Some (sp_buf p) -> Forall is_byte (sp_buf p) ->
  comes_out (mkI st c p (put i (PLoad UTest l) ps) rs).
Proof.
  intros Hi N F.
  destruct (runs_total lib (sp_skip p) _ _ F (Nat.le_refl _)) as (ms & es & cs & pd & cr & fin & R).
  destruct (parse_one (S (length (sp_buf p))) lib p (lo_new l)) as [q x] eqn:O.
  pose proof (parse_one_runs lib (S (length (sp_buf p))) p (lo_new l) F (Nat.lt_succ_diag_r _)) as K.
  specialize (K _ _ _ _ _ _ R). rewrite O in K.
  assert (NF : x <> Err OutOfFuel) by (destruct x; [discriminate | destruct K as (-> & _); discriminate]).
  destruct (@one_alone lib i ps Hi _ _ _ _ _ O NF st c rs N) as (st1 & c1 & N1 & Q).
  assert (D : forall a b z w, idle_at (mkI a b z (put i PIdle ps) w)) by (intros; unfold idle_at, mkI; cbn [in_places]; apply put_get, Hi).
  destruct x as [[[[[t m]|] n] es']|e].
  - destruct Q as (n' & -> & Q). destruct K as (ms2 & es1 & es2 & cs1 & cs2 & pd2 & _ & _ & _ & _ & _ & Eq & _ & Fq & R2).
    assert (Sq : sp_skip q = sp_skip p) by (rewrite Eq; cbn [set_buf sp_skip]; apply counters_skip).
    set (l0 := with_new l es') in *.
    set (l1 := mkLocals (lo_msgs l0 ++ [(t, m)]) (lo_parsed l0 + Z.of_nat n') (lo_errors l0 ++ lo_new l0) []).
    rewrite <- Sq in R2.
    pose proof (parse_buffer_runs lib (S (length (sp_buf q))) q (lo_msgs l1) (lo_parsed l1) (lo_errors l1) _ _ _ _ _ _ Fq (Nat.lt_succ_diag_r _) R2) as PB.
    assert (NF2 : (if cr then Err IndexError else Ok (mkPR (lo_msgs l1 ++ ms2) (lo_parsed l1 + pd2) (8 * zlen fin) (lo_errors l1 ++ es2))) <> Err OutOfFuel)
      by (destruct cr; discriminate).
    destruct (@buffer_alone lib i ps Hi _ _ l1 _ _ eq_refl PB NF2 st1 c1 rs N1) as (st2 & c2 & N2 & G).
    eexists. split; [|apply D]. eapply gets_trans; [exact Q|]. eapply gets_trans; [|exact G].
    eapply gets_use; [exact Hi | exact N1|]. cbn [use]. apply place_mkI.
  - eexists. split; [|apply D]. eapply gets_trans; [exact Q|].
    eapply gets_use; [exact Hi | exact N1|]. cbn [use]. apply finish_mkI.
  - eexists. split; [exact Q | apply D].
Qed.

Definition use_rank (u : Use) : nat :=
  match u with UInfo _ | UExtend _ => 1 | UTest => 8 | UStream => 7 | UHeader _ => 6 | UShift _ _ _ => 3 | UPop _ => 5 | UIndex _ => 4
             | USlice _ _ | ULeft _ => 3 end.
Definition rank (x : Place) : nat :=
  match x with PIdle => 0 | PLoad UTest _ => 0 | PLoad u _ => 2 * use_rank u + 1 | PHave u _ _ => 2 * use_rank u | PStore _ _ _ => 4 end.

Lemma place_at y w : (i < length (in_places w))%nat -> nth_error (in_places (put_place i y w)) i = Some y.
Proof. destruct w. cbn. apply put_get. Qed.
Lemma length_bytes r b w : length (in_places (put_bytes r b w)) = length (in_places w).
Proof. destruct w; reflexivity. Qed.
Lemma length_new b w : length (in_places (new_bytes b w)) = length (in_places w).
Proof. destruct w; reflexivity. Qed.
Lemma length_count k w : length (in_places (count k w)) = length (in_places w).
Proof. destruct w; reflexivity. Qed.
Lemma finish_at r w : (i < length (in_places w))%nat -> nth_error (in_places (finish i r w)) i = Some PIdle.
Proof. destruct w. cbn. apply put_get. Qed.
Lemma handle_at e l w : (i < length (in_places w))%nat ->
  exists y, nth_error (in_places (handle lib i e l w)) i = Some y /\ (rank y <= 11)%nat.
Proof.
  intro L. unfold handle. destruct (is_read_error lib e); [eexists; split; [apply place_at, L | cbn; lia]|].
  destruct (no_args e); eexists; (split; [apply finish_at, L || apply place_at, L | cbn; lia]).
Qed.
Lemma use_at u r b l w : (i < length (in_places w))%nat ->
  exists y, nth_error (in_places (use lib i u r b l w)) i = Some y /\ (rank y < 2 * use_rank u)%nat.
Proof.
  intro L. destruct u as [msg| | |s|t m n|e|e|e k|e|[[[t m] n]|]]; cbn [use use_rank].
  - eexists. split; [apply place_at; rewrite length_bytes; exact L | cbn; lia].
  - eexists. split; [apply place_at, L|]. destruct b; cbn; lia.
  - eexists. split; [apply place_at, L | cbn; lia].
  - destruct (header_fields (zlen b) (stream_of s)) as [[[[[[[counter t] len] c1] c2] payload] s']|e].
    + destruct (calculate_crc payload) as [h o].
      match goal with |- context[match ?x with Ok _ => _ | Err _ => _ end] => destruct x as [[m n]|e] end.
      * eexists. split; [apply place_at; rewrite length_count; exact L | cbn; lia].
      * destruct (@handle_at e l (count counter w)) as (y & Y & R); [rewrite length_count; exact L|]. exists y. split; [exact Y | lia].
    + destruct (@handle_at e l w L) as (y & Y & R). exists y. split; [exact Y | lia].
  - eexists. split; [apply place_at, L | cbn; lia].
  - destruct b; (eexists; split; [apply place_at; rewrite ?length_bytes; exact L | cbn; lia]).
  - eexists. split; [apply place_at, L|]. destruct (find_c0 b 0) as [[q k]|]; cbn; lia.
  - eexists. split; [apply place_at, L | cbn; lia].
  - eexists. split; [apply place_at, L | cbn; lia].
  - eexists. split; [apply place_at, L | cbn; lia].
  - eexists. split; [apply finish_at, L | cbn; lia].
Qed.
Lemma step_rank w w' x : nth_error (in_places w) i = Some x -> (rank x > 0)%nat -> inside_step lib w (IGo i) = Some w' ->
  exists y, nth_error (in_places w') i = Some y /\ (rank y < rank x)%nat.
Proof.
  intros E R S. assert (L : (i < length (in_places w))%nat) by (apply nth_error_Some; congruence).
  cbn [inside_step] in S. rewrite E in S. destruct x as [|u l|u r l|b [t m n|e] l].
  - cbn in R. lia.
  - injection S as <-. eexists. split; [apply place_at, L|]. destruct u; cbn in *; lia.
  - destruct (nth_error (in_store w) r) as [b|]; [|discriminate]. injection S as <-. apply use_at, L.
  - injection S as <-. eexists. split; [apply place_at; rewrite length_new; exact L | cbn; lia].
  - injection S as <-. eexists. split; [apply place_at; rewrite length_new; exact L | cbn; lia].
Qed.
End Alone.

(** the other threads stay where they are *)
Lemma others_step lib i w w' : inside_step lib w (IGo i) = Some w' -> forall j, j <> i -> nth_error (in_places w') j = nth_error (in_places w) j.
Proof.
  intros S j J.
  assert (P : forall y v, nth_error (in_places (put_place i y v)) j = nth_error (in_places v) j).
  { intros y [? ? ? ? ? ? ps ?]. cbn. rewrite put_nth. destruct (Nat.eqb_spec i j); [congruence | reflexivity]. }
  assert (B : forall r b v, in_places (put_bytes r b v) = in_places v) by (intros r b [? ? ? ? ? ? ps ?]; reflexivity).
  assert (N : forall b v, in_places (new_bytes b v) = in_places v) by (intros b [? ? ? ? ? ? ps ?]; reflexivity).
  assert (C : forall k v, in_places (count k v) = in_places v) by (intros k [? ? ? ? ? ? ps ?]; reflexivity).
  assert (D : forall r v, nth_error (in_places (finish i r v)) j = nth_error (in_places v) j).
  { intros y [? ? ? ? ? ? ps ?]. cbn. rewrite put_nth. destruct (Nat.eqb_spec i j); [congruence | reflexivity]. }
  assert (H : forall e l v, nth_error (in_places (handle lib i e l v)) j = nth_error (in_places v) j).
  { intros e l v. unfold handle. destruct (is_read_error lib e); [apply P|]. destruct (no_args e); auto. }
  cbn [inside_step] in S. destruct (nth_error (in_places w) i) as [x|]; [|discriminate].
  destruct x as [|u l|u r l|b [t m n|e] l]; [discriminate | | | |];
    [injection S as <-; apply P | | injection S as <-; rewrite P, N; reflexivity | injection S as <-; rewrite P, N; reflexivity].
  destruct (nth_error (in_store w) r) as [b|]; [|discriminate]. injection S as <-.
  destruct u as [msg| | |s|t m n|e|e|e k|e|[[[t m] n]|]]; cbn [use]; rewrite ?P, ?D, ?B; try reflexivity.
  - destruct (header_fields (zlen b) (stream_of s)) as [[[[[[[counter t] len] c1] c2] payload] s']|e]; [|apply H].
    destruct (calculate_crc payload) as [h o].
    match goal with |- context[match ?x with Ok _ => _ | Err _ => _ end] => destruct x as [[m n]|e] end.
    + rewrite P, C. reflexivity.
    + rewrite H, C. reflexivity.
  - destruct b; rewrite ?P, ?B; reflexivity.
Qed.
Lemma others_run lib i : forall k w w', inside_run lib w (repeat (IGo i) k) = Some w' ->
  forall j, j <> i -> nth_error (in_places w') j = nth_error (in_places w) j.
Proof.
  induction k as [|k IH]; intros w w' R j J; [cbn in R; congruence|]. cbn [repeat inside_run] in R.
  destruct (inside_step lib w (IGo i)) as [v|] eqn:S; [|discriminate]. rewrite (IH _ _ R j J). eapply others_step; eauto.
Qed.

Lemma inside_comes_out : forall lib p n ls w i, byte_in p -> Forall is_byte (given ls) ->
  inside_run lib (inside_of p n) ls = Some w -> (i < n)%nat ->
  exists k w', inside_run lib w (repeat (IGo i) k) = Some w' /\ nth_error (in_places w') i = Some PIdle
  /\ forall j, j <> i -> nth_error (in_places w') j = nth_error (in_places w) j.
Proof.
  intros lib p n ls w i B F R Li.
  assert (X : comes_out lib i w).
  { assert (Y : forall r ls w x, Forall is_byte (given ls) -> inside_run lib (inside_of p n) ls = Some w ->
        nth_error (in_places w) i = Some x -> (rank x <= r)%nat -> comes_out lib i w).
    { clear ls w F R. induction r as [|r IH]; intros ls w x F R E L.
      - destruct x as [|u l|u q l|b y l]; try (cbn in L; lia).
        + exists w. split; [exists 0%nat; reflexivity | exact E].
        + destruct u; try (cbn in L; lia).
          pose proof (@kept_run lib p n B ls w F R) as K.
          destruct (nth_error (in_store w) (in_cur w)) as [b|] eqn:N; [|apply nth_error_None in N; pose proof (k_cur K); lia].
          assert (Eb : sp_buf (parser_now w) = b) by (apply nth_error_nth, N).
          assert (W : w = mkI (in_store w) (in_cur w) (parser_now w) (put i (PLoad UTest l) (in_places w)) (in_results w)).
          { rewrite (put_same _ _ E). destruct w; reflexivity. }
          rewrite W. apply test_out.
          * apply nth_error_Some. congruence.
          * rewrite N, Eb. reflexivity.
          * rewrite Eb. pose proof (k_bytes K) as Kb. rewrite Forall_forall in Kb. eapply Kb, nth_error_In, N.
        + cbn in L. destruct u; cbn in L; lia.
      - destruct (Nat.eq_dec (rank x) 0) as [Z|Z]; [eapply (IH ls w x); eauto; lia|].
        destruct (@inside_moves lib p n ls w i x B F R E) as (w' & S); [intros ->; apply Z; reflexivity|].
        destruct (@step_rank lib i w w' x E ltac:(lia) S) as (y & Ey & Ly).
        eapply comes_after; [exists 1%nat; cbn [repeat inside_run]; rewrite S; reflexivity|].
        apply (IH (ls ++ [IGo i]) w' y); [| |exact Ey | lia].
        + rewrite given_app. apply Forall_app. split; [exact F | constructor].
        + rewrite run_app, R. cbn [inside_run]. rewrite S. reflexivity. }
    pose proof (k_number (@kept_run lib p n B ls w F R)) as T. cbn in T. rewrite repeat_length in T.
    destruct (nth_error (in_places w) i) as [x|] eqn:E; [|apply nth_error_None in E; lia].
    eapply (Y (rank x)); eauto. }
  destruct X as (w' & (k & K) & D). exists k, w'. split; [exact K|]. split; [exact D|]. intros j J. eapply others_run; eauto.
Qed.
