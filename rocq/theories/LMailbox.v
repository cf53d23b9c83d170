From Coq Require Import List Lia Arith Bool. Import ListNotations.
From Verif Require Import SMailbox.
Local Open Scope nat_scope.

Lemma append_length h : forall r x, length (append_to h r x) = length h.
Proof. induction h as [|l h IH]; intros [|r] x; cbn; rewrite ?IH; reflexivity. Qed.
Lemma append_nth h : forall r x i, r < length h ->
  nth i (append_to h r x) [] = if i =? r then nth r h [] ++ [x] else nth i h [].
Proof.
  induction h as [|l h IH]; intros [|r] x i H; cbn in *; try lia.
  - destruct i; reflexivity.
  - destruct i as [|i]; [reflexivity|]. cbn. apply IH. lia.
Qed.
Lemma append_concat h : forall r x, r < length h -> concat (skipn (S r) h) = [] ->
  concat (append_to h r x) = concat h ++ [x] /\ forall k, r <= k -> concat (skipn (S k) (append_to h r x)) = [].
Proof.
  induction h as [|l h IH]; intros [|r] x H E; cbn in H; try lia.
  - cbn in E. split; [cbn; rewrite E, !app_nil_r; reflexivity|].
    intros k _. cbn. clear IH H. revert k. induction h as [|a h IH]; intros k; [destruct k; reflexivity|].
    cbn in E. apply app_eq_nil in E as [-> E]. destruct k; [cbn; exact E | cbn; apply IH, E].
  - assert (H' : r < length h) by lia. destruct (IH r x H' E) as [A B]. split.
    + cbn. rewrite A. apply app_assoc.
    + intros [|k] L; [lia|]. apply B. lia.
Qed.

Definition pend (b : Box) (i : nat) : Prop := exists x, bx_reader b = BAppend i x.
Definition good (b : Box) : Prop :=
  bx_lists b <> [] /\
  forall r x, bx_reader b = BAppend r x -> r < length (bx_lists b) /\ concat (skipn (S r) (bx_lists b)) = [].

Lemma current_lt b : good b -> current b < length (bx_lists b).
Proof. intros [H _]. unfold current. destruct (bx_lists b); [congruence | cbn; lia]. Qed.

Lemma good_new : good new_box.
Proof. split; [discriminate | intros r x H; discriminate H]. Qed.

Lemma skipn_last {A} (h : list A) n : length h <= n -> skipn n h = [].
Proof. apply skipn_all2. Qed.

Lemma good_step b l b' : good b -> box_step b l = Some b' ->
  good b' /\ concat (bx_lists b') ++ held b' = concat (bx_lists b) ++ held b ++ box_arrivals [l].
Proof.
  intros G S. pose proof (current_lt b G) as CL. destruct G as [N G].
  destruct l; cbn in S.
  - destruct (bx_reader b) eqn:R; try discriminate S. injection S as <-. unfold held. cbn. rewrite R. cbn.
    split; [split; [exact N | intros ? ? H; discriminate H] | reflexivity].
  - destruct (bx_reader b) as [|x|r x] eqn:R; try discriminate S; injection S as <-; unfold held; cbn; rewrite R; cbn.
    + split; [|reflexivity]. split; [exact N|]. cbn [bx_reader bx_lists]. intros r y [= <- <-]. split; [exact CL|].
      rewrite skipn_last; [reflexivity | unfold current in *; lia].
    + destruct (G r x eq_refl) as [L E]. destruct (append_concat _ _ x L E) as [A B].
      split; [split; [cbn [bx_lists]; intros Z; apply N; apply length_zero_iff_nil; rewrite <- (append_length _ r x), Z; reflexivity
                     | cbn; intros ? ? H; discriminate H]|].
      rewrite A, <- app_assoc. reflexivity.
  - injection S as <-. unfold held. cbn. rewrite app_nil_r. split; [split; [exact N | exact G] | reflexivity].
  - destruct (bx_got b); [|discriminate S]. injection S as <-. unfold held. cbn. rewrite app_nil_r.
    split; [split; [exact N | exact G] | reflexivity].
  - injection S as <-. unfold held. cbn. rewrite app_nil_r, concat_app. cbn. rewrite app_nil_r. split; [|reflexivity].
    split; [cbn; destruct (bx_lists b); discriminate|]. cbn [bx_reader bx_lists]. intros r x H. destruct (G r x H) as [L E].
    rewrite app_length. cbn [length]. split; [lia|]. rewrite skipn_app, concat_app, E.
    destruct (S r - length (bx_lists b)) as [|k]; [reflexivity | destruct k; reflexivity].
Qed.
Lemma arrivals_app a : forall b, box_arrivals (a ++ b) = box_arrivals a ++ box_arrivals b.
Proof. induction a as [|[] a IH]; intros b; cbn; rewrite ?IH; reflexivity. Qed.
Lemma good_run ls : forall b b', good b -> box_run b ls = Some b' ->
  good b' /\ concat (bx_lists b') ++ held b' = concat (bx_lists b) ++ held b ++ box_arrivals ls.
Proof.
  induction ls as [|l ls IH]; intros b b' G R; cbn [box_run] in R.
  - injection R as <-. cbn. rewrite app_nil_r. auto.
  - destruct (box_step b l) as [b1|] eqn:S; [|discriminate R].
    destruct (good_step _ _ _ G S) as [G1 E1]. destruct (IH _ _ G1 R) as [G2 E2]. split; [exact G2|].
    rewrite E2, app_assoc, E1. change (l :: ls) with ([l] ++ ls). rewrite arrivals_app, <- !app_assoc. reflexivity.
Qed.

Lemma box_order ls b : box_run new_box ls = Some b -> concat (bx_lists b) ++ held b = box_arrivals ls.
Proof. intros R. destruct (good_run _ _ _ good_new R) as [_ E]. exact E. Qed.

(** old lists *)
Lemma box_run_app a : forall b c, box_run b (a ++ c) = match box_run b a with Some b' => box_run b' c | None => None end.
Proof. induction a as [|l a IH]; intros b c; cbn; [reflexivity|]. destruct (box_step b l); [apply IH | reflexivity]. Qed.

Lemma lists_grow b l b' : box_step b l = Some b' -> length (bx_lists b) <= length (bx_lists b').
Proof.
  destruct l; cbn; try (destruct (bx_reader b)); try (destruct (bx_got b)); intros [= <-]; cbn; rewrite ?append_length, ?app_length; cbn; lia.
Qed.
Lemma old_step b l b' r : good b -> r < current b -> box_step b l = Some b' ->
  r < current b' /\
  ((box_list b' r = box_list b r /\ (pend b' r -> bx_reader b' = bx_reader b))
   \/ exists x, bx_reader b = BAppend r x /\ box_list b' r = box_list b r ++ [x] /\ ~ pend b' r).
Proof.
  intros G L S. pose proof (lists_grow _ _ _ S) as GR. split; [unfold current in *; lia|].
  unfold box_list, pend. destruct l; cbn in S.
  - destruct (bx_reader b) eqn:R; try discriminate S. injection S as <-. left. cbn. split; [reflexivity|]. intros [? H]. discriminate H.
  - destruct (bx_reader b) as [|x|q x] eqn:R; try discriminate S; injection S as <-; cbn.
    + left. split; [reflexivity|]. intros [y H]. injection H as H _. lia.
    + destruct (proj2 G q x R) as [LQ _]. rewrite append_nth by exact LQ. destruct (Nat.eqb_spec r q) as [<-|NE].
      * right. exists x. repeat split. intros [y H]. discriminate H.
      * left. split; [reflexivity|]. intros [? H]. discriminate H.
  - injection S as <-. left. cbn. split; auto.
  - destruct (bx_got b); [|discriminate S]. injection S as <-. left. cbn. split; auto.
  - injection S as <-. left. cbn. rewrite app_nth1 by (unfold current in L; lia). split; auto.
Qed.
Lemma old_run ls : forall b b' r, good b -> r < current b -> box_run b ls = Some b' ->
  (box_list b' r = box_list b r /\ (pend b' r -> bx_reader b' = bx_reader b))
   \/ exists x, bx_reader b = BAppend r x /\ box_list b' r = box_list b r ++ [x] /\ ~ pend b' r.
Proof.
  induction ls as [|l ls IH]; intros b b' r G L R; cbn in R.
  - injection R as <-. auto.
  - destruct (box_step b l) as [b1|] eqn:S; [|discriminate R].
    destruct (good_step _ _ _ G S) as [G1 _]. destruct (old_step _ _ _ _ G L S) as [L1 O].
    destruct (IH _ _ _ G1 L1 R) as [[E1 P1] | (x & R1 & E1 & P1)]; destruct O as [[E0 P0] | (y & R0 & E0 & P0)].
    + left. split; [congruence|]. intros P. pose proof (P1 P) as Q. rewrite Q. apply P0. destruct P as [z P]. exists z. congruence.
    + right. exists y. repeat split; [exact R0 | congruence|]. intros P. pose proof (P1 P) as Q. apply P0. destruct P as [z P]. exists z. congruence.
    + right. exists x. assert (P : pend b1 r) by (exists x; exact R1). rewrite <- (P0 P). repeat split; [exact R1 | congruence | exact P1].
    + exfalso. apply P0. exists x. exact R1.
Qed.

Lemma box_old before ls b b' r : box_run new_box before = Some b -> box_has b r -> r <> current b ->
  box_run b ls = Some b' ->
  box_list b' r = box_list b r \/ exists x, bx_reader b = BAppend r x /\ box_list b' r = box_list b r ++ [x].
Proof.
  intros R0 H N R. destruct (good_run _ _ _ good_new R0) as [G _].
  assert (L : r < current b) by (unfold box_has, current in *; lia).
  destruct (old_run _ _ _ _ G L R) as [[E _] | (x & A & B & _)]; eauto.
Qed.

(** reader steps only *)
Lemma reader_keeps ls : forall b b', reader_only ls -> box_run b ls = Some b' ->
  length (bx_lists b') = length (bx_lists b) /\ bx_got b' = bx_got b /\ bx_seen b' = bx_seen b.
Proof.
  induction ls as [|l ls IH]; intros b b' F R; cbn in R.
  - injection R as <-. auto.
  - inversion F as [|? ? F1 F2]; subst. destruct (box_step b l) as [b1|] eqn:S; [|discriminate R].
    destruct (IH _ _ F2 R) as (A & B & C). rewrite A, B, C.
    destruct l; try destruct F1; cbn in S; destruct (bx_reader b); try discriminate S; injection S as <-; cbn; rewrite ?append_length; auto.
Qed.

(** what the application has looked at so far: a relation list by list *)
Definition prefixes (ps : list (list Msg)) (b : Box) : Prop :=
  forall i, i < length ps -> prefix (nth i ps []) (box_list b i).
Definition close (ps : list (list Msg)) (b : Box) : Prop :=
  forall i, i < length ps -> box_list b i = nth i ps [] \/ (~ pend b i /\ exists x, box_list b i = nth i ps [] ++ [x]).
Definition exact_ (ps : list (list Msg)) (b : Box) : Prop :=
  forall i, i < length ps -> box_list b i = nth i ps [] /\ ~ pend b i.

Lemma prefixes_reader ls : forall b b' ps, good b -> reader_only ls -> box_run b ls = Some b' -> prefixes ps b -> prefixes ps b'.
Proof.
  induction ls as [|l ls IH]; intros b b' ps G F R P; cbn in R.
  - injection R as <-. exact P.
  - inversion F as [|? ? F1 F2]; subst. destruct (box_step b l) as [b1|] eqn:S; [|discriminate R].
    destruct (good_step _ _ _ G S) as [G1 _]. apply (IH _ _ _ G1 F2 R). intros i L. specialize (P i L).
    destruct l; try destruct F1; cbn in S; destruct (bx_reader b) as [|z|r z] eqn:RB; try discriminate S; injection S as <-; try exact P.
    unfold box_list in *. cbn. destruct (proj2 G r z RB) as [LR _]. rewrite append_nth by exact LR.
    destruct (Nat.eqb_spec i r) as [<-|]; [|exact P]. destruct P as [c E]. exists (c ++ [z]). rewrite E. symmetry. apply app_assoc.
Qed.
Lemma nth_snoc {A} (ps : list A) p i d : nth i (ps ++ [p]) d = if i =? length ps then p else nth i ps d.
Proof.
  destruct (Nat.eqb_spec i (length ps)) as [->|N]; [apply nth_middle|].
  destruct (Nat.lt_ge_cases i (length ps)); [apply app_nth1; lia|].
  rewrite !nth_overflow; rewrite ?app_length; cbn; try reflexivity; lia.
Qed.
Lemma prefixes_look b b' ps : prefixes ps b -> bx_got b = Some (length ps) -> box_step b BLook = Some b' ->
  prefixes (ps ++ [box_list b (length ps)]) b'
  /\ (bx_seen b = concat ps -> bx_seen b' = concat (ps ++ [box_list b (length ps)]))
  /\ bx_lists b' = bx_lists b /\ bx_reader b' = bx_reader b /\ bx_got b' = bx_got b.
Proof.
  intros P E S. cbn in S. rewrite E in S. injection S as <-. cbn. repeat split.
  - intros i L. rewrite app_length in L. cbn in L. rewrite nth_snoc. destruct (Nat.eqb_spec i (length ps)) as [->|N].
    + exists []. unfold box_list. cbn. symmetry. apply app_nil_r.
    + apply P. lia.
  - intros ->. rewrite concat_app. cbn. rewrite app_nil_r. reflexivity.
  - congruence.
Qed.
Lemma box_list_clear b i : i < length (bx_lists b) -> nth i (bx_lists b ++ [[]]) [] = box_list b i.
Proof. intros L. apply app_nth1, L. Qed.

Lemma subseq_refl {A} (l : list A) : subsequence l l.
Proof. induction l; constructor; assumption. Qed.
Lemma subseq_app {A} (a b c d : list A) : subsequence a b -> subsequence c d -> subsequence (a ++ c) (b ++ d).
Proof. induction 1; cbn; intros; [assumption | constructor; auto | constructor; auto]. Qed.
Lemma subseq_nil {A} (l : list A) : subsequence [] l.
Proof. induction l; constructor; assumption. Qed.
Lemma subseq_prefix {A} (a b : list A) : prefix a b -> subsequence a b.
Proof. intros [c ->]. rewrite <- (app_nil_r a) at 1. apply subseq_app; [apply subseq_refl | apply subseq_nil]. Qed.
Lemma concat_sub ps : forall h : list (list Msg), length ps <= length h ->
  (forall i, i < length ps -> prefix (nth i ps []) (nth i h [])) -> subsequence (concat ps) (concat h).
Proof.
  induction ps as [|p ps IH]; intros h L H; [apply subseq_nil|].
  destruct h as [|l h]; [cbn in L; lia|]. cbn. apply subseq_app.
  - apply subseq_prefix, (H 0). cbn; lia.
  - apply IH; [cbn in L; lia|]. intros i Li. apply (H (S i)). cbn; lia.
Qed.

(** rounds: read_clear *)
Definition at0 (b : Box) (ps : list (list Msg)) : Prop :=
  good b /\ length (bx_lists b) = S (length ps) /\ bx_seen b = concat ps /\ prefixes ps b.

Lemma at0_current b ps : at0 b ps -> length ps <= current b.
Proof. intros (_ & L & _). unfold current. lia. Qed.
Lemma step_split b l ls b' : box_run b (l :: ls) = Some b' -> exists b1, box_step b l = Some b1 /\ box_run b1 ls = Some b'.
Proof. cbn. destruct (box_step b l) as [b1|]; [eauto | discriminate]. Qed.
Lemma run_split b a c b' : box_run b (a ++ c) = Some b' -> exists b1, box_run b a = Some b1 /\ box_run b1 c = Some b'.
Proof. rewrite box_run_app. destruct (box_run b a) as [b1|]; [eauto | discriminate]. Qed.

Lemma at0_reader ls b b' ps : at0 b ps -> reader_only ls -> box_run b ls = Some b' -> at0 b' ps /\ bx_got b' = bx_got b.
Proof.
  intros (G & L & E & P) F R. destruct (reader_keeps _ _ _ F R) as (A & B & C).
  split; [|exact B]. split; [apply (good_run _ _ _ G R)|]. split; [congruence|]. split; [congruence|].
  apply (prefixes_reader _ _ _ _ G F R P).
Qed.

Lemma read_clear_inv ls : read_clear ls -> forall b b' ps, at0 b ps -> box_run b ls = Some b' -> exists ps', at0 b' ps'.
Proof.
  induction 1 as [ls F | r1 r2 r3 ls F1 F2 F3 _ IH]; intros b b' ps I R.
  - exists ps. apply (at0_reader _ _ _ _ I F R).
  - apply run_split in R as (b1 & R1 & R). destruct (at0_reader _ _ _ _ I F1 R1) as [I1 _].
    apply step_split in R as (b2 & S2 & R).
    assert (I2 : at0 b2 ps /\ bx_got b2 = Some (length ps)).
    { destruct I1 as (G & L & E & P). pose proof (good_step _ _ _ G S2) as [G2 _]. injection S2 as <-.
      split; [split; [exact G2 | split; [exact L | split; [exact E | exact P]]]|]. cbn. unfold current. f_equal. lia. }
    destruct I2 as [I2 O2]. apply run_split in R as (b3 & R3 & R). destruct (at0_reader _ _ _ _ I2 F2 R3) as [(G3 & L3 & E3 & P3) O3].
    apply step_split in R as (b4 & S4 & R).
    destruct (prefixes_look _ _ ps P3 (eq_trans O3 O2) S4) as (P4 & E4 & L4 & _). specialize (E4 E3).
    pose proof (good_step _ _ _ G3 S4) as [G4 _].
    apply run_split in R as (b5 & R5 & R). destruct (reader_keeps _ _ _ F3 R5) as (L5 & _ & E5).
    pose proof (prefixes_reader _ _ _ _ G4 F3 R5 P4) as P5. pose proof (good_run _ _ _ G4 R5) as [G5 _].
    apply step_split in R as (b6 & S6 & R).
    apply (IH b6 b' (ps ++ [box_list b3 (length ps)])); [|exact R].
    pose proof (good_step _ _ _ G5 S6) as [G6 _]. injection S6 as <-.
    assert (LL : length (bx_lists b5) = length (ps ++ [box_list b3 (length ps)])) by (rewrite L5, L4, L3, app_length; cbn; lia).
    split; [exact G6|]. cbn. rewrite (app_length (bx_lists b5)), LL. cbn. split; [lia|]. split; [congruence|].
    intros i Li. unfold box_list. cbn. rewrite box_list_clear by lia. apply P5, Li.
Qed.

Lemma at0_new : at0 new_box [].
Proof. split; [exact good_new|]. split; [reflexivity|]. split; [reflexivity|]. intros i L; cbn in L; lia. Qed.

Lemma at0_sub b ps ls : at0 b ps -> concat (bx_lists b) ++ held b = box_arrivals ls ->
  subsequence (bx_seen b) (box_arrivals ls).
Proof.
  intros (G & L & E & P) A. rewrite E, <- A, <- (app_nil_r (concat ps)). apply subseq_app; [|apply subseq_nil].
  apply concat_sub; [lia | exact P].
Qed.

Lemma read_clear_sub ls b : read_clear ls -> box_run new_box ls = Some b -> subsequence (bx_seen b) (box_arrivals ls).
Proof.
  intros RC R. destruct (read_clear_inv _ RC _ _ _ at0_new R) as [ps I]. eapply at0_sub; [exact I | apply box_order, R].
Qed.

(** rounds: swap_read *)
Lemma swap_round r1 r2 r3 b b' ps : reader_only r1 -> reader_only r2 -> reader_only r3 -> at0 b ps ->
  box_run b (r1 ++ BGet :: r2 ++ BClear :: r3 ++ [BLook]) = Some b' ->
  exists b1, box_run b (r1 ++ BGet :: r2 ++ BClear :: r3) = Some b1 /\ good b1
    /\ at0 b' (ps ++ [box_list b1 (length ps)]) /\ bx_lists b' = bx_lists b1 /\ bx_reader b' = bx_reader b1
    /\ length (bx_lists b1) = S (S (length ps)).
Proof.
  intros F1 F2 F3 I R.
  replace (r1 ++ BGet :: r2 ++ BClear :: r3 ++ [BLook]) with ((r1 ++ BGet :: r2 ++ BClear :: r3) ++ [BLook]) in R
    by (rewrite <- app_assoc; cbn; rewrite <- app_assoc; reflexivity).
  apply run_split in R as (bl & R & RL). exists bl. split; [exact R|].
  apply run_split in R as (b1 & R1 & R). destruct (at0_reader _ _ _ _ I F1 R1) as [I1 _].
  apply step_split in R as (b2 & S2 & R).
  assert (I2 : at0 b2 ps /\ bx_got b2 = Some (length ps)).
  { destruct I1 as (G & L & E & P). pose proof (good_step _ _ _ G S2) as [G2 _]. injection S2 as <-.
    split; [split; [exact G2 | split; [exact L | split; [exact E | exact P]]]|]. cbn. unfold current. f_equal. lia. }
  destruct I2 as [I2 O2]. apply run_split in R as (b3 & R3 & R). destruct (at0_reader _ _ _ _ I2 F2 R3) as [(G3 & L3 & E3 & P3) O3].
  apply step_split in R as (b4 & S4 & R). pose proof (good_step _ _ _ G3 S4) as [G4 _]. injection S4 as <-.
  assert (P4 : prefixes ps (mkBox (bx_lists b3 ++ [[]]) (bx_reader b3) (bx_got b3) (bx_seen b3))).
  { intros i Li. unfold box_list. cbn. rewrite box_list_clear by lia. apply P3, Li. }
  pose proof (prefixes_reader _ _ _ _ G4 F3 R P4) as P5. pose proof (good_run _ _ _ G4 R) as [G5 _].
  destruct (reader_keeps _ _ _ F3 R) as (L5 & O5 & E5). cbn in L5, O5, E5. rewrite app_length in L5. cbn in L5.
  apply step_split in RL as (b6 & S6 & RL). injection RL as <-.
  assert (O : bx_got bl = Some (length ps)) by congruence.
  destruct (prefixes_look _ _ ps P5 O S6) as (P6 & E6 & L6 & R6 & _).
  split; [exact G5|]. split; [|split; [exact L6|split; [exact R6 | lia]]].
  pose proof (good_step _ _ _ G5 S6) as [G6 _].
  split; [exact G6|]. rewrite L6, app_length. cbn. split; [lia|]. split; [apply E6; congruence | exact P6].
Qed.

Lemma regroup (r1 r2 r3 : list BoxLabel) ls :
  r1 ++ BGet :: r2 ++ BClear :: r3 ++ BLook :: ls = (r1 ++ BGet :: r2 ++ BClear :: r3 ++ [BLook]) ++ ls.
Proof. rewrite <- app_assoc. cbn. rewrite <- app_assoc. cbn. rewrite <- app_assoc. reflexivity. Qed.

(** old lists in a run: transported relation *)
Lemma close_run ls b b' ps : good b -> length ps <= current b -> box_run b ls = Some b' -> close ps b -> close ps b'.
Proof.
  intros G L R C i Li. destruct (old_run ls b b' i G ltac:(lia) R) as [[E P] | (x & RX & E & P)].
  - destruct (C i Li) as [E0 | [N (x & E0)]]; [left; congruence|]. right. split; [|exists x; congruence].
    intros Q. apply N. pose proof (P Q) as Q1. destruct Q as [z Q]. exists z. congruence.
  - destruct (C i Li) as [E0 | [N _]]; [right; split; [exact P | exists x; congruence] | exfalso; apply N; exists x; exact RX].
Qed.
Lemma exact_run ls b b' ps : good b -> length ps <= current b -> box_run b ls = Some b' -> exact_ ps b -> exact_ ps b'.
Proof.
  intros G L R C i Li. destruct (C i Li) as [E0 N]. destruct (old_run ls b b' i G ltac:(lia) R) as [[E P] | (x & RX & E & P)].
  - split; [congruence|]. intros Q. apply N. pose proof (P Q) as Q1. destruct Q as [z Q]. exists z. congruence.
  - exfalso; apply N; exists x; exact RX.
Qed.

Lemma looks_app a b : looks (a ++ b) = looks a + looks b.
Proof. unfold looks. rewrite filter_app, app_length. reflexivity. Qed.
Lemma looks_reader ls : reader_only ls -> looks ls = 0.
Proof. induction 1 as [|l ls H _ IH]; [reflexivity|]. destruct l; try destruct H; exact IH. Qed.

Lemma swap_inv ls : swap_read ls -> forall b b' ps, at0 b ps -> close ps b -> box_run b ls = Some b' ->
  exists ps', at0 b' ps' /\ close ps' b' /\ length ps' = length ps + looks ls.
Proof.
  induction 1 as [ls F | r1 r2 r3 ls F1 F2 F3 _ IH]; intros b b' ps I C R.
  - exists ps. split; [apply (at0_reader _ _ _ _ I F R)|]. rewrite looks_reader by exact F.
    split; [|lia]. apply (close_run _ _ _ _ (proj1 I) (at0_current _ _ I) R C).
  - rewrite regroup in R. apply run_split in R as (b1 & R1 & R).
    destruct (swap_round _ _ _ _ _ _ F1 F2 F3 I R1) as (bl & RL & GL & I1 & L1 & R1' & LL).
    assert (C1 : close (ps ++ [box_list bl (length ps)]) b1).
    { pose proof (close_run _ _ _ _ (proj1 I) (at0_current _ _ I) RL C) as CL.
      intros i Li. rewrite app_length in Li. cbn in Li. rewrite nth_snoc. unfold box_list, pend. rewrite L1, R1'.
      destruct (Nat.eqb_spec i (length ps)) as [->|N]; [left; reflexivity|]. apply CL. lia. }
    destruct (IH _ _ _ I1 C1 R) as (ps' & I' & C' & LP). exists ps'. split; [exact I'|]. split; [exact C'|].
    change (r1 ++ BGet :: r2 ++ BClear :: r3 ++ BLook :: ls) with (r1 ++ [BGet] ++ r2 ++ [BClear] ++ r3 ++ [BLook] ++ ls).
    rewrite LP, app_length, !looks_app, (looks_reader r1), (looks_reader r2), (looks_reader r3) by assumption. cbn. lia.
Qed.

Lemma concat_close (ps : list (list Msg)) : forall h : list (list Msg), length h = S (length ps) ->
  (forall i, i < length ps -> length (nth i h []) <= S (length (nth i ps []))) ->
  length (concat h) <= length (concat ps) + length ps + length (nth (length ps) h []).
Proof.
  induction ps as [|p ps IH]; intros [|l h] L H; cbn in L; try lia.
  - destruct h; [|cbn in L; lia]. cbn. rewrite app_nil_r. lia.
  - cbn. rewrite !app_length. specialize (IH h ltac:(lia) (fun i Li => H (S i) ltac:(cbn; lia))).
    specialize (H 0 ltac:(cbn; lia)). cbn in H. cbn in IH. lia.
Qed.

Lemma swap_lost ls b : swap_read ls -> box_run new_box ls = Some b ->
  subsequence (bx_seen b) (box_arrivals ls)
  /\ length (box_arrivals ls) <= length (bx_seen b) + length (waiting b) + length (held b) + looks ls.
Proof.
  intros SR R. destruct (swap_inv _ SR _ _ _ at0_new ltac:(intros i L; cbn in L; lia) R) as (ps & I & C & LP).
  pose proof (box_order _ _ R) as O. split; [eapply at0_sub; eassumption|].
  destruct I as (G & L & E & P). rewrite <- O, app_length, E. cbn in LP. rewrite <- LP.
  unfold waiting, current, box_list. rewrite L. cbn [pred].
  pose proof (concat_close ps (bx_lists b) L) as H. lapply H; [clear; lia|].
  intros i Li. destruct (C i Li) as [Q | [_ (x & Q)]]; unfold box_list in Q; rewrite Q, ?app_length; cbn [length]; lia.
Qed.

(** nothing lost *)
Lemma concat_exact (ps : list (list Msg)) : forall h : list (list Msg), length h = S (length ps) ->
  (forall i, i < length ps -> nth i h [] = nth i ps []) -> concat h = concat ps ++ nth (length ps) h [].
Proof.
  induction ps as [|p ps IH]; intros [|l h] L H; cbn in L; try lia.
  - destruct h; [|cbn in L; lia]. cbn. apply app_nil_r.
  - cbn. rewrite (IH h) by (try lia; intros i Li; apply (H (S i)); cbn; lia).
    rewrite app_assoc. f_equal. f_equal. apply (H 0). cbn; lia.
Qed.
Lemma exact_done ls b ps : at0 b ps -> exact_ ps b -> concat (bx_lists b) ++ held b = box_arrivals ls ->
  bx_seen b ++ waiting b ++ held b = box_arrivals ls.
Proof.
  intros (G & L & E & P) C O. rewrite <- O, app_assoc. f_equal. rewrite E. unfold waiting, current, box_list. rewrite L. cbn [pred].
  symmetry. apply concat_exact; [exact L|]. intros i Li. apply (C i Li).
Qed.

Lemma careful_inv b ls : careful b ls -> forall b' ps, at0 b ps -> exact_ ps b -> box_run b ls = Some b' ->
  exists ps', at0 b' ps' /\ exact_ ps' b'.
Proof.
  induction 1 as [b ls F | b r1 r2 b1 b2 ls F1 F2 R1 RI R2 _ IH]; intros b' ps I C R.
  - exists ps. split; [apply (at0_reader _ _ _ _ I F R)|].
    apply (exact_run _ _ _ _ (proj1 I) (at0_current _ _ I) R C).
  - rewrite box_run_app, R1, box_run_app, R2 in R.
    assert (H : at0 b2 (ps ++ [box_list b1 (length ps)]) /\ exact_ (ps ++ [box_list b1 (length ps)]) b2); [|destruct H; eapply IH; eassumption].
    pose proof (exact_run _ _ _ _ (proj1 I) (at0_current _ _ I) R1 C) as C1.
    apply run_split in R1 as (a1 & Q1 & R1). destruct (at0_reader _ _ _ _ I F1 Q1) as [I1 _].
    apply step_split in R1 as (a2 & S2 & R1).
    assert (I2 : at0 a2 ps /\ bx_got a2 = Some (length ps)).
    { destruct I1 as (G & L & E & P). pose proof (good_step _ _ _ G S2) as [G2 _]. injection S2 as <-.
      split; [split; [exact G2 | split; [exact L | split; [exact E | exact P]]]|]. cbn. unfold current. f_equal. lia. }
    destruct I2 as [I2 O2]. destruct (at0_reader _ _ _ _ I2 F2 R1) as [(G3 & L3 & E3 & P3) O3].
    apply step_split in R2 as (a4 & S4 & R2).
    destruct (prefixes_look _ _ ps P3 (eq_trans O3 O2) S4) as (P4 & E4 & L4 & R4 & _). specialize (E4 E3).
    pose proof (good_step _ _ _ G3 S4) as [G4 _].
    apply step_split in R2 as (a5 & S5 & R5). injection R5 as ->.
    pose proof (good_step _ _ _ G4 S5) as [G5 _]. injection S5 as <-.
    assert (LL : length (bx_lists a4) = length (ps ++ [box_list b1 (length ps)])) by (rewrite L4, L3, app_length; cbn; lia).
    split.
    + split; [exact G5|]. cbn. rewrite (app_length (bx_lists a4)), LL. cbn. split; [lia|]. split; [exact E4|].
      intros i Li. unfold box_list. cbn. rewrite box_list_clear by lia. apply P4, Li.
    + intros i Li. unfold box_list, pend. cbn. rewrite box_list_clear by lia. rewrite R4, RI. split; [|intros [z Z]; discriminate Z].
      unfold box_list. rewrite L4, nth_snoc. rewrite app_length in Li. cbn in Li.
      destruct (Nat.eqb_spec i (length ps)) as [->|N]; [reflexivity|]. apply C1. lia.
Qed.
Lemma careful_all ls b : careful new_box ls -> box_run new_box ls = Some b ->
  bx_seen b ++ waiting b ++ held b = box_arrivals ls.
Proof.
  intros C R. destruct (careful_inv _ _ C _ _ at0_new ltac:(intros i L; cbn in L; lia) R) as (ps & I & X).
  eapply exact_done; [exact I | exact X | apply box_order, R].
Qed.

Lemma reader_only_app a b : reader_only a -> reader_only b -> reader_only (a ++ b).
Proof. intros; apply Forall_app; auto. Qed.

Lemma patient_inv b ls : patient b ls -> forall b' ps, at0 b ps -> exact_ ps b -> box_run b ls = Some b' ->
  exists ps', at0 b' ps' /\ exact_ ps' b'.
Proof.
  induction 1 as [b ls F | b r1 r2 r3 r4 b1 b2 ls F1 F2 F3 F4 R1 RI R2 _ IH]; intros b' ps I C R.
  - exists ps. split; [apply (at0_reader _ _ _ _ I F R)|].
    apply (exact_run _ _ _ _ (proj1 I) (at0_current _ _ I) R C).
  - rewrite box_run_app, R1, box_run_app, R2 in R.
    assert (RR : box_run b (r1 ++ BGet :: r2 ++ BClear :: (r3 ++ r4) ++ [BLook]) = Some b2).
    { replace (r1 ++ BGet :: r2 ++ BClear :: (r3 ++ r4) ++ [BLook]) with ((r1 ++ BGet :: r2 ++ BClear :: r3) ++ (r4 ++ [BLook]))
        by (rewrite <- !app_assoc; cbn; rewrite <- !app_assoc; reflexivity).
      rewrite box_run_app, R1. exact R2. }
    destruct (swap_round _ _ _ _ _ _ F1 F2 (reader_only_app _ _ F3 F4) I RR) as (bl & RL & GL & I1 & L1 & RD & LL).
    assert (H : exact_ (ps ++ [box_list bl (length ps)]) b2); [|eapply IH; eassumption].
    replace (r1 ++ BGet :: r2 ++ BClear :: (r3 ++ r4)) with ((r1 ++ BGet :: r2 ++ BClear :: r3) ++ r4) in RL
      by (rewrite <- !app_assoc; cbn; rewrite <- !app_assoc; reflexivity).
    pose proof (exact_run _ _ _ _ (proj1 I) (at0_current _ _ I) RL C) as CL.
    rewrite box_run_app, R1 in RL.
    pose proof (good_run _ _ _ (proj1 I) R1) as [G1 _].
    destruct (reader_keeps _ _ _ F4 RL) as (K & _ & _).
    intros i Li. rewrite app_length in Li. cbn in Li. rewrite nth_snoc. unfold box_list, pend. rewrite L1, RD.
    destruct (Nat.eqb_spec i (length ps)) as [->|N]; [|apply CL; lia]. split; [reflexivity|].
    intros Q. destruct (old_run _ _ _ (length ps) G1 ltac:(unfold current; lia) RL) as [[_ P] | (x & X & _)]; [|congruence].
    specialize (P Q). destruct Q as [z Q]. congruence.
Qed.
Lemma patient_all ls b : patient new_box ls -> box_run new_box ls = Some b ->
  bx_seen b ++ waiting b ++ held b = box_arrivals ls.
Proof.
  intros C R. destruct (patient_inv _ _ C _ _ at0_new ltac:(intros i L; cbn in L; lia) R) as (ps & I & X).
  eapply exact_done; [exact I | exact X | apply box_order, R].
Qed.

(** losses *)
Lemma read_clear_loses : exists ls b, read_clear ls /\ box_run new_box ls = Some b
  /\ bx_reader b = BIdle /\ box_arrivals ls = [MInt 0; MInt 1] /\ bx_seen b = [MInt 0] /\ waiting b = [].
Proof.
  exists ([BArrive (MInt 0); BReader; BReader] ++ BGet :: [] ++ BLook :: [BArrive (MInt 1); BReader; BReader] ++ BClear :: []).
  exists (mkBox [[MInt 0; MInt 1]; []] BIdle (Some 0) [MInt 0]). split.
  - apply polls_round; try (repeat constructor). 
  - split; [reflexivity|]. repeat split.
Qed.
Lemma swap_read_loses : exists ls b, swap_read ls /\ box_run new_box ls = Some b
  /\ bx_reader b = BIdle /\ box_arrivals ls = [MInt 0; MInt 1] /\ bx_seen b = [MInt 0] /\ waiting b = [].
Proof.
  exists ([BArrive (MInt 0); BReader; BReader; BArrive (MInt 1); BReader] ++ BGet :: [] ++ BClear :: [] ++ BLook :: [BReader]).
  exists (mkBox [[MInt 0; MInt 1]; []] BIdle (Some 0) [MInt 0]). split.
  - apply polls_round; try (repeat constructor).
  - split; [reflexivity|]. repeat split.
Qed.
