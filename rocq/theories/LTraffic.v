(** Well-formed traffic, located messages, retained bytes, poison frames. *)
From Coq Require Import ZifyBool ZifyNat.
From Verif Require Export LChunk.
Ltac Zify.zify_post_hook ::= Z.div_mod_to_equations.

(** ** A frame carrying a message *)
Lemma carries_body skip t payload rest m k : Forall is_byte (payload ++ rest) -> carries skip t payload rest m k ->
  body_res skip t payload rest = Ok (t, m, (56 + 8 * k)%nat).
Proof.
  intros F C. assert (Fp : Forall is_byte payload) by (apply Forall_app in F; tauto).
  destruct C as [payload rest b r E|payload rest|t payload rest S N4 N5|t payload rest c k S N4 N5 E].
  - rewrite body_rebooted, E by assumption. reflexivity.
  - apply body_raw; auto. lia.
  - apply body_raw; auto.
  - rewrite body_alp, E by auto. reflexivity.
Qed.
Lemma runs_frame lib skip c t payload rest m k ms es cs pd cr fin :
  is_byte c -> is_byte t -> is_payload payload -> Forall is_byte rest -> carries skip t payload rest m k ->
  runs lib skip (skipn k (payload ++ rest)) ms es cs pd cr fin ->
  runs lib skip (frame c t payload ++ rest) ((t, m) :: ms) es (c :: cs) (Z.of_nat (56 + 8 * k) + pd) cr fin.
Proof.
  intros Bc Bt P F C R. pose proof (calc_bytes payload) as [H1 H2].
  change (c :: cs) with (olist (Some c) ++ cs). eapply runs_got.
  - unfold frame. destruct (calculate_crc payload). discriminate.
  - rewrite attempt_frame by assumption. rewrite (carries_body skip t payload rest m k); [reflexivity | | exact C].
    apply Forall_app; split; [apply P | exact F].
  - replace ((56 + 8 * k) / 8)%nat with (7 + k)%nat by lia.
    replace (skipn (7 + k) (frame c t payload ++ rest)) with (skipn k (payload ++ rest)); [exact R|].
    unfold frame. destruct (calculate_crc payload). reflexivity.
Qed.
Lemma sent_frame_bytes skip x : sent_ok skip x -> Forall is_byte (sent_frame x).
Proof. intros (Bc & Bt & P & _). apply frame_bytes; assumption. Qed.
Lemma wire_bytes skip l : Forall (sent_ok skip) l -> Forall is_byte (wire l).
Proof.
  induction 1 as [|x l H Hl IH]; cbn [wire flat_map]; [constructor|]. apply Forall_app. split; [|exact IH].
  eapply sent_frame_bytes; eassumption.
Qed.
Lemma runs_sent lib skip x rest ms es cs pd cr fin : sent_ok skip x -> Forall is_byte rest ->
  runs lib skip rest ms es cs pd cr fin ->
  runs lib skip (sent_frame x ++ rest) ((s_type x, s_msg x) :: ms) es (s_counter x :: cs)
       (8 * zlen (sent_frame x) + pd) cr fin.
Proof.
  intros (Bc & Bt & P & C) F R. unfold sent_frame.
  replace (8 * zlen (frame (s_counter x) (s_type x) (s_payload x))) with (Z.of_nat (56 + 8 * length (s_payload x))).
  - eapply runs_frame; auto. rewrite skipn_app_exact by reflexivity. exact R.
  - unfold zlen. rewrite frame_length. lia.
Qed.
Lemma runs_wire lib skip l rest ms es cs pd cr fin : Forall (sent_ok skip) l -> Forall is_byte rest ->
  runs lib skip rest ms es cs pd cr fin ->
  runs lib skip (wire l ++ rest) (delivered l ++ ms) es (map s_counter l ++ cs) (8 * zlen (wire l) + pd) cr fin.
Proof.
  induction 1 as [|x l H Hl IH]; intros F R; cbn [wire flat_map delivered map app]; [exact R|].
  rewrite <- app_assoc, zlen_app. replace (8 * (zlen (sent_frame x) + zlen (flat_map sent_frame l)) + pd)
    with (8 * zlen (sent_frame x) + (8 * zlen (flat_map sent_frame l) + pd)) by lia.
  apply runs_sent; [exact H | | apply IH; assumption].
  apply Forall_app. split; [eapply wire_bytes; eassumption | exact F].
Qed.
(** every frame is received, whatever the parser state *)
Lemma receive_wire lib p l : Forall (sent_ok (sp_skip p)) l -> sp_buf p = [] ->
  sparse lib p (wire l) = (with_counters p (map s_counter l), Ok (mkPR (delivered l) (8 * zlen (wire l)) 0 [])).
Proof.
  intros F B.
  assert (R : runs lib (sp_skip p) (sp_buf p ++ wire l) (delivered l) [] (map s_counter l) (8 * zlen (wire l)) false []).
  { rewrite B. cbn [app]. rewrite <- (app_nil_r (wire l)) at 1. rewrite <- (app_nil_r (delivered l)), <- (app_nil_r (map s_counter l)).
    replace (8 * zlen (wire l)) with (8 * zlen (wire l) + 0) by lia.
    apply runs_wire; [exact F | constructor | constructor]. }
  rewrite (sparse_runs _ _ _ _ _ _ _ _ _ ltac:(unfold byte_in; rewrite B; constructor) ltac:(eapply wire_bytes; exact F) R).
  f_equal. rewrite <- B, <- (counters_buf (map s_counter l) p). apply set_same.
Qed.

(** ** Garbage before traffic, arbitrary chunks *)
Lemma drop_c0_none g x : no_c0 g -> drop_c0 (g ++ x) = drop_c0 x.
Proof.
  induction 1 as [|b r H Hr IH]; cbn [app drop_c0]; [reflexivity|]. replace (b =? 192) with false by lia. exact IH.
Qed.
Lemma sent_frame_head x : exists r, sent_frame x = 192 :: r.
Proof. unfold sent_frame, frame. destruct (calculate_crc (s_payload x)). eexists. reflexivity. Qed.
Lemma app_split {A} (a b c d : list A) : a ++ b = c ++ d ->
  (exists e, c = a ++ e /\ b = e ++ d) \/ (exists e, a = c ++ e /\ d = e ++ b).
Proof.
  revert c. induction a as [|x a IH]; intros c E; [left; exists c; auto|].
  destruct c as [|y c]; [right; exists (x :: a); auto|]. injection E as -> E.
  destruct (IH c E) as [(e & -> & ->) | (e & -> & ->)]; [left | right]; exists e; auto.
Qed.
(** an incomplete frame is waited for *)
Lemma partial_frame skip c t payload y z : is_byte c -> is_byte t -> is_payload payload ->
  frame c t payload = y ++ z -> y <> [] -> z <> [] -> attempt skip y = (None, Err ReadError).
Proof.
  intros Bc Bt P E Ny Nz. pose proof (frame_bytes c t payload Bc Bt P) as F.
  unfold frame in E. pose proof (calc_bytes payload) as [H1 H2]. destruct (calculate_crc payload) as [a b].
  cbn [fst snd app] in *. rewrite E in *||idtac.
  destruct y as [|y0 y]; [congruence|]. injection E as <- E.
  destruct y as [|y1 y]; [reflexivity|]. injection E as <- E.
  assert (Fy : Forall is_byte y /\ Forall is_byte payload).
  { split; [|apply P]. assert (Fyz : Forall is_byte (y ++ z)).
    { rewrite <- E. repeat apply Forall_cons; try assumption; try apply P.
      pose proof (zlen_nonneg payload). destruct P. unfold is_byte. lia. }
    apply Forall_app in Fyz. tauto. }
  destruct Fy as [Fy Fp].
  destruct (Nat.ltb (length y) 5) eqn:L; [apply attempt_short; [exact Fy | lia]|].
  destruct y as [|y2 [|y3 [|y4 [|y5 [|y6 body]]]]]; cbn [length] in L; try discriminate.
  injection E as <- <- <- <- <- E. destruct P as [_ P]. pose proof (zlen_nonneg payload).
  apply attempt_wait; try assumption.
  - unfold is_byte. lia.
  - repeat match goal with H : Forall _ (_ :: _) |- _ => inversion H; clear H; subst end. assumption.
  - rewrite E, zlen_app. destruct z as [|z0 z]; [congruence|]. rewrite zlen_cons. pose proof (zlen_nonneg z). lia.
Qed.
Lemma runs_prefix lib skip l : Forall (sent_ok skip) l -> forall y z, y ++ z = wire l ->
  exists l1 l2 pd fin, l = l1 ++ l2 /\ fin ++ z = wire l2 /\ 
    runs lib skip y (delivered l1) [] (map s_counter l1) pd false fin /\ (z = [] -> l2 = [] /\ fin = []).
Proof.
  induction 1 as [|x l H Hl IH]; intros y z E; cbn [wire flat_map] in E.
  - apply app_eq_nil in E. destruct E as [-> ->]. exists [], [], 0, []. repeat split. constructor.
  - destruct (app_split _ _ _ _ E) as [(e & Es & ->) | (e & -> & Ed)].
    + destruct e as [|e0 e'].
      * rewrite app_nil_r in Es. cbn [app] in *. subst y.
        destruct (IH [] (wire l) eq_refl) as (l1 & l2 & pd & fin & -> & Ef & R & Z).
        assert (l1 = [] /\ fin = []) as [-> ->].
        { destruct l1 as [|a l1]; inversion R; try congruence; auto. }
        exists [x], l2, (8 * zlen (sent_frame x) + 0), []. refine (conj eq_refl (conj Ef (conj _ Z))).
        cbn [delivered map]. rewrite <- (app_nil_r (sent_frame x)) at 1. apply runs_sent; [exact H | constructor | constructor].
      * destruct y as [|y0 y'].
        -- exists [], (x :: l), 0, []. cbn [app] in *. refine (conj eq_refl (conj _ (conj _ _))).
           ++ cbn [wire flat_map]. rewrite Es. reflexivity.
           ++ constructor.
           ++ discriminate.
        -- exists [], (x :: l), 0, (y0 :: y'). refine (conj eq_refl (conj E (conj _ _))); [|discriminate].
           destruct H as (Bc & Bt & P & _). change (map s_counter []) with (olist (@None Z)).
           eapply runs_wait; [discriminate | apply (partial_frame skip (s_counter x) (s_type x) (s_payload x) (y0 :: y') (e0 :: e')); assumption || discriminate | reflexivity].
    + symmetry in Ed. destruct (IH _ _ Ed) as (l1 & l2 & pd & fin & -> & Ef & R & Z).
      exists (x :: l1), l2, (8 * zlen (sent_frame x) + pd), fin. refine (conj eq_refl (conj Ef (conj _ Z))).
      cbn [delivered map]. apply runs_sent; [exact H | | exact R].
      assert (Fw : Forall is_byte (e ++ z)) by (rewrite Ed; eapply wire_bytes; eassumption).
      apply Forall_app in Fw. tauto.
Qed.
Lemma wire_nil l : wire l = [] -> l = [].
Proof.
  destruct l as [|x l]; [reflexivity|]. cbn [wire flat_map]. destruct (sent_frame_head x) as (r & ->). discriminate.
Qed.
Lemma runs_garbage lib skip l g : Forall (sent_ok skip) l -> no_c0 g -> Forall is_byte g ->
  forall y z, y ++ z = g ++ wire l ->
  exists g' l1 l2 es pd fin, l = l1 ++ l2 /\ no_c0 g' /\ Forall is_byte g' /\ fin ++ z = g' ++ wire l2 /\
    runs lib skip y (delivered l1) es (map s_counter l1) pd false fin
    /\ es = match g, y with _ :: _, _ :: _ => [mkPErr ParseError (Z.min (zlen g) (zlen y))] | _, _ => [] end
    /\ (z = [] -> l2 = [] /\ fin = []).
Proof.
  intros F G Gb y z E. destruct g as [|g0 g1].
  - destruct (runs_prefix lib skip l F y z E) as (l1 & l2 & pd & fin & -> & Ef & R & Z).
    exists [], l1, l2, [], pd, fin. repeat split; auto; try constructor; apply Z; assumption.
  - destruct y as [|y0 y1].
    + exists (g0 :: g1), [], l, [], 0, []. cbn [app] in *. repeat split; auto; try constructor; subst; discriminate.
    + cbn [app] in E. injection E as -> E. inversion G as [|? ? N0 G1]; subst. inversion Gb as [|? ? B0 Gb1]; subst.
      assert (K : forall ms cs pd fin, runs lib skip (drop_c0 y1) ms [] cs pd false fin ->
        runs lib skip (g0 :: y1) ms [mkPErr ParseError (zlen (g0 :: y1) - zlen (drop_c0 y1))] cs pd false fin).
      { intros ms cs pd fin R. rewrite <- skip_bad_count. change cs with (olist (@None Z) ++ cs).
        eapply runs_skip; [discriminate | apply attempt_sync; assumption | reflexivity | reflexivity |].
        rewrite skip_bad_buf. exact R. }
      destruct (app_split _ _ _ _ E) as [(e & Es & ->) | (e & -> & Ed)].
      * assert (Dy : drop_c0 y1 = []).
        { rewrite Es in G1. apply Forall_app in G1. rewrite <- (app_nil_r y1), drop_c0_none by tauto. reflexivity. }
        assert (Ge : no_c0 e /\ Forall is_byte e).
        { rewrite Es in G1, Gb1. apply Forall_app in G1. apply Forall_app in Gb1. tauto. }
        exists e, [], l, [mkPErr ParseError (zlen (g0 :: y1) - zlen (drop_c0 y1))], 0, [].
        refine (conj eq_refl (conj (proj1 Ge) (conj (proj2 Ge) (conj eq_refl (conj _ (conj _ _)))))).
        -- cbn [delivered map]. apply K. rewrite Dy. constructor.
        -- rewrite Dy. change (zlen (@nil Z)) with 0. rewrite !zlen_cons, Es, zlen_app.
           pose proof (zlen_nonneg e). do 2 f_equal. lia.
        -- intros Zz. apply app_eq_nil in Zz. split; [apply wire_nil; tauto | reflexivity].
      * symmetry in Ed. assert (De : drop_c0 (g1 ++ e) = e).
        { rewrite drop_c0_none by exact G1. destruct l as [|x l].
          - cbn [wire flat_map] in Ed. apply app_eq_nil in Ed. destruct Ed as [-> _]. reflexivity.
          - destruct e as [|e0 e1]; [reflexivity|]. cbn [wire flat_map] in Ed.
            destruct (sent_frame_head x) as (r & Er). rewrite Er in Ed. injection Ed as -> _. reflexivity. }
        destruct (runs_prefix lib skip l F e z Ed) as (l1 & l2 & pd & fin & -> & Ef & R & Z).
        exists [], l1, l2, [mkPErr ParseError (zlen (g0 :: g1 ++ e) - zlen (drop_c0 (g1 ++ e)))], pd, fin.
        refine (conj eq_refl (conj _ (conj _ (conj Ef (conj _ (conj _ Z)))))); try constructor.
        -- apply K. rewrite De. exact R.
        -- rewrite De, !zlen_cons, zlen_app. pose proof (zlen_nonneg e). do 2 f_equal. lia.
Qed.
(** any chunking of garbage followed by traffic *)
Lemma feeds_garbage lib chunks : forall p g l,
  Forall (sent_ok (sp_skip p)) l -> no_c0 g -> Forall is_byte g ->
  sp_buf p ++ concat chunks = g ++ wire l -> chunks <> [] ->
  exists es, feeds lib p chunks (set_buf (with_counters p (map s_counter l)) []) (delivered l) es
    /\ Forall (fun e => pe_exn e = ParseError) es /\ (g = [] -> es = []).
Proof.
  induction chunks as [|c cs IH]; intros p g l F G Gb E Hn; [congruence|].
  cbn [concat] in E. rewrite app_assoc in E.
  destruct (runs_garbage lib (sp_skip p) l g F G Gb _ _ E) as (g' & l1 & l2 & es & pd & fin & -> & G' & Gb' & Ef & R & Es & Z).
  assert (Fall : Forall is_byte ((sp_buf p ++ c) ++ concat cs)).
  { rewrite E. apply Forall_app. split; [exact Gb | eapply wire_bytes; exact F]. }
  apply Forall_app in Fall. destruct Fall as [Fbc _]. apply Forall_app in Fbc. destruct Fbc as [Fb Fc].
  pose proof (sparse_runs _ _ _ _ _ _ _ _ _ Fb Fc R) as S. cbv iota in S.
  apply Forall_app in F. destruct F as [F1 F2].
  set (p1 := set_buf (with_counters p (map s_counter l1)) fin) in *.
  assert (Sk : sp_skip p1 = sp_skip p) by apply set_counters_skip.
  assert (Pes : Forall (fun e => pe_exn e = ParseError) es).
  { subst es. destruct g; [constructor|]. destruct (sp_buf p ++ c); repeat constructor. }
  assert (Pnil : g = [] -> es = []) by (intros ->; exact Es).
  assert (Dl : forall a b, delivered (a ++ b) = delivered a ++ delivered b) by (intros; apply map_app).
  destruct cs as [|c2 cs].
  - destruct (Z eq_refl) as [-> ->]. rewrite app_nil_r. exists es. split; [|split; assumption].
    rewrite <- (app_nil_r (delivered l1)), <- (app_nil_r es).
    apply (feeds_cons lib p c p1 (mkPR (delivered l1) pd 0 es) []); [exact S | constructor].
  - destruct (IH p1 g' l2) as (es2 & Fd & P2 & N2); try assumption; [rewrite Sk; exact F2 | discriminate |].
    assert (Gn : g = [] -> g' = []).
    { intros Hg. destruct g' as [|b g']; [reflexivity|]. exfalso. subst g.
      destruct (runs_prefix lib (sp_skip p) (l1 ++ l2) ltac:(apply Forall_app; auto) _ _ E) as (m1 & m2 & pd' & fin' & El & Ef' & R' & _).
      destruct (runs_det _ _ _ _ _ _ _ _ _ R _ _ _ _ _ _ R') as (Q1 & _ & _ & _ & _ & ->).
      rewrite Ef' in Ef. destruct m2 as [|x m2]; [discriminate|]. cbn [wire flat_map] in Ef.
      destruct (sent_frame_head x) as (r & Er). rewrite Er in Ef. injection Ef as <- _. inversion G'. congruence. }
    exists (es ++ es2). split; [|split].
    + rewrite Dl, map_app, counters_app. unfold p1 in Fd. rewrite counters_set, set_set in Fd.
      apply (feeds_cons lib p c p1 (mkPR (delivered l1) pd (8 * zlen fin) es) (c2 :: cs)); [exact S | exact Fd].
    + apply Forall_app; auto.
    + intros Hg. rewrite (Pnil Hg), (N2 (Gn Hg)). reflexivity.
Qed.
