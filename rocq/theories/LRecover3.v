(** Intact frames and damage in any order. *)
From Coq Require Import ZifyBool ZifyNat.
From Verif Require Export LRecover2.

Lemma line_bytes skip l : line_ok skip l -> Forall is_byte (on_line l).
Proof.
  induction l as [|[x|d] l IH]; intros H; [constructor | |]; cbn [on_line flat_map piece_bytes]; apply Forall_app.
  - destruct H as [H1 H2]. split; [eapply sent_frame_bytes; exact H1 | apply IH; exact H2].
  - destruct H as (Fd & _ & _ & _ & H2). split; [exact Fd | apply IH; exact H2].
Qed.
Lemma drop_piece w : w = [] \/ (exists q, w = 192 :: q) -> forall d r z, r ++ z = d ++ w ->
  exists pre d', d = pre ++ d' /\ drop_c0 r ++ z = d' ++ w.
Proof.
  intros Hw. induction d as [|x d IH]; intros r z E; cbn [app] in E.
  - exists [], []. split; [reflexivity|]. destruct r as [|y r]; [exact E|]. cbn [drop_c0].
    destruct Hw as [-> | (q & ->)]; [discriminate|]. injection E as -> E. cbn [Z.eqb]. rewrite <- E. reflexivity.
  - destruct r as [|y r]; [exists [], (x :: d); split; [reflexivity | exact E]|].
    cbn [app] in E. injection E as -> E. cbn [drop_c0]. destruct (x =? 192).
    + exists [], (x :: d). split; [reflexivity|]. cbn [app]. rewrite E. reflexivity.
    + destruct (IH r z E) as (pre & d' & -> & D). exists (x :: pre), d'. split; [reflexivity | exact D].
Qed.
Lemma damaged_suffix skip pre d r : line_ok skip (Damaged (pre ++ d) :: r) -> line_ok skip (Damaged d :: r).
Proof.
  intros (F & H & S & W & L). apply Forall_app in F.
  exact (conj (proj2 F) (conj (harmless_suffix pre d _ H) (conj (settled_suffix pre d _ S) (conj W L)))).
Qed.

Lemma runs_line lib skip : forall n l y z, (length y + length l <= n)%nat -> line_ok skip l -> y ++ z = on_line l ->
  exists l1 l2 es cs pd fin, intact l = l1 ++ intact l2 /\ line_ok skip l2
    /\ fin ++ z = on_line l2 /\ runs lib skip y (delivered l1) es cs pd false fin
    /\ Forall (fun e => pe_exn e = ParseError) es
    /\ (z = [] -> fin = [] /\ intact l2 = []).
Proof.
  induction n as [|n IH]; intros l y z Ln Hl E.
  - destruct y as [|b r]; [|cbn [length] in Ln; lia]. destruct l as [|x l]; [|cbn [length] in Ln; lia].
    exists [], [], [], [], 0, []. cbn in E. subst z.
    refine (conj eq_refl (conj Hl (conj eq_refl (conj _ (conj _ _))))); auto; constructor.
  - destruct l as [|[x|d] l].
    + cbn [on_line flat_map] in E. apply app_eq_nil in E. destruct E as [-> ->].
      exists [], [], [], [], 0, []. refine (conj eq_refl (conj Hl (conj eq_refl (conj _ (conj _ _))))); auto; constructor.
    + destruct Hl as [Hx Hl]. cbn [on_line flat_map piece_bytes] in E. fold (on_line l) in E.
      destruct (app_split _ _ _ _ E) as [(e & Es & ->) | (e & -> & Ed)].
      * (* the frame is not complete in [y], or just complete *)
        destruct e as [|e0 e'].
        -- rewrite app_nil_r in Es. cbn [app] in *. subst y.
           exists [x], l, [], [s_counter x], (8 * zlen (sent_frame x) + 0), [].
           refine (conj eq_refl (conj Hl (conj eq_refl (conj _ (conj _ _))))).
           ++ cbn [delivered map]. rewrite <- (app_nil_r (sent_frame x)) at 1. apply runs_sent; [exact Hx | constructor | constructor].
           ++ constructor.
           ++ intros Z0. split; [reflexivity|]. destruct (intact l) as [|u v] eqn:El; [reflexivity|]. exfalso.
              clear - Z0 El. induction l as [|[a|a] l IH]; cbn [on_line intact flat_map piece_bytes app] in *; [discriminate | |].
              ** destruct (sent_frame_head a) as (q & Eq). rewrite Eq in Z0. discriminate.
              ** apply app_eq_nil in Z0. apply IH; tauto.
        -- destruct y as [|y0 y'].
           ++ exists [], (Intact x :: l), [], [], 0, []. cbn [app] in *.
              refine (conj eq_refl (conj (conj Hx Hl) (conj _ (conj _ (conj _ _))))).
              ** cbn [on_line flat_map piece_bytes]. rewrite Es. reflexivity.
              ** constructor.
              ** constructor.
              ** discriminate.
           ++ exists [], (Intact x :: l), [], (olist (@None Z)), 0, (y0 :: y').
              refine (conj eq_refl (conj (conj Hx Hl) (conj E (conj _ (conj _ _))))); [|constructor | discriminate].
              destruct Hx as (Bc & Bt & P & _).
              eapply runs_wait; [discriminate | apply (partial_frame skip (s_counter x) (s_type x) (s_payload x) (y0 :: y') (e0 :: e')); assumption || discriminate | reflexivity].
      * symmetry in Ed. assert (Lf : (7 <= length (sent_frame x))%nat).
        { unfold sent_frame. rewrite frame_length. lia. }
        rewrite app_length in Ln. cbn [length] in Ln.
        destruct (IH l e z ltac:(lia) Hl Ed) as (l1 & l2 & es & cs & pd & fin & El & H2 & Ef & R & Fe & Z).
        exists (x :: l1), l2, es, (s_counter x :: cs), (8 * zlen (sent_frame x) + pd), fin.
        refine (conj _ (conj H2 (conj Ef (conj _ (conj Fe Z))))).
        -- cbn [intact flat_map app]. fold (intact l). rewrite El. reflexivity.
        -- cbn [delivered map]. apply runs_sent; [exact Hx | | exact R].
           assert (Fw : Forall is_byte (e ++ z)) by (rewrite Ed; eapply line_bytes; eassumption).
           apply Forall_app in Fw. tauto.
    + pose proof Hl as Hl'. destruct Hl' as (Fd & Hh & Hs & Hw & Hl2).
      cbn [on_line flat_map piece_bytes] in E. fold (on_line l) in E.
      destruct d as [|x d].
      { cbn [app length] in *. destruct (IH l y z ltac:(lia) Hl2 E) as (l1 & l2 & es & cs & pd & fin & El & H2 & Ef & R & Fe & Z).
        exists l1, l2, es, cs, pd, fin. exact (conj El (conj H2 (conj Ef (conj R (conj Fe Z))))). }
      destruct y as [|b r].
      { exists [], (Damaged (x :: d) :: l), [], [], 0, []. cbn [app] in E.
        refine (conj eq_refl (conj Hl (conj E (conj _ (conj _ _))))); try constructor.
        - reflexivity.
        - subst. discriminate. }
      assert (Fa : Forall is_byte ((b :: r) ++ z)).
      { rewrite E. apply Forall_app. split; [exact Fd | eapply line_bytes; exact Hl2]. }
      apply Forall_app in Fa. destruct Fa as [Fy _].
      assert (Ns : ~ starts_frame (b :: r)).
      { intros S. apply (Hh [] (x :: d) eq_refl ltac:(discriminate)). rewrite <- E. apply starts_frame_app. exact S. }
      destruct (attempt_damage skip b r Fy Ns) as [[U A]|[o A]].
      * exists [], (Damaged (x :: d) :: l), [], (olist (@None Z)), 0, (b :: r).
        refine (conj eq_refl (conj Hl (conj E (conj _ (conj _ _))))).
        -- eapply runs_wait; [discriminate | exact A | reflexivity].
        -- constructor.
        -- intros ->. exfalso. rewrite app_nil_r in E. apply (Hs [] (x :: d) eq_refl ltac:(discriminate)). rewrite <- E. exact U.
      * cbn [app] in E. injection E as -> E. destruct (drop_piece _ Hw d r z E) as (pre & d1 & -> & D).
        cbn [length] in Ln. pose proof (drop_c0_length r) as Ld.
        pose proof (damaged_suffix skip (x :: pre) d1 l Hl) as Hl1.
        destruct (IH (Damaged d1 :: l) (drop_c0 r) z ltac:(cbn [length]; lia) Hl1 D)
          as (l1 & l2 & es & cs & pd & fin & El & H2 & Ef & R & Fe & Z).
        exists l1, l2, (mkPErr ParseError (snd (skip_bad (x :: r))) :: es), (olist o ++ cs), pd, fin.
        refine (conj El (conj H2 (conj Ef (conj _ (conj _ Z))))).
        -- eapply runs_skip; [discriminate | exact A | reflexivity | reflexivity |]. rewrite skip_bad_buf. exact R.
        -- constructor; [reflexivity | exact Fe].
Qed.

Lemma recover_line lib chunks : forall p l, line_ok (sp_skip p) l ->
  sp_buf p ++ concat chunks = on_line l -> chunks <> [] ->
  exists p' es, feeds lib p chunks p' (delivered (intact l)) es /\ sp_buf p' = []
    /\ Forall (fun e => pe_exn e = ParseError) es.
Proof.
  induction chunks as [|c cs IH]; intros p l Hl E Hn; [congruence|].
  cbn [concat] in E. rewrite app_assoc in E.
  destruct (runs_line lib (sp_skip p) _ l (sp_buf p ++ c) (concat cs) (le_n _) Hl E)
    as (l1 & l2 & es & ks & pd & fin & El & H2 & Ef & R & Fe & Z).
  assert (Fall : Forall is_byte ((sp_buf p ++ c) ++ concat cs)) by (rewrite E; eapply line_bytes; exact Hl).
  apply Forall_app in Fall. destruct Fall as [Fbc _]. apply Forall_app in Fbc. destruct Fbc as [Fb Fc].
  pose proof (sparse_runs _ _ _ _ _ _ _ _ _ Fb Fc R) as S. cbv iota in S.
  set (p1 := set_buf (with_counters p ks) fin) in *.
  assert (Sk : sp_skip p1 = sp_skip p) by apply set_counters_skip.
  assert (Sb : sp_buf p1 = fin) by reflexivity.
  rewrite El. unfold delivered. rewrite map_app. destruct cs as [|c2 cs].
  - destruct (Z eq_refl) as [-> ->]. exists p1, es. split; [|split; [exact Sb | exact Fe]].
    rewrite <- (app_nil_r es). cbn [map].
    apply (feeds_cons lib p c p1 (mkPR (delivered l1) pd (8 * zlen (@nil Z.t)) es) [] p1 [] []); [exact S | constructor].
  - destruct (IH p1 l2) as (p' & es2 & Fd & Sf & Fe2); [rewrite Sk; exact H2 | rewrite Sb; exact Ef | discriminate |].
    exists p', (es ++ es2). split; [|split; [exact Sf | apply Forall_app; auto]].
    apply (feeds_cons lib p c p1 (mkPR (delivered l1) pd (8 * zlen fin) es) (c2 :: cs) p' (delivered (intact l2)) es2); [exact S | exact Fd].
Qed.
(** two intact frames, between them one that lost its last byte *)
Lemma pieces_case : line_ok true [Intact (mkSent 6 1 [4; 192] (MRaw [4; 192])); Damaged [192; 0; 7; 1; 3; 173; 173; 1; 2];
  Intact (mkSent 8 1 [9] (MRaw [9]))].
Proof.
  pose proof cut_case as [H S].
  assert (P : forall c l, is_byte c -> is_payload l -> sent_ok true (mkSent c 1 l (MRaw l))).
  { intros c l Bc Pl. refine (conj Bc (conj _ (conj Pl _))); [unfold is_byte; cbn; lia|]. intros rest _.
    apply carries_raw; [reflexivity | discriminate | discriminate]. }
  cbn [line_ok]. refine (conj _ (conj _ (conj H (conj S (conj _ (conj _ Logic.I)))))).
  - apply P; [unfold is_byte; lia|]. split; [repeat apply Forall_cons; try apply Forall_nil; unfold is_byte; lia | vm_compute; discriminate].
  - repeat apply Forall_cons; try apply Forall_nil; unfold is_byte; lia.
  - right. eexists. vm_compute. reflexivity.
  - apply P; [unfold is_byte; lia|]. split; [repeat apply Forall_cons; try apply Forall_nil; unfold is_byte; lia | vm_compute; discriminate].
Qed.
