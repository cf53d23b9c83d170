(** Damage before frames. *)
From Coq Require Import ZifyBool ZifyNat.
From Verif Require Export SRecover LLink.

(** one attempt on bytes that start no frame: an error, or waiting *)
Lemma attempt_damage skip b r : Forall is_byte (b :: r) -> ~ starts_frame (b :: r) ->
  (unfinished (b :: r) /\ attempt skip (b :: r) = (None, Err ReadError))
  \/ exists o, attempt skip (b :: r) = (o, Err ParseError).
Proof.
  intros F N. inversion F as [|? ? B Fr]; subst.
  destruct (Z.eq_dec b 192) as [->|Nb]; [|right; exists None; apply attempt_sync; assumption].
  destruct r as [|v r]; [left; split; [constructor | reflexivity]|].
  inversion Fr as [|? ? Bv Fr']; subst.
  destruct (Z.eq_dec v 0) as [->|Nv]; [|right; exists None; apply attempt_version; assumption].
  destruct (Nat.ltb (length r) 5) eqn:L.
  { left. split; [constructor 2; lia | apply attempt_short; [exact Fr' | lia]]. }
  destruct r as [|c [|t [|len [|h [|l body]]]]]; cbn [length] in L; try discriminate.
  assert (Bs : is_byte c /\ is_byte t /\ is_byte len /\ is_byte h /\ is_byte l /\ Forall is_byte body).
  { repeat match goal with H : Forall _ (_ :: _) |- _ => inversion H; clear H; subst end.
    refine (conj _ (conj _ (conj _ (conj _ (conj _ _))))); assumption. }
  destruct Bs as (Bc & Bt & Bl & Bh & Bll & Fb).
  destruct (Z.ltb_spec (zlen body) len) as [W|W].
  { left. split; [constructor 3; exact W | apply attempt_wait; assumption]. }
  right. exists (Some c). unfold is_byte in Bl.
  set (n := Z.to_nat len) in *. rewrite <- (firstn_skipn n body) in N, Fb |- *.
  assert (Ln : zlen (firstn n body) = len).
  { unfold zlen in *. rewrite firstn_length. lia. }
  apply Forall_app in Fb. destruct Fb as [Fp Fk].
  assert (P : is_payload (firstn n body)) by (split; [exact Fp | rewrite Ln; lia]).
  set (payload := firstn n body) in *. set (rest := skipn n body) in *. clearbody payload rest. clear W L. subst len.
  rewrite attempt_full by assumption.
  destruct (Z.eqb_spec (fst (calculate_crc payload)) h) as [E1|E1]; [|reflexivity].
  destruct (Z.eqb_spec (snd (calculate_crc payload)) l) as [E2|E2]; [|reflexivity].
  exfalso. apply N. exists c, t, payload, rest. refine (conj Bc (conj Bt (conj P _))).
  unfold frame. destruct (calculate_crc payload) as [x y]. cbn [fst snd] in E1, E2. subst. reflexivity.
Qed.

Lemma wire_head l x r : wire l = x :: r -> x = 192.
Proof.
  destruct l as [|y l]; [discriminate|]. cbn [wire flat_map]. destruct (sent_frame_head y) as (s & ->).
  intros E. injection E as <- _. reflexivity.
Qed.
(** what is left after dropping to the next C0 *)
Lemma drop_damage l : forall d r z, r ++ z = d ++ wire l ->
  exists pre d', d = pre ++ d' /\ drop_c0 r ++ z = d' ++ wire l.
Proof.
  induction d as [|x d IH]; intros r z E; cbn [app] in E.
  - exists [], []. split; [reflexivity|]. destruct r as [|y r]; [exact E|]. cbn [drop_c0].
    pose proof (wire_head l y (r ++ z) (eq_sym E)) as ->. exact E.
  - destruct r as [|y r]; [exists [], (x :: d); split; [reflexivity | exact E]|].
    cbn [app] in E. injection E as -> E. cbn [drop_c0]. destruct (x =? 192).
    + exists [], (x :: d). split; [reflexivity|]. cbn [app]. rewrite E. reflexivity.
    + destruct (IH r z E) as (pre & d' & -> & D). exists (x :: pre), d'. split; [reflexivity | exact D].
Qed.
Lemma harmless_suffix pre d w : harmless (pre ++ d) w -> harmless d w.
Proof. intros H q d' -> N. apply (H (pre ++ q) d'); [apply app_assoc | exact N]. Qed.
Lemma settled_suffix pre d w : settled (pre ++ d) w -> settled d w.
Proof. intros H q d' -> N. apply (H (pre ++ q) d'); [apply app_assoc | exact N]. Qed.
Lemma harmless_nil w : harmless [] w.
Proof. intros pre d' E N. symmetry in E. apply app_eq_nil in E. tauto. Qed.
Lemma settled_nil w : settled [] w.
Proof. intros pre d' E N. symmetry in E. apply app_eq_nil in E. tauto. Qed.
Lemma starts_frame_app l z : starts_frame l -> starts_frame (l ++ z).
Proof.
  intros (c & t & p & rest & Bc & Bt & P & ->). exists c, t, p, (rest ++ z).
  refine (conj Bc (conj Bt (conj P _))). symmetry. apply app_assoc.
Qed.

(** the receive loop on a part [y] of damage and traffic *)
Lemma runs_damage lib skip l : Forall (sent_ok skip) l -> forall n d y z, (length y <= n)%nat ->
  Forall is_byte d -> harmless d (wire l) -> y ++ z = d ++ wire l ->
  exists pre d' l1 l2 es cs pd fin, d = pre ++ d' /\ l = l1 ++ l2 /\ (d' = [] \/ l1 = [])
    /\ fin ++ z = d' ++ wire l2 /\ runs lib skip y (delivered l1) es cs pd false fin
    /\ Forall (fun e => pe_exn e = ParseError) es
    /\ (z = [] -> fin = [] \/ unfinished fin).
Proof.
  intros F. induction n as [|n IH]; intros d y z Ln Fd Hd E.
  - destruct y as [|b r]; [|cbn [length] in Ln; lia]. exists [], d, [], l, [], [], 0, [].
    refine (conj eq_refl (conj eq_refl (conj (or_intror eq_refl) (conj E (conj _ (conj _ _)))))); auto; constructor.
  - destruct d as [|x d].
    { cbn [app] in E. destruct (runs_prefix lib skip l F y z E) as (l1 & l2 & pd & fin & El & Ef & R & Z).
      exists [], [], l1, l2, [], (map s_counter l1), pd, fin.
      refine (conj eq_refl (conj El (conj (or_introl eq_refl) (conj Ef (conj R (conj _ _)))))); [constructor|].
      intros Hz. left. apply Z. exact Hz. }
    destruct y as [|b r].
    { exists [], (x :: d), [], l, [], [], 0, [].
      refine (conj eq_refl (conj eq_refl (conj (or_intror eq_refl) (conj E (conj _ (conj _ _)))))); auto; constructor. }
    assert (Fa : Forall is_byte ((b :: r) ++ z)).
    { rewrite E. apply Forall_app. split; [exact Fd | eapply wire_bytes; exact F]. }
    apply Forall_app in Fa. destruct Fa as [Fy _].
    assert (Ns : ~ starts_frame (b :: r)).
    { intros S. apply (Hd [] (x :: d) eq_refl ltac:(discriminate)). rewrite <- E. apply starts_frame_app. exact S. }
    destruct (attempt_damage skip b r Fy Ns) as [[U A]|[o A]].
    + exists [], (x :: d), [], l, [], (olist (@None Z)), 0, (b :: r).
      refine (conj eq_refl (conj eq_refl (conj (or_intror eq_refl) (conj E (conj _ (conj _ _)))))).
      * eapply runs_wait; [discriminate | exact A | reflexivity].
      * constructor.
      * intros _. right. exact U.
    + cbn [app] in E. injection E as -> E. destruct (drop_damage l d r z E) as (pre & d1 & -> & D).
      cbn [length] in Ln. pose proof (drop_c0_length r) as Ld.
      inversion Fd as [|? ? Bx Fd0]; subst. apply Forall_app in Fd0. destruct Fd0 as [_ Fd1].
      destruct (IH d1 (drop_c0 r) z ltac:(lia) Fd1 (harmless_suffix (x :: pre) d1 _ Hd) D)
        as (pre2 & d' & l1 & l2 & es & cs & pd & fin & -> & El & C & Ef & R & Fe & Z).
      exists (x :: pre ++ pre2), d', l1, l2, (mkPErr ParseError (snd (skip_bad (x :: r))) :: es), (olist o ++ cs), pd, fin.
      refine (conj _ (conj El (conj C (conj Ef (conj _ (conj _ Z)))))).
      * cbn [app]. rewrite app_assoc. reflexivity.
      * eapply runs_skip; [discriminate | exact A | reflexivity | reflexivity |]. rewrite skip_bad_buf. exact R.
      * constructor; [reflexivity | exact Fe].
Qed.

(** any chunking *)
Lemma feeds_damage lib chunks : forall p d l,
  Forall (sent_ok (sp_skip p)) l -> Forall is_byte d -> harmless d (wire l) ->
  sp_buf p ++ concat chunks = d ++ wire l -> chunks <> [] ->
  exists p' pre d' l1 l2 es, d = pre ++ d' /\ l = l1 ++ l2 /\ (d' = [] \/ l1 = [])
    /\ feeds lib p chunks p' (delivered l1) es /\ sp_buf p' = d' ++ wire l2
    /\ (sp_buf p' = [] \/ unfinished (sp_buf p'))
    /\ Forall (fun e => pe_exn e = ParseError) es.
Proof.
  induction chunks as [|c cs IH]; intros p d l F Fd Hd E Hn; [congruence|].
  cbn [concat] in E. rewrite app_assoc in E.
  destruct (runs_damage lib (sp_skip p) l F _ d (sp_buf p ++ c) (concat cs) (le_n _) Fd Hd E)
    as (pre & d1 & l1 & l2 & es & ks & pd & fin & -> & -> & C & Ef & R & Fe & Z).
  assert (Fall : Forall is_byte ((sp_buf p ++ c) ++ concat cs)).
  { rewrite E. apply Forall_app. split; [exact Fd | eapply wire_bytes; exact F]. }
  apply Forall_app in Fall. destruct Fall as [Fbc _]. apply Forall_app in Fbc. destruct Fbc as [Fb Fc].
  pose proof (sparse_runs _ _ _ _ _ _ _ _ _ Fb Fc R) as S. cbv iota in S.
  set (p1 := set_buf (with_counters p ks) fin) in *.
  assert (Sk : sp_skip p1 = sp_skip p) by apply set_counters_skip.
  assert (Sb : sp_buf p1 = fin) by reflexivity.
  apply Forall_app in Fd. destruct Fd as [_ Fd1].
  destruct cs as [|c2 cs].
  - cbn [concat] in *. rewrite app_nil_r in Ef. exists p1, pre, d1, l1, l2, es.
    refine (conj eq_refl (conj eq_refl (conj C (conj _ (conj _ (conj _ Fe)))))).
    + rewrite <- (app_nil_r (delivered l1)), <- (app_nil_r es).
      apply (feeds_cons lib p c p1 (mkPR (delivered l1) pd (8 * zlen fin) es) []); [exact S | constructor].
    + rewrite Sb. exact Ef.
    + rewrite Sb. apply Z. reflexivity.
  - assert (Hd1 : harmless d1 (wire l2)).
    { destruct C as [-> | ->]; [apply harmless_nil|]. exact (harmless_suffix pre d1 _ Hd). }
    pose proof F as F'. apply Forall_app in F'. destruct F' as [F1 F2].
    destruct (IH p1 d1 l2) as (p' & pre2 & d' & m1 & m2 & es2 & -> & -> & C2 & Fd & Sf & U & Fe2);
      [rewrite Sk; exact F2 | exact Fd1 | exact Hd1 | rewrite Sb; exact Ef | discriminate |].
    exists p', (pre ++ pre2), d', (l1 ++ m1), m2, (es ++ es2).
    refine (conj (app_assoc _ _ _) (conj (app_assoc _ _ _) (conj _ (conj _ (conj Sf (conj U _)))))).
    + destruct C as [C | ->]; [left; apply app_eq_nil in C; tauto | exact C2].
    + unfold delivered. rewrite map_app.
      apply (feeds_cons lib p c p1 (mkPR (delivered l1) pd (8 * zlen fin) es) (c2 :: cs)); [exact S | exact Fd].
    + apply Forall_app; auto.
Qed.
Lemma unfinished_bound l : Forall is_byte l -> unfinished l -> zlen l <= 261.
Proof.
  intros F U. destruct U as [|r L|c t len h l body L]; unfold zlen in *; cbn [length].
  - lia.
  - lia.
  - repeat match goal with H : Forall _ (_ :: _) |- _ => inversion H; clear H; subst end.
    unfold is_byte in *. lia.
Qed.
(** a suffix of frames is not unfinished *)
Lemma wire_finished skip l : Forall (sent_ok skip) l -> l <> [] -> ~ unfinished (wire l).
Proof.
  intros F N U. destruct F as [|x l (Bc & Bt & P & _) Fl]; [congruence|].
  cbn [wire flat_map] in U. set (w := flat_map sent_frame l) in U. clearbody w.
  unfold sent_frame, frame in U. destruct (calculate_crc (s_payload x)) as [h lo].
  cbn [app] in U. inversion U as [|r L|c t len h' l' body L]; subst; cbn [length] in *; try lia.
  rewrite zlen_app in L. pose proof (zlen_nonneg w). lia.
Qed.

(** ** The theorems *)
Lemma recover_all lib chunks p d l :
  Forall (sent_ok (sp_skip p)) l -> Forall is_byte d -> harmless d (wire l) -> settled d (wire l) ->
  sp_buf p ++ concat chunks = d ++ wire l -> chunks <> [] ->
  exists p' es, feeds lib p chunks p' (delivered l) es /\ sp_buf p' = []
    /\ Forall (fun e => pe_exn e = ParseError) es.
Proof.
  intros F Fd Hd Sd E Hn.
  destruct (feeds_damage lib chunks p d l F Fd Hd E Hn) as (p' & pre & d' & l1 & l2 & es & -> & -> & C & R & Sf & U & Fe).
  assert (Nd : d' = [] /\ l2 = []).
  { destruct U as [U|U].
    - rewrite Sf in U. apply app_eq_nil in U. destruct U as [-> U]. split; [reflexivity|]. apply wire_nil. exact U.
    - rewrite Sf in U. destruct d' as [|x d'].
      + split; [reflexivity|]. destruct l2 as [|y l2]; [reflexivity|]. exfalso.
        apply Forall_app in F. destruct F as [_ F]. exact (wire_finished _ (y :: l2) F ltac:(discriminate) U).
      + exfalso. destruct C as [C | ->]; [discriminate|]. exact (Sd pre (x :: d') eq_refl ltac:(discriminate) U). }
  destruct Nd as [-> ->]. rewrite app_nil_r. exists p', es. exact (conj R (conj Sf Fe)).
Qed.
Lemma long_settles d l skip : Forall (sent_ok skip) l -> Forall is_byte d -> 261 <= zlen (wire l) -> settled d (wire l).
Proof.
  intros F Fd L pre d' -> N U. apply Forall_app in Fd. destruct Fd as [_ Fd].
  pose proof (unfinished_bound (d' ++ wire l) ltac:(apply Forall_app; split; [exact Fd | eapply wire_bytes; exact F]) U) as B.
  rewrite zlen_app in B. destruct d' as [|x d']; [congruence|]. rewrite zlen_cons in B. pose proof (zlen_nonneg d'). lia.
Qed.
Lemma recover_long lib chunks p d l :
  Forall (sent_ok (sp_skip p)) l -> Forall is_byte d -> harmless d (wire l) -> 261 <= zlen (wire l) ->
  sp_buf p ++ concat chunks = d ++ wire l -> chunks <> [] ->
  exists p' es, feeds lib p chunks p' (delivered l) es /\ sp_buf p' = []
    /\ Forall (fun e => pe_exn e = ParseError) es.
Proof. intros F Fd Hd L. apply recover_all; try assumption. eapply long_settles; eassumption. Qed.
(** what is delivered before that, and what is kept *)
Lemma recover_part lib chunks p d l :
  Forall (sent_ok (sp_skip p)) l -> Forall is_byte d -> harmless d (wire l) ->
  sp_buf p ++ concat chunks = d ++ wire l -> chunks <> [] ->
  exists p' ms es, feeds lib p chunks p' ms es
    /\ Forall (fun e => pe_exn e = ParseError) es
    /\ ((ms = delivered l /\ sp_buf p' = [])
        \/ (ms = [] /\ exists pre d', d = pre ++ d' /\ d' <> [] /\ sp_buf p' = d' ++ wire l /\ zlen (sp_buf p') <= 261)).
Proof.
  intros F Fd Hd E Hn.
  destruct (feeds_damage lib chunks p d l F Fd Hd E Hn) as (p' & pre & d' & l1 & l2 & es & -> & -> & C & R & Sf & U & Fe).
  exists p', (delivered l1), es. refine (conj R (conj Fe _)).
  destruct d' as [|x d'].
  - left. assert (l2 = []) as ->.
    { cbn [app] in Sf. rewrite Sf in U. destruct U as [U|U]; [apply wire_nil; exact U|].
      destruct l2 as [|y l2]; [reflexivity|]. exfalso.
      apply Forall_app in F. destruct F as [_ F]. exact (wire_finished _ (y :: l2) F ltac:(discriminate) U). }
    rewrite app_nil_r. exact (conj eq_refl Sf).
  - right. destruct C as [C | ->]; [discriminate|]. split; [reflexivity|]. exists pre, (x :: d').
    refine (conj eq_refl (conj _ (conj Sf _))); [discriminate|].
    destruct U as [U|U]; [rewrite U; discriminate|]. apply unfinished_bound; [|exact U]. rewrite Sf.
    apply Forall_app in Fd. apply Forall_app. split; [apply Fd | eapply wire_bytes; exact F].
Qed.
