(** Lemmas for C98 *)
From Verif Require Import LBits LBytes LAction LCommand LRun LTraffic LSend LSerialProps LModem LConnect LConverse SPrompt.
Open Scope list_scope.
Open Scope Z_scope.

Lemma arrived_exists l : forall y z, y ++ z = wire l -> exists l1 rest, arrived l y l1 rest.
Proof.
  induction l as [|x l IH]; intros y z E; cbn [wire flat_map] in E.
  - apply app_eq_nil in E. destruct E as [-> _]. exists [], []. exists []. repeat split.
  - destruct (app_split _ _ _ _ E) as [(e & Es & _) | (e & -> & Ed)].
    + destruct e as [|e0 e].
      * rewrite app_nil_r in Es. destruct (IH [] (wire l) eq_refl) as (l1 & rest & l2 & -> & Ew & U).
        symmetry in Ew. apply app_eq_nil in Ew. destruct Ew as [Ew ->]. apply LTraffic.wire_nil in Ew. subst l1.
        exists [x], []. exists l2. refine (conj eq_refl (conj _ U)). cbn [wire flat_map]. rewrite !app_nil_r. symmetry. exact Es.
      * exists [], y. exists (x :: l). refine (conj eq_refl (conj eq_refl _)). exists (e0 :: e). split; [discriminate | exact Es].
    + destruct (IH e z (eq_sym Ed)) as (l1 & rest & l2 & -> & -> & U). exists (x :: l1), rest. exists l2.
      refine (conj eq_refl (conj _ U)). cbn [wire flat_map]. rewrite app_assoc. reflexivity.
Qed.
Lemma unfinished_bytes skip l rest : Forall (sent_ok skip) l -> unfinished l rest -> Forall is_byte rest.
Proof.
  intros F U. destruct l as [|x l]; [cbn in U; subst; constructor|]. destruct U as (e & _ & E). inversion F as [|? ? F1 _]; subst.
  pose proof (wire_bytes skip [x] ltac:(constructor; [exact F1 | constructor])) as W. cbn [wire flat_map] in W. rewrite app_nil_r, E in W.
  apply Forall_app in W. apply W.
Qed.
Lemma runs_unfinished lib skip l rest : Forall (sent_ok skip) l -> unfinished l rest -> exists pd, runs lib skip rest [] [] [] pd false rest.
Proof.
  intros F U. destruct rest as [|b rest]; [exists 0; constructor|]. destruct l as [|x l]; [discriminate U|]. destruct U as (e & N & E).
  inversion F as [|? ? (Bc & Bt & P & _) _]; subst. exists 0. change (runs lib skip (b :: rest) [] [] (olist (@None Z)) 0 false (b :: rest)).
  eapply runs_wait; [discriminate | apply (partial_frame skip (s_counter x) (s_type x) (s_payload x) (b :: rest) e); assumption || discriminate | reflexivity].
Qed.
(** one call of [parse] *)
Lemma call_prompt lib p l chunk more : Forall (sent_ok (sp_skip p)) l -> unfinished l (sp_buf p) -> (sp_buf p ++ chunk) ++ more = wire l ->
  exists l1 rest p' r, arrived l (sp_buf p ++ chunk) l1 rest /\ sparse lib p chunk = (p', Ok r)
  /\ pr_msgs r = delivered l1 /\ pr_errors r = [] /\ sp_buf p' = rest
  /\ sp_skip p' = sp_skip p /\ sp_up p' = sp_up p.
Proof.
  intros F U E. destruct (arrived_exists l _ _ E) as (l1 & rest & l2 & El & Eb & U2).
  pose proof F as F'. rewrite El in F'. apply Forall_app in F'. destruct F' as [F1 F2].
  destruct (runs_unfinished lib (sp_skip p) l2 rest F2 U2) as (pd & R2).
  pose proof (unfinished_bytes _ _ _ F2 U2) as B2. pose proof (unfinished_bytes _ _ _ F U) as B0.
  assert (Bc : Forall is_byte chunk).
  { pose proof (wire_bytes _ _ F) as W. rewrite <- E in W. apply Forall_app in W. destruct W as [W _]. apply Forall_app in W. apply W. }
  assert (R : runs lib (sp_skip p) (sp_buf p ++ chunk) (delivered l1 ++ []) [] (map s_counter l1 ++ []) (8 * zlen (wire l1) + pd) false rest).
  { rewrite Eb. apply runs_wire; assumption. }
  rewrite !app_nil_r in R. pose proof (sparse_runs _ _ _ _ _ _ _ _ _ B0 Bc R) as S. cbv iota in S.
  exists l1, rest. eexists _, _. split; [exists l2; auto|]. split; [exact S|]. cbn [pr_msgs pr_errors set_buf sp_buf sp_skip sp_up].
  rewrite counters_skip, counters_up. auto.
Qed.
Lemma arrived_app l a b l1 r1 m1 r2 : arrived l a l1 r1 -> (exists l2, l = l1 ++ l2 /\ arrived l2 (r1 ++ b) m1 r2) -> arrived l (a ++ b) (l1 ++ m1) r2.
Proof.
  intros (l2 & -> & -> & U) (l2' & E & (l3 & E3 & Eb & U3)). apply app_inv_head in E. subst l2'. exists l3.
  split; [rewrite E3, app_assoc; reflexivity|]. split; [|exact U3].
  rewrite <- app_assoc, Eb. unfold wire. rewrite flat_map_app, <- app_assoc. reflexivity.
Qed.
Lemma feeds_prompt lib chunks : forall p l more, Forall (sent_ok (sp_skip p)) l -> unfinished l (sp_buf p) ->
  (sp_buf p ++ concat chunks) ++ more = wire l ->
  exists l1 rest p', arrived l (sp_buf p ++ concat chunks) l1 rest /\ feeds lib p chunks p' (delivered l1) []
  /\ sp_buf p' = rest /\ sp_skip p' = sp_skip p /\ sp_up p' = sp_up p.
Proof.
  induction chunks as [|c cs IH]; intros p l more F U E.
  - exists [], (sp_buf p), p. cbn [concat] in *. rewrite app_nil_r in *. split; [exists l; auto|]. split; [constructor | auto].
  - cbn [concat] in *. rewrite app_assoc in *. rewrite <- (app_assoc _ (concat cs) more) in E.
    destruct (call_prompt lib p l c (concat cs ++ more) F U E) as (l1 & rest & p1 & r & A & S & M & Er & Bf & Sk & Up).
    pose proof A as (l2 & El & Eb & U2). rewrite El in F. apply Forall_app in F. destruct F as [F1 F2].
    assert (E2 : (sp_buf p1 ++ concat cs) ++ more = wire l2).
    { rewrite El, Eb in E. unfold wire in E. rewrite flat_map_app in E. rewrite <- !app_assoc in E. apply app_inv_head in E. rewrite Bf, <- app_assoc. exact E. }
    destruct (IH p1 l2 more) as (m1 & r2 & p2 & A2 & Fd & Bf2 & Sk2 & Up2); [rewrite Sk; exact F2 | rewrite Bf; exact U2 | exact E2 |].
    exists (l1 ++ m1), r2, p2. split; [|split; [|rewrite Sk2, Up2; auto]].
    + eapply arrived_app; [exact A|]. exists l2. split; [exact El|]. rewrite <- Bf. exact A2.
    + assert (Dl : delivered (l1 ++ m1) = pr_msgs r ++ delivered m1) by (rewrite M; apply map_app).
      rewrite Dl. change (@nil PErr) with ([] ++ @nil PErr). rewrite <- Er at 1. exact (feeds_cons lib p c p1 r cs p2 _ _ S Fd).
Qed.
(** what has arrived determines what is complete *)
Lemma arrived_function l bytes l1 r1 l1' r1' : arrived l bytes l1 r1 -> arrived l bytes l1' r1' -> l1 = l1' /\ r1 = r1'.
Proof.
  revert bytes l1 l1'. induction l as [|x l IH]; intros bytes l1 l1' (l2 & E & Eb & U) (l2' & E' & Eb' & U').
  - symmetry in E, E'. apply app_eq_nil in E. apply app_eq_nil in E'. destruct E as [-> ->], E' as [-> ->]. cbn in U, U'. subst. auto.
  - destruct l1 as [|y l1], l1' as [|y' l1']; cbn [app] in E, E'.
    + cbn [wire flat_map app] in Eb, Eb'. split; congruence.
    + exfalso. subst l2. injection E' as <- _. destruct U as (e & N & Ef). cbn [wire flat_map app] in Eb, Eb'. subst bytes.
      rewrite Eb', <- app_assoc in Ef. assert (H : length (sent_frame x) = length (sent_frame x ++ flat_map sent_frame l1' ++ r1' ++ e)).
      { rewrite Ef at 1. rewrite <- !app_assoc. reflexivity. }
      rewrite !app_length in H. destruct e; [congruence | cbn [length] in H; lia].
    + exfalso. subst l2'. injection E as <- _. destruct U' as (e & N & Ef). cbn [wire flat_map app] in Eb, Eb'. subst bytes.
      rewrite <- Eb', <- app_assoc in Ef. assert (H : length (sent_frame x) = length (sent_frame x ++ flat_map sent_frame l1 ++ r1 ++ e)).
      { rewrite Ef at 1. rewrite <- !app_assoc. reflexivity. }
      rewrite !app_length in H. destruct e; [congruence | cbn [length] in H; lia].
    + injection E as <- E. injection E' as <- E'. cbn [wire flat_map] in Eb, Eb'. rewrite <- app_assoc in Eb, Eb'. subst bytes. apply app_inv_head in Eb'.
      destruct (IH (wire l1 ++ r1) l1 l1') as [-> ->]; [exists l2; auto | exists l2'; auto | auto].
Qed.
Lemma reader_prompt lib chunks p m l more : Forall (sent_ok (sp_skip p)) l -> sp_buf p = [] -> concat chunks ++ more = wire l ->
  exists l1 rest p', arrived l (concat chunks) l1 rest
  /\ read_chunks lib (mkReader p m true) chunks = mkReader p' (fold_left dispatch (delivered l1) m) true
  /\ sp_buf p' = rest.
Proof.
  intros F B E. rewrite read_filter, <- concat_filter. rewrite <- concat_filter in E.
  assert (U : unfinished l (sp_buf p)).
  { rewrite B. destruct l as [|x l]; [reflexivity|]. destruct (sent_frame_head x) as (r & Er). exists (192 :: r). split; [discriminate | exact Er]. }
  destruct (feeds_prompt lib (filter nonempty chunks) p l more F U) as (l1 & rest & p' & A & Fd & Bf & _).
  { rewrite B. exact E. }
  exists l1, rest, p'. split; [rewrite B in A; exact A|]. split; [|exact Bf].
  apply (read_feeds _ _ _ _ _ _ Fd). apply filter_nonempty.
Qed.
Lemma session_prompt lib s l chunks more : in_use s -> Forall (sent_ok false) l -> concat chunks ++ more = wire l ->
  exists l1 rest, arrived l (concat chunks) l1 rest
  /\ let s2 := devices lib s (map DBytes chunks) in
     r_modem (se_reader s2) = handled (r_modem (se_reader s)) (delivered l1) /\ alive s2 = true /\ sp_buf (r_parser (se_reader s2)) = rest.
Proof.
  intros (A & B & S & _) F E. destruct s as [[p m a] u f t]. unfold alive in *. cbn [se_reader r_alive r_parser r_modem] in *. subst a.
  destruct (reader_prompt lib chunks p m l more ltac:(rewrite S; exact F) B E) as (l1 & rest & p' & Ar & R & Bf).
  exists l1, rest. split; [exact Ar|]. cbv zeta. rewrite devices_reader. cbn [se_reader]. rewrite R. auto.
Qed.
Lemma answered_iff m tag timeout x : m_skip m = false -> 0 < timeout -> tag = c_tag (x_command x) ->
  m_completed (fold_left dispatch (delivered (x_traffic x)) (exec_start m tag timeout)) = existsb ends_execution (replies x).
Proof.
  intros S T ->. set (tag := c_tag (x_command x)). set (m1 := exec_start m tag timeout).
  assert (S1 : m_skip m1 = false) by exact S.
  assert (T1 : m_tag m1 = tag).
  { unfold m1, exec_start. cbn [set_sync m_tag]. rewrite S. assert (0 <? timeout = true) as -> by lia. reflexivity. }
  assert (C1 : m_completed m1 = false) by reflexivity.
  clearbody m1. unfold replies, pick. fold tag. generalize (delivered (x_traffic x)). intros ms.
  assert (G : m_completed (fold_left dispatch ms m1) = existsb ends_execution (map snd (filter (is_reply tag) ms)) || m_completed m1).
  { clear C1. revert m1 S1 T1. induction ms as [|[t y] ms IH]; intros m1 S1 T1; [reflexivity|]. cbn [fold_left filter].
    destruct (dispatch_setup m1 (t, y)) as (Q1 & _ & _ & _ & _ & Q6 & _).
    rewrite IH by congruence. rewrite (dispatch_completed m1 tag t y S1 T1).
    assert (R : match_tag tag t y = is_reply tag (t, y)).
    { destruct (is_reply tag (t, y)) eqn:I.
      - apply is_reply_iff in I. apply match_tag_iff. exact I.
      - destruct (match_tag tag t y) eqn:M; [|reflexivity]. apply match_tag_iff in M. assert (is_reply tag (t, y) = true) by (apply is_reply_iff; exact M). congruence. }
    rewrite R. destruct (is_reply tag (t, y)); [|reflexivity]. cbn [map existsb snd andb].
    change (ends_execution y) with (msg_completed y). destruct (msg_completed y), (existsb _ _), (m_completed m1); reflexivity. }
  rewrite G, C1, Bool.orb_false_r. reflexivity.
Qed.
Lemma result_prompt lib s c timeout l chunks more : in_use s -> command_wf c -> command_bytes c <= 255 -> 0 < timeout ->
  Forall (sent_ok false) l -> concat chunks ++ more = wire l ->
  exists s1 l1 rest, execute s c timeout = (s1, Ok tt) /\ arrived l (concat chunks) l1 rest
  /\ let s2 := devices lib s1 (map DBytes chunks) in let x := mkExchange c timeout l1 chunks in
     execute_result s2 = expected x /\ answered s2 = existsb ends_execution (replies x).
Proof.
  intros U W L T F E. destruct (transmits_command c W L) as (bs & Eb & P & _). pose proof U as (A & B & S & D & Up & K).
  pose proof (execute_ok s c bs timeout Up Eb P) as Ex. set (s1 := mkSession _ _ _ _) in Ex.
  assert (U1 : in_use s1).
  { unfold in_use, alive, s1. cbn [se_reader r_parser r_modem r_alive with_up sp_buf sp_skip sp_down sp_up].
    pose proof (after_byte _ Up). unfold alive in A. auto 10. }
  destruct (session_prompt lib s1 l chunks more U1 F E) as (l1 & rest & Ar & M & _).
  exists s1, l1, rest. refine (conj Ex (conj Ar _)). cbv zeta. unfold execute_result, answered. rewrite M.
  assert (M1 : r_modem (se_reader s1) = exec_start (r_modem (se_reader s)) (c_tag c) timeout) by reflexivity. rewrite M1. unfold handled.
  split.
  - exact (proj1 (modem_exchange (r_modem (se_reader s)) (c_tag c) timeout (mkExchange c timeout l1 chunks) K T eq_refl)).
  - exact (answered_iff (r_modem (se_reader s)) (c_tag c) timeout (mkExchange c timeout l1 chunks) K T eq_refl).
Qed.
