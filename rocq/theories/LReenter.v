From Verif Require Import Bits LBits LBytes LGood LTypes LAlp LAction LCommand LReser LTraffic LRun LSend LLink LChunk LSerialProps LFiles LBuild SReenter LModem LConnect LConverse LLife.

(** ** Executions *)
Lemma rrun_app lib h a b : forall w, rrun lib h w (a ++ b) =
  match rrun lib h w a with Some w' => rrun lib h w' b | None => None end.
Proof. induction a as [|l a IH]; intro w; [reflexivity|]. cbn. destruct (rstep lib h w l); [apply IH | reflexivity]. Qed.
Lemma rrun_snoc lib h ls l w w' : rrun lib h w (ls ++ [l]) = Some w' ->
  exists v, rrun lib h w ls = Some v /\ rstep lib h v l = Some w'.
Proof.
  rewrite rrun_app. destruct (rrun lib h w ls) as [v|]; [|discriminate]. cbn. intro E. exists v. split; [reflexivity|].
  destruct (rstep lib h v l); congruence.
Qed.
Lemma came_snoc ls l : came (ls ++ [l]) = came ls ++ match l with RArrive b => [b] | _ => [] end.
Proof. unfold came. rewrite flat_map_app. cbn. rewrite app_nil_r. reflexivity. Qed.

(** what the current world leads to if everything returns the empty list at once *)
Definition now (w : RWorld) (e : bool) : Seq := mkSeq (rw_session w) (rw_active w) e (rw_results w).
Definition outcome (h : Handlers) (w : RWorld) : Seq :=
  match rw_at w with
  | InRead => now w false
  | Ended => now w true
  | Handling ms => next_round (fold_left (message h) ms (now w false))
  | InCallback p ms => next_round (fold_left (message h) ms (perform (now w false) p))
  | InWait c t k ms =>
      next_round (fold_left (message h) ms
        (perform (mkSeq (rw_session w) (rw_active w) false (rw_results w ++ [(c, t, Ok [])])) (k (Ok []))))
  end.
Definition nothing_yet (w : RWorld) : Prop :=
  match rw_at w with InWait _ _ _ _ => m_completed (r_modem (se_reader (rw_session w))) = false | _ => True end.

Lemma message_ended h ms : forall st, sq_ended st = true -> fold_left (message h) ms st = st.
Proof. induction ms as [|x ms IH]; intros st E; [reflexivity|]. cbn. unfold message at 2. rewrite E. apply IH. exact E. Qed.
Lemma message_go h s a log tx : message h (mkSeq s a false log) tx =
  let st' := mkSeq (with_modem s (dispatch (r_modem (se_reader s)) tx)) a false log in
  match callback_for h s tx with Some p => perform st' p | None => st' end.
Proof. reflexivity. Qed.
Lemma next_round_ended s a l : next_round (mkSeq s a true l) = mkSeq s a true l.
Proof. destruct a; reflexivity. Qed.
Lemma execute_incomplete s c t s' : execute s c t = (s', Ok tt) -> m_completed (r_modem (se_reader s')) = false.
Proof.
  unfold execute. destruct (build_serial_frame _ _) as [p [b|e]]; [|discriminate]. intro E. injection E as <-. reflexivity.
Qed.

Lemma rstep_outcome lib h w l w' : rstep lib h w l = Some w' -> nothing_yet w ->
  nothing_yet w' /\ exists took, rw_input w ++ match l with RArrive b => [b] | _ => [] end = took ++ rw_input w'
    /\ outcome h w' = fold_left (one_byte lib h) took (outcome h w).
Proof.
  destruct w as [s a inp at_ log]. unfold nothing_yet. destruct l as [b| |]; cbn [rstep].
  - intro E. injection E as <-. cbn [rw_at rw_session rw_input]. intro N. split; [exact N|]. exists []. split; [reflexivity|].
    unfold outcome. cbn [rw_at]. destruct at_; reflexivity.
  - rewrite app_nil_r. destruct at_ as [|[|tx r]|p r|c t k r|]; cbn [rw_at rw_session rw_input].
    + destruct inp as [|b inp]; [discriminate|]. destruct (sparse lib _ [b]) as [p [res|e]] eqn:P; intros E _; injection E as <-.
      * split; [exact I|]. exists [b]. split; [reflexivity|]. unfold outcome, now. cbn [rw_at rw_session rw_active rw_results fold_left].
        unfold one_byte. cbn [sq_ended sq_session]. rewrite P. reflexivity.
      * split; [exact I|]. exists [b]. split; [reflexivity|]. unfold outcome, now. cbn [rw_at rw_session rw_active rw_results fold_left].
        unfold one_byte. cbn [sq_ended sq_session]. rewrite P. reflexivity.
    + intros E _. injection E as <-. cbn [rw_at rw_session rw_input]. split; [destruct a; exact I|]. exists []. split; [reflexivity|].
      unfold outcome. cbn [rw_at]. destruct a; reflexivity.
    + intros E _. injection E as <-. cbn [rw_at rw_session rw_input].
      split; [destruct (callback_for h s tx); exact I|]. exists []. split; [reflexivity|].
      unfold outcome, now. cbn [rw_at rw_session rw_active rw_results fold_left]. rewrite message_go. cbn zeta.
      destruct (callback_for h s tx); reflexivity.
    + destruct p as [| |c t k|k].
      * intros E _. injection E as <-. split; [exact I|]. exists []. split; reflexivity.
      * intros E _. injection E as <-. split; [exact I|]. exists []. split; [reflexivity|].
        unfold outcome. cbn [rw_at]. cbn [perform fold_left]. rewrite message_ended by reflexivity. unfold now.
        cbn [sq_session sq_active sq_log rw_session rw_active rw_results]. rewrite next_round_ended. reflexivity.
      * destruct (execute s c t) as [s' [[]|e]] eqn:X.
        -- destruct (waits_not s t); intros E _; injection E as <-; cbn [rw_at rw_session rw_input].
           ++ split; [exact I|]. exists []. split; [reflexivity|]. unfold outcome. cbn [rw_at perform fold_left now sq_session rw_session].
              rewrite X. reflexivity.
           ++ split; [exact (execute_incomplete _ _ _ _ X)|]. exists []. split; [reflexivity|].
              unfold outcome. cbn [rw_at perform fold_left now sq_session rw_session]. rewrite X. reflexivity.
        -- intros E _; injection E as <-; cbn [rw_at rw_session rw_input]. split; [exact I|]. exists []. split; [reflexivity|].
           unfold outcome. cbn [rw_at perform fold_left now sq_session rw_session]. rewrite X. reflexivity.
      * intros E _. injection E as <-. split; [exact I|]. exists []. split; reflexivity.
    + intros E N. rewrite N in E. discriminate.
    + discriminate.
  - rewrite app_nil_r. destruct at_ as [|ms|p r|c t k r|]; try discriminate. cbn [rw_at rw_session rw_input]. intros E N. injection E as <-.
    split; [exact I|]. exists []. split; [reflexivity|]. unfold outcome. cbn [rw_at fold_left]. unfold execute_result, exec_result.
    rewrite N. reflexivity.
Qed.

Lemma reenter_inv lib h s ls : forall w, rrun lib h (reading_world s) ls = Some w ->
  nothing_yet w /\ exists done, came ls = done ++ rw_input w /\ outcome h w = in_sequence lib h s done.
Proof.
  induction ls as [|l ls IH] using rev_ind; intros w E.
  - injection E as <-. split; [exact I|]. exists []. split; reflexivity.
  - apply rrun_snoc in E. destruct E as (v & E & St). destruct (IH v E) as (N & done & C & O).
    destruct (rstep_outcome _ _ _ _ _ St N) as (N' & took & T & O'). split; [exact N'|].
    exists (done ++ took). rewrite came_snoc, C, <- !app_assoc, T. split; [reflexivity|].
    rewrite O', O. unfold in_sequence. rewrite fold_left_app. reflexivity.
Qed.
Lemma as_if_at_once lib h s ls w : rrun lib h (reading_world s) ls = Some w -> rests w ->
  exists done, came ls = done ++ rw_input w
    /\ in_sequence lib h s done
       = mkSeq (rw_session w) (rw_active w) (match rw_at w with Ended => true | _ => false end) (rw_results w).
Proof.
  intros E R. destruct (reenter_inv _ _ _ _ _ E) as (_ & done & C & O). exists done. split; [exact C|]. rewrite <- O.
  destruct w as [s' a inp at_ log]. unfold rests, outcome, now in *. cbn [rw_at rw_session rw_active rw_results] in *.
  destruct R as [-> | ->]; reflexivity.
Qed.
Lemma only_the_clock lib h s ls w c t k r : rrun lib h (reading_world s) ls = Some w -> rw_at w = InWait c t k r ->
  rstep lib h w RGo = None.
Proof.
  intros E A. destruct (reenter_inv _ _ _ _ _ E) as (N & _). destruct w as [s' a inp at_ log]. cbn [rw_at] in A. subst at_.
  unfold nothing_yet in N. cbn [rw_at rw_session] in N. cbn [rstep]. rewrite N. reflexivity.
Qed.

(** ** What the calls return *)
Definition poor (x : Command * Z * res (list Msg)) : Prop :=
  match x with (c, _, v) => v = Ok [] \/ exists e, v = Err e end.
Lemma poor_results lib h s ls : forall w, rrun lib h (reading_world s) ls = Some w -> Forall poor (rw_results w).
Proof.
  induction ls as [|l ls IH] using rev_ind; intros w E.
  - injection E as <-. constructor.
  - apply rrun_snoc in E. destruct E as (v & E & St). pose proof (IH v E) as F. destruct (reenter_inv _ _ _ _ _ E) as (N & _).
    destruct v as [s' a inp at_ log]. cbn [rw_results] in F. unfold nothing_yet in N. cbn [rw_at rw_session] in N.
    assert (G : forall x, poor x -> Forall poor (log ++ [x])) by (intros x Px; apply Forall_app; split; [exact F | repeat constructor; exact Px]).
    destruct l as [b| |]; cbn [rstep] in St.
    + injection St as <-. exact F.
    + destruct at_ as [|[|tx r]|p r|c t k r|].
      * destruct inp as [|b inp]; [discriminate|]. destruct (sparse lib _ [b]) as [p [res|e]]; injection St as <-; exact F.
      * injection St as <-. exact F.
      * injection St as <-. exact F.
      * destruct p as [| |c t k|k]; try (injection St as <-; exact F).
        destruct (execute s' c t) as [s2 [[]|e]].
        -- destruct (waits_not s' t); injection St as <-; [apply G; left; reflexivity | exact F].
        -- injection St as <-. apply G. right. exists e. reflexivity.
      * rewrite N in St. discriminate.
      * discriminate.
    + destruct at_; try discriminate. injection St as <-. apply G. left. unfold execute_result, exec_result. rewrite N. reflexivity.
Qed.

(** ** The parser's two halves *)
Lemma bump_up p u c : bump (with_up p u) c = with_up (bump p c) u.
Proof. unfold bump. cbn [with_up sp_down sp_buf sp_skip sp_up sp_errs]. destruct (negb _); reflexivity. Qed.
Lemma header_up p u s : parse_header (with_up p u) s = (with_up (fst (parse_header p s)) u, snd (parse_header p s)).
Proof.
  unfold parse_header. cbn [with_up sp_buf]. destruct (header_fields _ s) as [[[[[[[c t] n] c1] c2] pl] s']|e]; [|reflexivity].
  destruct (calculate_crc pl) as [x y]. rewrite bump_up. reflexivity.
Qed.
Lemma parse_one_up lib u n : forall p es, parse_one n lib (with_up p u) es =
  (with_up (fst (parse_one n lib p es)) u, snd (parse_one n lib p es)).
Proof.
  induction n as [|n IH]; intros p es; [reflexivity|]. cbn [parse_one]. cbn [with_up sp_buf]. destruct (sp_buf p) as [|b l] eqn:B; [reflexivity|].
  replace (mkSP (b :: l) (sp_skip p) u (sp_down p) (sp_errs p)) with (with_up p u) by (unfold with_up; rewrite B; reflexivity).
  rewrite header_up. destruct (parse_header p (stream_of (b :: l))) as [p' hdr] eqn:H. cbn [fst snd with_up sp_skip].
  destruct (match hdr with Ok (cmd_len, mt, s) => _ | Err e => Err e end) as [[[mt m] k]|e]; [reflexivity|].
  destruct (is_read_error lib e); [reflexivity|]. destruct (no_args e); [reflexivity|].
  change (sp_buf (with_up p' u)) with (sp_buf p'). destruct (skip_bad (sp_buf p')) as [b' n']. rewrite <- IH. reflexivity.
Qed.
Lemma parse_buffer_up lib u n : forall p ms k es, parse_buffer n lib (with_up p u) ms k es =
  (with_up (fst (parse_buffer n lib p ms k es)) u, snd (parse_buffer n lib p ms k es)).
Proof.
  induction n as [|n IH]; intros p ms k es; [reflexivity|]. cbn [parse_buffer]. rewrite parse_one_up.
  change (sp_buf (with_up p u)) with (sp_buf p).
  destruct (parse_one (S (length (sp_buf p))) lib p []) as [p' [[[[m|] j] errs]|e]]; cbn [fst snd]; [apply IH | reflexivity | reflexivity].
Qed.
Lemma sparse_with_up lib u p x : sparse lib (with_up p u) x = (with_up (fst (sparse lib p x)) u, snd (sparse lib p x)).
Proof.
  unfold sparse. change (set_buf (with_up p u) (sp_buf (with_up p u) ++ x)) with (with_up (set_buf p (sp_buf p ++ x)) u).
  apply (parse_buffer_up lib u (S (length (sp_buf p ++ x)))).
Qed.
Lemma up_self p : with_up p (sp_up p) = p.
Proof. destruct p. reflexivity. Qed.
Lemma sparse_keeps_up lib p x : sp_up (fst (sparse lib p x)) = sp_up p.
Proof. rewrite <- (up_self p) at 1. rewrite sparse_with_up. reflexivity. Qed.
Lemma build_only_up p a : fst (build_serial_frame p a) = with_up p (sp_up (fst (build_serial_frame p a))).
Proof.
  unfold build_serial_frame.
  match goal with |- context [match ?r with Ok _ => _ | Err _ => _ end] => destruct r end; cbn [fst sp_up]; [reflexivity | symmetry; apply up_self].
Qed.
Lemma build_same_up p q a : sp_up p = sp_up q ->
  snd (build_serial_frame p a) = snd (build_serial_frame q a)
  /\ sp_up (fst (build_serial_frame p a)) = sp_up (fst (build_serial_frame q a)).
Proof.
  intro E. unfold build_serial_frame. rewrite E.
  match goal with |- context [match ?r with Ok _ => _ | Err _ => _ end] => destruct r end; cbn [fst snd sp_up]; auto.
Qed.

(** ** Invariants of executions: mode, counter, bytes sent, waiting *)
Definition parser_of (s : Session) : SParser := r_parser (se_reader s).
Definition modem_of (s : Session) : Modem := r_modem (se_reader s).
Fixpoint sender (p : SParser) (l : list (Command * Z * res (list Msg))) : SParser :=
  match l with
  | [] => p
  | (c, _, Ok _) :: r => sender (fst (build_serial_frame p (command_ser c))) r
  | (_, _, Err _) :: r => sender p r
  end.
Lemma sender_app p l x : sender p (l ++ x) = sender (sender p l) x.
Proof. revert p. induction l as [|[[c t] [v|e]] l IH]; intro p; cbn; [reflexivity | apply IH | apply IH]. Qed.
Lemma outgoing_app p l x : outgoing p (l ++ x) = outgoing p l ++ outgoing (sender p l) x.
Proof.
  revert p. induction l as [|[[c t] [v|e]] l IH]; intro p; cbn; [reflexivity | | apply IH].
  destruct (build_serial_frame p (command_ser c)) as [p' f]. cbn [fst]. rewrite IH, app_assoc. reflexivity.
Qed.
Definition on_the_way (w : RWorld) : list (Command * Z * res (list Msg)) :=
  rw_results w ++ match rw_at w with InWait c t _ _ => [(c, t, Ok [])] | _ => [] end.
Lemma execute_facts s c t s' r : execute s c t = (s', r) ->
  m_skip (modem_of s') = m_skip (modem_of s)
  /\ sp_up (parser_of s') = sp_up (sender (parser_of s) [(c, t, match r with Ok _ => Ok [] | Err e => Err e end)])
  /\ se_sent s' = se_sent s ++ outgoing (parser_of s) [(c, t, match r with Ok _ => Ok [] | Err e => Err e end)].
Proof.
  unfold execute, parser_of, modem_of. destruct (build_serial_frame _ _) as [p [b|e]] eqn:B; intro E; injection E as <- <-; cbn.
  - rewrite B. cbn. rewrite app_nil_r. auto.
  - rewrite app_nil_r. auto.
Qed.
Lemma outgoing_up p q l : sp_up p = sp_up q -> outgoing p l = outgoing q l /\ sp_up (sender p l) = sp_up (sender q l).
Proof.
  revert p q. induction l as [|[[c t] [v|e]] l IH]; intros p q E; cbn; [auto | | apply IH; exact E].
  destruct (build_same_up p q (command_ser c) E) as [A B].
  destruct (build_serial_frame p _) as [p' f]. destruct (build_serial_frame q _) as [q' g]. cbn [fst snd] in *. subst g.
  destruct (IH p' q' B) as [-> H]. auto.
Qed.
Definition must_wait (skip : bool) (w : RWorld) : Prop :=
  match rw_at w with InWait _ t _ _ => skip || (t =? 0) = false | _ => True end.
Lemma rstep_facts lib h s w l w' : rstep lib h w l = Some w' -> nothing_yet w -> must_wait (m_skip (modem_of s)) w ->
  m_skip (modem_of (rw_session w)) = m_skip (modem_of s) ->
  sp_up (parser_of (rw_session w)) = sp_up (sender (parser_of s) (on_the_way w)) ->
  se_sent (rw_session w) = se_sent s ++ outgoing (parser_of s) (on_the_way w) ->
  m_skip (modem_of (rw_session w')) = m_skip (modem_of s)
  /\ sp_up (parser_of (rw_session w')) = sp_up (sender (parser_of s) (on_the_way w'))
  /\ se_sent (rw_session w') = se_sent s ++ outgoing (parser_of s) (on_the_way w')
  /\ waited (m_skip (modem_of s)) (rw_results w')
     = (waited (m_skip (modem_of s)) (rw_results w) + match l with RTimeout => 1 | _ => 0 end)%nat
  /\ must_wait (m_skip (modem_of s)) w'.
Proof.
  destruct w as [s1 a inp at_ log]. unfold nothing_yet, on_the_way, must_wait. cbn [rw_at rw_session rw_results].
  intros St N MW K U T.
  assert (Wn : forall x, waited (m_skip (modem_of s)) (log ++ [x]) = (waited (m_skip (modem_of s)) log + waited (m_skip (modem_of s)) [x])%nat).
  { intro x. unfold waited. rewrite filter_app, app_length. reflexivity. }
  destruct l as [b| |]; cbn [rstep] in St.
  - injection St as <-. cbn [rw_at rw_session rw_results]. auto 6.
  - destruct at_ as [|[|tx r]|p r|c t k r|].
    + destruct inp as [|b inp]; [discriminate|]. pose proof (sparse_keeps_up lib (parser_of s1) [b]) as Q. unfold parser_of in Q at 1.
      destruct (sparse lib _ [b]) as [p [res|e]]; injection St as <-; cbn [rw_at rw_session rw_results]; cbn [fst] in Q;
        unfold parser_of, modem_of in *; cbn [with_reader se_reader r_parser r_modem se_sent]; rewrite Q; auto 6.
    + injection St as <-. cbn [rw_at rw_session rw_results]. destruct a; auto 6.
    + injection St as <-. cbn [rw_at rw_session rw_results]. pose proof (dispatch_setup (r_modem (se_reader s1)) tx) as (Sk & _).
      assert (E0 : match match callback_for h s1 tx with Some p => InCallback p r | None => Handling r end with
               | InWait c t _ _ => [(c, t, Ok [])] | _ => [] end = @nil (Command * Z * res (list Msg))) by (destruct (callback_for h s1 tx); reflexivity).
      rewrite E0. unfold parser_of, modem_of in *. cbn [with_modem with_reader se_reader r_parser r_modem se_sent]. rewrite Sk. refine (conj K (conj U (conj T (conj _ _)))); [lia | destruct (callback_for h s1 tx); exact I].
    + rewrite app_nil_r in U, T. destruct p as [| |c t k|k].
      * injection St as <-. cbn [rw_at rw_session rw_results]. rewrite app_nil_r. auto 6.
      * injection St as <-. cbn [rw_at rw_session rw_results]. rewrite app_nil_r. auto 6.
      * destruct (execute s1 c t) as [s2 r2] eqn:X. destruct (execute_facts _ _ _ _ _ X) as (K2 & U2 & T2).
        pose proof (outgoing_up (parser_of s1) (sender (parser_of s) log) [(c, t, match r2 with Ok _ => Ok [] | Err e => Err e end)] U) as [O1 O2].
        rewrite O2, <- sender_app in U2. rewrite O1, T, <- app_assoc, <- outgoing_app in T2. rewrite K in K2.
        destruct r2 as [[]|e].
        -- unfold waits_not in St. fold (modem_of s1) in St. rewrite K in St.
           destruct (m_skip (modem_of s) || (t =? 0)) eqn:Wt; injection St as <-; cbn [rw_at rw_session rw_results]; rewrite ?app_nil_r.
           ++ refine (conj K2 (conj U2 (conj T2 (conj _ I)))). rewrite Wn. f_equal. unfold waited. cbn [filter].
              rewrite <- negb_orb, Wt. reflexivity.
           ++ refine (conj K2 (conj U2 (conj T2 (conj _ Wt)))). lia.
        -- injection St as <-. cbn [rw_at rw_session rw_results]. rewrite app_nil_r. refine (conj K2 (conj U2 (conj T2 (conj _ I)))). rewrite Wn. reflexivity.
      * injection St as <-. cbn [rw_at rw_session rw_results]. rewrite app_nil_r. auto 6.
    + rewrite N in St. discriminate.
    + discriminate.
  - destruct at_ as [|ms|p r|c t k r|]; try discriminate. injection St as <-. cbn [rw_at rw_session rw_results]. rewrite app_nil_r.
    assert (execute_result s1 = []) as -> by (unfold execute_result, exec_result; rewrite N; reflexivity).
    refine (conj K (conj U (conj T (conj _ I)))). rewrite Wn. f_equal. unfold waited. cbn [filter].
    rewrite <- negb_orb, MW. reflexivity.
Qed.
Lemma timeouts_snoc ls l : timeouts (ls ++ [l]) = (timeouts ls + match l with RTimeout => 1 | _ => 0 end)%nat.
Proof. unfold timeouts. rewrite filter_app, app_length. destruct l; reflexivity. Qed.
Lemma reenter_facts lib h s ls : forall w, rrun lib h (reading_world s) ls = Some w ->
  m_skip (modem_of (rw_session w)) = m_skip (modem_of s)
  /\ sp_up (parser_of (rw_session w)) = sp_up (sender (parser_of s) (on_the_way w))
  /\ se_sent (rw_session w) = se_sent s ++ outgoing (parser_of s) (on_the_way w)
  /\ waited (m_skip (modem_of s)) (rw_results w) = timeouts ls
  /\ must_wait (m_skip (modem_of s)) w.
Proof.
  induction ls as [|l ls IH] using rev_ind; intros w E.
  - injection E as <-. unfold on_the_way. cbn. rewrite app_nil_r. auto 6.
  - apply rrun_snoc in E. destruct E as (v & E & St). destruct (IH v E) as (K & U & T & W & MW).
    destruct (reenter_inv _ _ _ _ _ E) as (N & _).
    destruct (rstep_facts _ _ _ _ _ _ St N MW K U T) as (K' & U' & T' & W' & MW'). rewrite timeouts_snoc, W', W. auto 6.
Qed.
Lemma sent_by_callbacks lib h s ls w : rrun lib h (reading_world s) ls = Some w -> rests w ->
  se_sent (rw_session w) = se_sent s ++ outgoing (r_parser (se_reader s)) (rw_results w).
Proof.
  intros E R. destruct (reenter_facts _ _ _ _ _ E) as (_ & _ & T & _). unfold on_the_way in T.
  destruct R as [R|R]; rewrite R, app_nil_r in T; exact T.
Qed.
Lemma full_time lib h s ls w : rrun lib h (reading_world s) ls = Some w ->
  timeouts ls = waited (m_skip (r_modem (se_reader s))) (rw_results w).
Proof. intro E. destruct (reenter_facts _ _ _ _ _ E) as (_ & _ & _ & W & _). symmetry. exact W. Qed.

(** ** Sendable commands are accepted *)
Lemma sender_byte p l : is_byte (sp_up p) -> is_byte (sp_up (sender p l)).
Proof.
  revert p. induction l as [|[[c t] [v|e]] l IH]; intros p B; cbn; [exact B | | apply IH; exact B]. apply IH.
  pose proof (build_spec p (command_ser c) B) as H. destruct (command_ser c) as [a|e]; [|rewrite H; exact B].
  destruct (zlen a <=? 255).
  - destruct H as (p' & -> & U & _). cbn [fst]. rewrite U. unfold is_byte. pose proof (Z.mod_pos_bound (sp_up p + 1) 256). lia.
  - rewrite H. exact B.
Qed.
Lemma accepted_results lib h s ls : is_byte (sp_up (r_parser (se_reader s))) ->
  forall w, rrun lib h (reading_world s) ls = Some w ->
  Forall (fun x => match x with (c, _, v) => command_wf c -> command_bytes c <= 255 -> v = Ok [] end) (rw_results w).
Proof.
  intro B. induction ls as [|l ls IH] using rev_ind; intros w E.
  - injection E as <-. constructor.
  - apply rrun_snoc in E. destruct E as (v & E & St). pose proof (IH v E) as F. destruct (reenter_inv _ _ _ _ _ E) as (N & _).
    destruct (reenter_facts _ _ _ _ _ E) as (_ & U & _).
    assert (Bv : is_byte (sp_up (parser_of (rw_session v)))) by (rewrite U; apply sender_byte; exact B). clear U.
    destruct v as [s' a inp at_ log]. cbn [rw_results rw_session] in *. unfold nothing_yet in N. cbn [rw_at rw_session] in N.
    match type of F with Forall ?P _ => assert (G : forall x, P x -> Forall P (log ++ [x])) by (intros x Px; apply Forall_app; split; [exact F | constructor; [exact Px | constructor]]) end.
    destruct l as [b| |]; cbn [rstep] in St.
    + injection St as <-. exact F.
    + destruct at_ as [|[|tx r]|p r|c t k r|].
      * destruct inp as [|b inp]; [discriminate|]. destruct (sparse lib _ [b]) as [p [res|e]]; injection St as <-; exact F.
      * injection St as <-. exact F.
      * injection St as <-. exact F.
      * destruct p as [| |c t k|k]; try (injection St as <-; exact F).
        destruct (execute s' c t) as [s2 [[]|e]] eqn:X.
        -- destruct (waits_not s' t); injection St as <-; [apply G; reflexivity | exact F].
        -- injection St as <-. apply G. intros W L. destruct (transmits_command c W L) as (bs & Eb & P & _).
           rewrite (execute_ok s' c bs t Bv Eb P) in X. discriminate.
      * rewrite N in St. discriminate.
      * discriminate.
    + destruct at_; try discriminate. injection St as <-. apply G. intros _ _. unfold execute_result, exec_result. rewrite N. reflexivity.
Qed.

(** ** Nothing gets stuck *)
Lemma never_stuck lib h w : rests w \/ (exists w', rstep lib h w RGo = Some w') \/ (exists w', rstep lib h w RTimeout = Some w').
Proof.
  destruct w as [s a inp at_ log]. unfold rests. cbn [rw_at]. destruct at_ as [|[|tx r]|p r|c t k r|]; cbn [rstep].
  - left. left. reflexivity.
  - right. left. eexists. reflexivity.
  - right. left. eexists. reflexivity.
  - right. left. destruct p as [| |c t k|k]; try (eexists; reflexivity).
    destruct (execute s c t) as [s2 [[]|e]]; [destruct (waits_not s t)|]; eexists; reflexivity.
  - right. right. eexists. reflexivity.
  - left. right. reflexivity.
Qed.
(** ** Stopping *)
Lemma stopped_step lib h w l w' : rw_active w = false -> rw_at w <> InRead -> rstep lib h w l = Some w' ->
  rw_active w' = false /\ rw_at w' <> InRead
  /\ rw_input w' = rw_input w ++ match l with RArrive b => [b] | _ => [] end.
Proof.
  destruct w as [s a inp at_ log]. cbn [rw_active rw_at rw_input]. intros -> A. destruct l as [b| |]; cbn [rstep].
  - intro E. injection E as <-. auto.
  - rewrite app_nil_r. destruct at_ as [|[|tx r]|p r|c t k r|].
    + congruence.
    + intro E. injection E as <-. cbn [rw_active rw_at rw_input]. repeat split. discriminate.
    + intro E. injection E as <-. cbn [rw_active rw_at rw_input]. repeat split. destruct (callback_for h s tx); discriminate.
    + destruct p as [| |c t k|k]; try (intro E; injection E as <-; cbn [rw_active rw_at rw_input]; repeat split; discriminate).
      destruct (execute s c t) as [s2 [[]|e]]; [destruct (waits_not s t)|]; intro E; injection E as <-; cbn [rw_active rw_at rw_input]; repeat split; discriminate.
    + destruct (m_completed _); [|discriminate]. intro E; injection E as <-; cbn [rw_active rw_at rw_input]; repeat split; discriminate.
    + discriminate.
  - rewrite app_nil_r. destruct at_; try discriminate. intro E; injection E as <-; cbn [rw_active rw_at rw_input]; repeat split; discriminate.
Qed.
Lemma stopped_run lib h ls : forall w w', rw_active w = false -> rw_at w <> InRead -> rrun lib h w ls = Some w' ->
  rw_active w' = false /\ rw_at w' <> InRead /\ rw_input w' = rw_input w ++ came ls.
Proof.
  induction ls as [|l ls IH]; intros w w' A N E.
  - injection E as <-. rewrite app_nil_r. auto.
  - cbn [rrun] in E. destruct (rstep lib h w l) as [v|] eqn:St; [|discriminate].
    destruct (stopped_step _ _ _ _ _ A N St) as (A' & N' & I'). destruct (IH v w' A' N' E) as (A2 & N2 & I2).
    rewrite I2, I', <- app_assoc. auto.
Qed.
Lemma active_reading lib h s ls : forall w, rrun lib h (reading_world s) ls = Some w -> rw_at w = InRead -> rw_active w = true.
Proof.
  induction ls as [|l ls IH] using rev_ind; intros w E.
  - injection E as <-. reflexivity.
  - apply rrun_snoc in E. destruct E as (v & E & St). specialize (IH v E). destruct v as [s' a inp at_ log]. cbn [rw_at rw_active] in IH.
    destruct l as [b| |]; cbn [rstep] in St.
    + injection St as <-. exact IH.
    + destruct at_ as [|[|tx r]|p r|c t k r|].
      * destruct inp as [|b inp]; [discriminate|]. destruct (sparse lib _ [b]) as [p [res|e]]; injection St as <-; discriminate.
      * injection St as <-. cbn. destruct a; [reflexivity | discriminate].
      * injection St as <-. cbn. destruct (callback_for h s' tx); discriminate.
      * destruct p as [| |c t k|k]; try (injection St as <-; discriminate).
        destruct (execute s' c t) as [s2 [[]|e]]; [destruct (waits_not s' t)|]; injection St as <-; discriminate.
      * destruct (m_completed _); [|discriminate]. injection St as <-. discriminate.
      * discriminate.
    + destruct at_; try discriminate. injection St as <-. discriminate.
Qed.
Lemma stop_from_callback lib h s ls w ls' w' : rrun lib h (reading_world s) ls = Some w -> rw_active w = false ->
  rrun lib h w ls' = Some w' ->
  rw_input w' = rw_input w ++ came ls' /\ (rests w' -> rw_at w' = Ended).
Proof.
  intros E A E'. assert (N : rw_at w <> InRead) by (intro H; rewrite (active_reading _ _ _ _ _ E H) in A; discriminate).
  destruct (stopped_run _ _ _ _ _ A N E') as (A' & N' & I'). split; [exact I'|]. intros [R|R]; [contradiction | exact R].
Qed.

Lemma no_response lib h s ls w c t v : rrun lib h (reading_world s) ls = Some w ->
  In (c, t, v) (rw_results w) -> v = Ok [] \/ exists e, v = Err e.
Proof. intros E H. pose proof (poor_results lib h s ls w E) as F. rewrite Forall_forall in F. exact (F _ H). Qed.
Lemma accepted lib h s ls w c t v : is_byte (sp_up (r_parser (se_reader s))) ->
  rrun lib h (reading_world s) ls = Some w -> In (c, t, v) (rw_results w) ->
  command_wf c -> command_bytes c <= 255 -> v = Ok [].
Proof.
  intros B E H. pose proof (accepted_results lib h s ls B w E) as F. rewrite Forall_forall in F. exact (F _ H).
Qed.
