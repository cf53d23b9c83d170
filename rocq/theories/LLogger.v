(** The logging program. *)
From Coq Require Import Ascii String.
From Verif Require Import MBase LBits LTraffic LSend LModem LConnect LPrint2 SLogger.
Local Open Scope list_scope.
Local Open Scope Z_scope.

(** messages as they come from frames, without [skip_alp_parsing] *)
Definition proper (tx : Z * Msg) : Prop :=
  match snd tx with
  | MInt _ => fst tx = 5
  | MRaw _ => fst tx = 4
  | MCmd c => fst tx <> 4 /\ fst tx <> 5 /\ prints (o_command c)
  end.
Lemma sent_proper x : sent_ok false x -> proper (s_type x, s_msg x).
Proof.
  intros (_ & _ & _ & K). specialize (K [] (Forall_nil _)). inversion K; subst; unfold proper; cbn [fst snd].
  - congruence.
  - congruence.
  - discriminate.
  - refine (conj _ (conj _ _)); [congruence | congruence |]. eapply parsed_prints. eassumption.
Qed.
Lemma sents_proper tr : Forall (sent_ok false) tr -> Forall proper (SSerial.delivered tr).
Proof. induction 1 as [|x tr H _ IH]; [constructor|]. cbn [SSerial.delivered map]. constructor; [apply sent_proper; exact H | exact IH]. Qed.

Lemma skip_same {A} (l : list A) : skipn (length l) l = [].
Proof. apply skipn_all. Qed.
Lemma skip_more {A} (l k : list A) : skipn (length l) (l ++ k) = k.
Proof. rewrite skipn_app, skipn_all, Nat.sub_diag. reflexivity. Qed.

Definition listening (own : Z) (up : bool) (m : Modem) : Prop :=
  m_skip m = false /\ m_has_cb m = true /\ m_has_rbcb m = true /\ m_connected m = up /\ (up = true -> m_tag m = Some own).
Lemma message_step own up m log tx : listening own up m -> proper tx ->
  logger_message (m, log) tx = (dispatch m tx, log ++ own_line own up tx).
Proof.
  intros (S & C & R & U & T) P. destruct tx as [t x]. unfold logger_message. f_equal. f_equal.
  unfold dispatch, is_response, dispatch_other, own_line, proper in *. cbn [fst snd] in *. rewrite S, C, R, U.
  destruct x as [z|l|c]; cbn [negb andb].
  - subst t. change (5 <=? 3) with false. rewrite andb_false_r. cbn [Z.eqb Pos.eqb].
    cbn [set_out m_cb_calls m_rb_calls]. rewrite skip_same, skip_more. reflexivity.
  - subst t. change (4 <=? 3) with false. rewrite andb_false_r. cbn [Z.eqb Pos.eqb].
    cbn [set_out m_cb_calls m_rb_calls]. rewrite !skip_same. reflexivity.
  - destruct P as (N4 & N5 & tx & P). apply Z.eqb_neq in N4, N5. rewrite N4, N5.
    unfold text_or_nothing. rewrite P. destruct up; cbn [andb].
    + rewrite (T eq_refl). unfold tagged. cbn [tag_eqb].
      replace (match c_tag c with Some y => own =? y | None => false end) with (match c_tag c with Some z => z =? own | None => false end)
        by (destruct (c_tag c); [apply Z.eqb_sym | reflexivity]).
      destruct (t <=? 3); destruct (c_tag c) as [z|]; cbn [andb negb]; try destruct (z =? own); cbn [andb negb];
        cbn [set_sync set_out m_cb_calls m_rb_calls]; rewrite ?skip_same, ?skip_more; cbn [message_line flat_map app]; rewrite ?P; reflexivity.
    + destruct (tag_eqb (m_tag m) (c_tag c)); destruct (t <=? 3); cbn [andb negb];
        cbn [set_sync set_out m_cb_calls m_rb_calls]; rewrite ?skip_same; reflexivity.
Qed.
Lemma listening_dispatch own up m tx : listening own up m -> listening own up (dispatch m tx).
Proof.
  intros (S & C & R & U & T). destruct (dispatch_setup m tx) as (A1 & A2 & A3 & A4 & A5 & A6 & _).
  unfold listening. intuition congruence.
Qed.
Lemma messages_step own up ms : forall m log, listening own up m -> Forall proper ms ->
  fold_left logger_message ms (m, log) = (fold_left dispatch ms m, log ++ flat_map (own_line own up) ms)
  /\ listening own up (fold_left dispatch ms m).
Proof.
  induction ms as [|tx ms IH]; intros m log L F; cbn [fold_left flat_map]; [rewrite app_nil_r; auto|].
  inversion F as [|a b P F']; subst. rewrite (message_step own up m log tx L P).
  destruct (IH (dispatch m tx) (log ++ own_line own up tx) (listening_dispatch _ _ _ _ L) F') as [E L'].
  rewrite E, <- app_assoc. auto.
Qed.

(** what is buffered is less than a frame *)
Definition cut (buf : list Z) (tr : list Sent) : Prop :=
  match tr with [] => buf = [] | x :: _ => (length buf < length (sent_frame x))%nat end.
Lemma cut_end buf tr : cut buf tr -> buf = wire tr -> tr = [].
Proof.
  destruct tr as [|x tr]; [reflexivity|]. cbn [cut wire flat_map]. intros C ->. rewrite app_length in C. lia.
Qed.
Lemma whole_cut t1 : forall t2 buf, cut buf t2 -> whole (t1 ++ t2) (length (wire t1 ++ buf)) = t1.
Proof.
  induction t1 as [|x t1 IH]; intros t2 buf C; cbn [app wire flat_map whole].
  - destruct t2 as [|y t2]; [reflexivity|]. cbn [cut] in C. cbn [whole].
    destruct (Nat.leb_spec (length (sent_frame y)) (length buf)); [lia | reflexivity].
  - rewrite <- app_assoc, (app_length (sent_frame x)).
    destruct (Nat.leb_spec (length (sent_frame x)) (length (sent_frame x) + length (flat_map sent_frame t1 ++ buf))); [|lia].
    replace (length (sent_frame x) + length (flat_map sent_frame t1 ++ buf) - length (sent_frame x))%nat
      with (length (wire t1 ++ buf)) by (unfold wire; lia). rewrite (IH _ _ C). reflexivity.
Qed.
Lemma frame_pos x : (0 < length (sent_frame x))%nat.
Proof. destruct (sent_frame_head x) as (r & ->). cbn [length]. lia. Qed.
Lemma runs_cut lib skip l : Forall (sent_ok skip) l -> forall y z, y ++ z = wire l ->
  exists l1 l2 pd fin, l = l1 ++ l2 /\ fin ++ z = wire l2 /\
    runs lib skip y (SSerial.delivered l1) [] (map s_counter l1) pd false fin /\ cut fin l2.
Proof.
  induction 1 as [|x l H Hl IH]; intros y z E; cbn [wire flat_map] in E.
  - apply app_eq_nil in E. destruct E as [-> ->]. exists [], [], 0, []. repeat split. constructor.
  - destruct (app_split _ _ _ _ E) as [(e & Es & ->) | (e & -> & Ed)].
    + destruct e as [|e0 e'].
      * rewrite app_nil_r in Es. cbn [app] in *. subst y.
        exists [x], l, (8 * zlen (sent_frame x) + 0), []. refine (conj eq_refl (conj eq_refl (conj _ _))).
        -- cbn [SSerial.delivered map]. rewrite <- (app_nil_r (sent_frame x)) at 1. apply runs_sent; [exact H | constructor | constructor].
        -- destruct l; [reflexivity | apply frame_pos].
      * assert (CY : cut y (x :: l)) by (cbn [cut]; rewrite Es, app_length; cbn [length]; lia).
        destruct y as [|y0 y'].
        -- exists [], (x :: l), 0, []. cbn [app] in *. refine (conj eq_refl (conj _ (conj _ CY))).
           ++ cbn [wire flat_map]. rewrite Es. reflexivity.
           ++ constructor.
        -- exists [], (x :: l), 0, (y0 :: y'). refine (conj eq_refl (conj E (conj _ CY))).
           destruct H as (Bc & Bt & P & _). change (map s_counter []) with (olist (@None Z)).
           eapply runs_wait; [discriminate | apply (partial_frame skip (s_counter x) (s_type x) (s_payload x) (y0 :: y') (e0 :: e')); assumption || discriminate | reflexivity].
    + symmetry in Ed. destruct (IH _ _ Ed) as (l1 & l2 & pd & fin & -> & Ef & R & Z).
      exists (x :: l1), l2, (8 * zlen (sent_frame x) + pd), fin. refine (conj eq_refl (conj Ef (conj _ Z))).
      cbn [SSerial.delivered map]. apply runs_sent; [exact H | | exact R].
      assert (Fw : Forall is_byte (e ++ z)) by (rewrite Ed; eapply wire_bytes; eassumption).
      apply Forall_app in Fw. tauto.
Qed.

(** the reader fed with part of a traffic *)
Lemma chunk_prefix lib own up s log chunk rest tr : alive s = true -> sp_skip (r_parser (se_reader s)) = false ->
  listening own up (r_modem (se_reader s)) ->
  Forall (sent_ok false) tr -> (sp_buf (r_parser (se_reader s)) ++ chunk) ++ rest = wire tr -> cut (sp_buf (r_parser (se_reader s))) tr ->
  exists t1 t2 p', tr = t1 ++ t2
  /\ logger_chunk lib (s, log) chunk
     = (mkSession (mkReader p' (fold_left dispatch (SSerial.delivered t1) (r_modem (se_reader s))) true) (se_uid s) (se_fw s) (se_sent s),
        log ++ flat_map (own_line own up) (SSerial.delivered t1))
  /\ sp_buf p' ++ rest = wire t2 /\ cut (sp_buf p') t2
  /\ sp_skip p' = false /\ sp_up p' = sp_up (r_parser (se_reader s)).
Proof.
  intros A S L F E K. unfold logger_chunk, alive in *. rewrite A. destruct chunk as [|b chunk].
  - exists [], tr, (r_parser (se_reader s)). cbn [SSerial.delivered map fold_left flat_map app]. rewrite app_nil_r in *.
    refine (conj eq_refl (conj _ (conj E (conj K (conj S eq_refl))))).
    rewrite <- A. destruct s as [[p m a] u f w]. reflexivity.
  - rewrite <- S in F. destruct (runs_cut lib _ tr F _ _ E) as (l1 & l2 & pd & fin & -> & Ef & R & Zf).
    assert (Fall : Forall is_byte ((sp_buf (r_parser (se_reader s)) ++ b :: chunk) ++ rest)) by (rewrite E; eapply wire_bytes; exact F).
    apply Forall_app in Fall. destruct Fall as [Fbc _]. apply Forall_app in Fbc. destruct Fbc as [Fb Fc].
    pose proof (sparse_runs _ _ _ _ _ _ _ _ _ Fb Fc R) as SP. cbv iota in SP. rewrite SP. cbn [pr_msgs].
    rewrite S in F. apply Forall_app in F. destruct F as [F1 F2].
    destruct (messages_step own up (SSerial.delivered l1) (r_modem (se_reader s)) log L (sents_proper _ F1)) as [-> _].
    exists l1, l2. eexists. refine (conj eq_refl (conj eq_refl (conj Ef (conj Zf _)))).
    cbn [set_buf sp_skip sp_up]. rewrite counters_skip, counters_up. auto.
Qed.
Lemma chunks_prefix lib own up chunks : forall s log rest tr, alive s = true -> sp_skip (r_parser (se_reader s)) = false ->
  listening own up (r_modem (se_reader s)) ->
  Forall (sent_ok false) tr -> sp_buf (r_parser (se_reader s)) ++ concat chunks ++ rest = wire tr -> cut (sp_buf (r_parser (se_reader s))) tr ->
  exists t1 t2 p', tr = t1 ++ t2
  /\ logger_chunks lib (s, log) chunks
     = (mkSession (mkReader p' (fold_left dispatch (SSerial.delivered t1) (r_modem (se_reader s))) true) (se_uid s) (se_fw s) (se_sent s),
        log ++ flat_map (own_line own up) (SSerial.delivered t1))
  /\ sp_buf p' ++ rest = wire t2 /\ cut (sp_buf p') t2
  /\ sp_skip p' = false /\ sp_up p' = sp_up (r_parser (se_reader s)).
Proof.
  induction chunks as [|c chunks IH]; intros s log rest tr A S L F E K.
  - exists [], tr, (r_parser (se_reader s)). cbn [SSerial.delivered map fold_left flat_map app logger_chunks concat] in *. rewrite app_nil_r.
    refine (conj eq_refl (conj _ (conj E (conj K (conj S eq_refl))))).
    unfold alive in A. rewrite <- A. destruct s as [[p m a] u f w]. reflexivity.
  - cbn [concat] in E. rewrite <- app_assoc in E. rewrite app_assoc in E.
    destruct (chunk_prefix lib own up s log c _ tr A S L F E K) as (t1 & t2 & p1 & -> & C & E1 & Z1 & S1 & U1).
    apply Forall_app in F. destruct F as [F1 F2].
    destruct (messages_step own up (SSerial.delivered t1) (r_modem (se_reader s)) log L (sents_proper _ F1)) as [_ L1].
    unfold logger_chunks. cbn [fold_left]. rewrite C.
    match goal with |- context [fold_left (logger_chunk lib) chunks (?s1, ?l1)] =>
      destruct (IH s1 l1 rest t2 eq_refl S1 L1 F2 E1 Z1) as (t3 & t4 & p2 & -> & C2 & E2 & Z2 & S2 & U2) end.
    exists (t1 ++ t3), t4, p2. unfold logger_chunks in C2. rewrite C2. cbn [se_reader r_modem r_parser se_uid se_fw se_sent] in *.
    unfold SSerial.delivered. rewrite !map_app, fold_left_app, flat_map_app, !app_assoc.
    refine (conj eq_refl (conj eq_refl (conj E2 (conj Z2 (conj S2 _))))). congruence.
Qed.
Lemma down_reboots own ms : Forall proper ms -> flat_map (own_line own false) ms = flat_map only_reboots ms.
Proof.
  induction 1 as [|tx ms P _ IH]; [reflexivity|]. cbn [flat_map]. rewrite IH. reflexivity.
Qed.
Lemma end_cases s : connected s = false -> match connect_end s with
  | (s', Raised _) => se_sent s' = se_sent s
  | (s', Returned (Some b)) => connected s' = b /\ se_sent s' = se_sent s /\ alive s' = alive s
      /\ r_parser (se_reader s') = r_parser (se_reader s)
      /\ r_modem (se_reader s') = (let m := r_modem (se_reader s) in
           mkModem (m_skip m) (m_has_cb m) (m_has_rbcb m) b (m_heap m) (m_resp m) (m_tag m)
                   (m_completed m) (m_unsol m) (m_rebooted m) (m_cb_calls m) (m_rb_calls m) (m_logged m))
  | _ => False
  end.
Proof.
  unfold connected, alive, connect_end. intros C. destruct (execute_result s) as [|x l].
  - rewrite C. repeat split. destruct s as [[p m a] u f w]. cbn in *. destruct m; cbn in *. subst. reflexivity.
  - destruct x as [z|d|c]; [reflexivity | reflexivity |].
    destruct (connect_actions (se_uid s, se_fw s) (c_actions c)) as [[u f] [e|]]; [reflexivity|].
    repeat split.
Qed.
Lemma start_listening rnd : listening rnd false (r_modem (se_reader (new_session false true true))).
Proof. repeat split. discriminate. Qed.
(** up to the end of connect() *)
Definition waiting_state (p' : SParser) (rnd : Z) (t1 t2 : list Sent) : Session :=
  mkSession (mkReader p' (fold_left dispatch (SSerial.delivered t2)
     (exec_start (fold_left dispatch (SSerial.delivered t1) (new_modem false true true)) (Some rnd) 10)) true) None None
     (frame 0 1 (connect_request rnd)).
Lemma logger_prefix lib rnd before during after rest tr : 0 <= rnd <= 255 -> Forall (sent_ok false) tr ->
  concat before ++ concat during ++ concat after ++ rest = wire tr ->
  exists t1 t2 t3 p', tr = t1 ++ t2 ++ t3
  /\ logger_program lib rnd before during after
     = (let s := waiting_state p' rnd t1 t2 in let log := reboots t1 ++ reboots t2 in
        match connect_end s with
        | (s, Raised e) => ((s, log), Raised e)
        | (s, p) => (logger_chunks lib (s, log) after, p)
        end)
  /\ sp_buf p' ++ concat after ++ rest = wire t3 /\ cut (sp_buf p') t3 /\ sp_skip p' = false
  /\ whole tr (number_of_bytes before) = t1 /\ whole tr (number_of_bytes before + number_of_bytes during) = t1 ++ t2
  /\ listening rnd false (r_modem (se_reader (waiting_state p' rnd t1 t2))) /\ m_tag (r_modem (se_reader (waiting_state p' rnd t1 t2))) = Some rnd.
Proof.
  intros H F E. unfold logger_program.
  assert (C0 : cut (sp_buf (r_parser (se_reader (new_session false true true)))) tr) by (destruct tr; [reflexivity | apply frame_pos]).
  destruct (chunks_prefix lib rnd false before (new_session false true true) [] (concat during ++ concat after ++ rest) tr
    eq_refl eq_refl (start_listening rnd) F E C0) as (t1 & t2' & p1 & -> & G1 & E1 & K1 & S1 & U1).
  assert (W1 : whole (t1 ++ t2') (number_of_bytes before) = t1).
  { rewrite <- (whole_cut t1 t2' (sp_buf p1) K1) at 2. f_equal. unfold number_of_bytes. f_equal.
    apply (app_inv_tail (concat during ++ concat after ++ rest)). rewrite E, <- app_assoc, E1. unfold wire. apply flat_map_app. }
  apply Forall_app in F. destruct F as [F1 F2'].
  destruct (messages_step rnd false (SSerial.delivered t1) _ [] (start_listening rnd) (sents_proper _ F1)) as [_ L1].
  rewrite G1. cbn [se_reader r_modem se_uid se_fw se_sent new_session app] in *.
  rewrite connect_sends; [| exact H | apply L1 | apply L1 | cbn [se_reader r_parser]; rewrite U1; unfold is_byte; cbn; lia].
  cbn [se_reader r_parser r_modem alive r_alive se_uid se_fw se_sent app]. rewrite U1. cbn [r_parser se_reader new_session new_parser sp_up].
  match goal with |- context [logger_chunks lib (?s1, ?l1) during] => set (s2 := s1); set (log1 := l1) end.
  assert (L2 : listening rnd false (r_modem (se_reader s2))).
  { destruct L1 as (A1 & A2 & A3 & A4 & A5). repeat split; try assumption. discriminate. }
  destruct (chunks_prefix lib rnd false during s2 log1 (concat after ++ rest) t2' eq_refl S1 L2 F2' E1 K1)
    as (t2 & t3 & p2 & -> & G2 & E2 & K2 & S2 & U2).
  rewrite G2. apply Forall_app in F2'. destruct F2' as [F2 F3].
  destruct (messages_step rnd false (SSerial.delivered t2) _ [] L2 (sents_proper _ F2)) as [_ L3].
  exists t1, t2, t3, p2. unfold waiting_state. cbn [se_reader r_modem].
  refine (conj eq_refl (conj _ (conj E2 (conj K2 (conj S2 (conj W1 (conj _ (conj L3 _)))))))).
  - unfold log1, s2. rewrite !down_reboots by (apply sents_proper; assumption).
    cbn [se_reader r_modem se_uid se_fw se_sent alive r_alive]. reflexivity.
  - rewrite app_assoc. rewrite <- (whole_cut (t1 ++ t2) t3 (sp_buf p2) K2) at 2. f_equal. unfold number_of_bytes.
    rewrite <- app_length. f_equal. apply (app_inv_tail (concat after ++ rest)). rewrite <- !app_assoc, E, E2.
    unfold wire. rewrite !flat_map_app. rewrite ?app_assoc. reflexivity.
  - destruct (dispatches_setup (SSerial.delivered t2) (r_modem (se_reader s2))) as (_ & _ & _ & _ & _ & T & _).
    unfold s2 in T. cbn [se_reader r_modem] in T. rewrite T. unfold exec_start.
    destruct L1 as (A1 & _). rewrite A1. reflexivity.
Qed.
Lemma logger_log lib rnd before during after rest tr : 0 <= rnd <= 255 -> Forall (sent_ok false) tr ->
  concat before ++ concat during ++ concat after ++ rest = wire tr ->
  exists s log p later, logger_program lib rnd before during after = ((s, log), p)
  /\ let seen := whole tr (number_of_bytes before + number_of_bytes during) in
     whole tr (number_of_bytes before + number_of_bytes during + number_of_bytes after) = seen ++ later
  /\ se_sent s = frame 0 1 (connect_request rnd)
  /\ match p with
     | Returned (Some b) => connected s = b /\ alive s = true /\ log = reboots seen ++ lines rnd b later
     | Raised _ => log = reboots seen
     | _ => False
     end.
Proof.
  intros H F E. destruct (logger_prefix lib rnd before during after rest tr H F E)
    as (t1 & t2 & t3 & p' & -> & G & E3 & K3 & S3 & W1 & W2 & L & T).
  rewrite G. clear G. rewrite W2. set (s2 := waiting_state p' rnd t1 t2) in *. cbv zeta.
  assert (RB : reboots (t1 ++ t2) = reboots t1 ++ reboots t2).
  { unfold reboots, SSerial.delivered. rewrite map_app, flat_map_app. reflexivity. }
  apply Forall_app in F. destruct F as [_ F]. apply Forall_app in F. destruct F as [_ F3].
  assert (N : exists later, whole (t1 ++ t2 ++ t3) (number_of_bytes before + number_of_bytes during + number_of_bytes after) = (t1 ++ t2) ++ later
     /\ forall s log b, alive s = true -> r_parser (se_reader s) = p' -> listening rnd b (r_modem (se_reader s)) ->
        exists s', logger_chunks lib (s, log) after = (s', log ++ lines rnd b later) /\ connected s' = b /\ alive s' = true /\ se_sent s' = se_sent s).
  { assert (Q : forall s log b, alive s = true -> r_parser (se_reader s) = p' -> listening rnd b (r_modem (se_reader s)) ->
      exists t4 t5 p4, t3 = t4 ++ t5 /\ sp_buf p4 ++ rest = wire t5 /\ cut (sp_buf p4) t5
      /\ exists s', logger_chunks lib (s, log) after = (s', log ++ lines rnd b t4) /\ connected s' = b /\ alive s' = true /\ se_sent s' = se_sent s).
    { intros s log b A P Ls. rewrite <- P in E3, K3, S3.
      destruct (chunks_prefix lib rnd b after s log rest t3 A S3 Ls F3 E3 K3) as (t4 & t5 & p4 & -> & G4 & E4 & K4 & _).
      exists t4, t5, p4. refine (conj eq_refl (conj E4 (conj K4 _))). eexists. refine (conj G4 _).
      destruct (dispatches_setup (SSerial.delivered t4) (r_modem (se_reader s))) as (_ & _ & _ & C & _).
      unfold connected. cbn [se_reader r_modem]. rewrite C. refine (conj _ (conj eq_refl eq_refl)). apply Ls. }
    exists (skipn (length (t1 ++ t2)) (whole (t1 ++ t2 ++ t3) (number_of_bytes before + number_of_bytes during + number_of_bytes after))).
    assert (Q' : forall t4 t5 p4, t3 = t4 ++ t5 -> sp_buf p4 ++ rest = wire t5 -> cut (sp_buf p4) t5 ->
      whole (t1 ++ t2 ++ t3) (number_of_bytes before + number_of_bytes during + number_of_bytes after) = (t1 ++ t2) ++ t4).
    { intros t4 t5 p4 -> E5 K5. rewrite <- (whole_cut ((t1 ++ t2) ++ t4) t5 (sp_buf p4) K5). rewrite <- !app_assoc. f_equal.
      unfold number_of_bytes. rewrite <- !app_length. f_equal. apply (app_inv_tail rest). rewrite <- !app_assoc, E, E5.
      unfold wire. rewrite !flat_map_app, <- ?app_assoc. reflexivity. }
    split.
    - destruct (Q s2 [] false eq_refl eq_refl L) as (t4 & t5 & p4 & Et & E5 & K5 & _).
      rewrite (Q' t4 t5 p4 Et E5 K5), skip_more. reflexivity.
    - intros s log b A P Ls. destruct (Q s log b A P Ls) as (t4 & t5 & p4 & Et & E5 & K5 & R).
      rewrite (Q' t4 t5 p4 Et E5 K5), skip_more. exact R. }
  destruct N as (later & N1 & N2). rewrite N1.
  assert (C2 : connected s2 = false) by apply L.
  pose proof (end_cases s2 C2) as EC. destruct (connect_end s2) as [s3 p]. destruct p as [[b|]|e|]; try contradiction.
  - destruct EC as (EC1 & EC2 & EC3 & EC4 & EC5).
    destruct (N2 s3 (reboots t1 ++ reboots t2) b) as (s4 & G4 & X1 & X2 & X3).
    + rewrite EC3. reflexivity.
    + rewrite EC4. reflexivity.
    + rewrite EC5. destruct L as (A1 & A2 & A3 & A4 & A5). repeat split; try assumption. intros _. exact T.
    + exists s4. eexists. exists (Returned (Some b)), later. rewrite G4. refine (conj eq_refl (conj eq_refl (conj _ (conj X1 (conj X2 _))))).
      * rewrite X3, EC2. reflexivity.
      * rewrite RB. reflexivity.
  - exists s3. eexists. exists (Raised e), later. refine (conj eq_refl (conj eq_refl (conj _ _))).
    + rewrite EC. reflexivity.
    + rewrite RB. reflexivity.
Qed.
(** what connect() makes of the messages that arrive meanwhile *)
Lemma program_result lib rnd before during after t1 t2 p' :
  logger_program lib rnd before during after
     = (let s := waiting_state p' rnd t1 t2 in let log := reboots t1 ++ reboots t2 in
        match connect_end s with
        | (s, Raised e) => ((s, log), Raised e)
        | (s, p) => (logger_chunks lib (s, log) after, p)
        end) ->
  snd (logger_program lib rnd before during after) = snd (connect_end (waiting_state p' rnd t1 t2)).
Proof. intros ->. cbv zeta. destruct (connect_end _) as [s [v|e|]]; reflexivity. Qed.
Lemma waiting_result p' rnd t1 t2 sel : answers_in (Some rnd) (SSerial.delivered t2) sel ->
  let result := execute_result (waiting_state p' rnd t1 t2) in
  (some_completed sel /\ result = sel) \/ (~ some_completed sel /\ result = []).
Proof.
  intros A. unfold execute_result, waiting_state. cbn [se_reader r_modem]. apply sync_result; [|lia | exact A].
  destruct (dispatches_setup (SSerial.delivered t1) (new_modem false true true)) as (Q & _). rewrite Q. reflexivity.
Qed.
Lemma selected tag l sel : answers_in tag l sel -> forall x, In x sel -> exists t, t <= 3 /\ In (t, x) l /\ answers tag x.
Proof.
  induction 1; intros y I; [destruct I | |].
  - destruct I as [<- | I]; [eexists; repeat split; [eassumption | left; reflexivity | assumption]|].
    destruct (IHanswers_in _ I) as (t' & ? & ? & ?). exists t'. repeat split; auto. right; assumption.
  - destruct (IHanswers_in _ I) as (t' & ? & ? & ?). exists t'. repeat split; auto. right; assumption.
Qed.
Lemma logger_unanswered lib rnd before during after rest tr meanwhile : 0 <= rnd <= 255 -> Forall (sent_ok false) tr ->
  concat before ++ concat during ++ concat after ++ rest = wire tr ->
  whole tr (number_of_bytes before + number_of_bytes during) = whole tr (number_of_bytes before) ++ meanwhile ->
  Forall (fun x => ~ ends_request rnd x) meanwhile ->
  snd (logger_program lib rnd before during after) = Returned (Some false).
Proof.
  intros H F E M N. destruct (logger_prefix lib rnd before during after rest tr H F E)
    as (t1 & t2 & t3 & p' & -> & G & _ & _ & _ & W1 & W2 & _).
  rewrite W1, W2 in M. apply app_inv_head in M. subst meanwhile.
  rewrite (program_result _ _ _ _ _ _ _ _ G).
  destruct (answers_exist (Some rnd) (SSerial.delivered t2)) as (sel & A).
  destruct (waiting_result p' rnd t1 t2 sel A) as [[C R] | [_ R]].
  - exfalso. destruct C as (c & I & K). destruct (selected _ _ _ A _ I) as (t & Ht & It & c' & Ec & Tc). 
    unfold SSerial.delivered in It. apply in_map_iff in It. destruct It as (x & Ex & Ix). injection Ex as Ex1 Ex2.
    rewrite Forall_forall in N. apply (N x Ix). split; [lia|]. exists c'. rewrite Ex2. injection Ec as ->. auto.
  - unfold connect_end. rewrite R. reflexivity.
Qed.
Lemma logger_answered lib rnd before during after rest tr meanwhile c more : 0 <= rnd <= 255 -> Forall (sent_ok false) tr ->
  concat before ++ concat during ++ concat after ++ rest = wire tr ->
  whole tr (number_of_bytes before + number_of_bytes during) = whole tr (number_of_bytes before) ++ meanwhile ->
  answers_in (Some rnd) (SSerial.delivered meanwhile) (MCmd c :: more) -> some_completed (MCmd c :: more) ->
  Forall usable (returned_files c) ->
  exists b, snd (logger_program lib rnd before during after) = Returned (Some b)
  /\ (b = true <-> latest 0 (returned_files c) <> None /\ latest 2 (returned_files c) <> None).
Proof.
  intros H F E M A K U. destruct (logger_prefix lib rnd before during after rest tr H F E)
    as (t1 & t2 & t3 & p' & -> & G & _ & _ & _ & W1 & W2 & L & _).
  rewrite W1, W2 in M. apply app_inv_head in M. subst meanwhile.
  rewrite (program_result _ _ _ _ _ _ _ _ G).
  destruct (waiting_result p' rnd t1 t2 _ A) as [[_ R] | [N _]]; [|contradiction].
  assert (C : connected (waiting_state p' rnd t1 t2) = false) by apply L.
  destruct (connect_answered _ _ _ R C U) as (s' & b & -> & K1 & K2 & _ & K4). exists b. split; [reflexivity|].
  rewrite K4. unfold known_both, learns_uid, learns_fw in *. cbn [waiting_state se_uid se_fw] in K1, K2.
  destruct (latest 0 (returned_files c)); destruct (latest 2 (returned_files c)); try destruct K2 as (f & K2 & _); rewrite K1, K2;
    split; intros [? ?]; split; congruence.
Qed.
Lemma reboots_only tr l : In l (reboots tr) -> exists z, l = Rebooted z.
Proof.
  unfold reboots. intros I. apply in_flat_map in I. destruct I as (tx & _ & I). unfold only_reboots in I.
  destruct (snd tx); [destruct I as [<-|[]]; eexists; reflexivity | destruct I | destruct I].
Qed.
Lemma lines_down own tr : lines own false tr = reboots tr.
Proof. unfold lines, reboots. induction (SSerial.delivered tr) as [|tx l IH]; [reflexivity|]. cbn [flat_map]. rewrite IH. reflexivity. Qed.
Lemma logger_silent lib rnd before during after rest tr meanwhile : 0 <= rnd <= 255 -> Forall (sent_ok false) tr ->
  concat before ++ concat during ++ concat after ++ rest = wire tr ->
  whole tr (number_of_bytes before + number_of_bytes during) = whole tr (number_of_bytes before) ++ meanwhile ->
  Forall (fun x => ~ ends_request rnd x) meanwhile ->
  exists s log, logger_program lib rnd before during after = ((s, log), Returned (Some false))
  /\ alive s = true /\ log = reboots (whole tr (number_of_bytes before + number_of_bytes during + number_of_bytes after))
  /\ forall t, ~ In (Message t) log.
Proof.
  intros H F E M N. pose proof (logger_unanswered lib rnd before during after rest tr meanwhile H F E M N) as U.
  destruct (logger_log lib rnd before during after rest tr H F E) as (s & log & p & later & G & W & _ & Q). rewrite G in U |- *.
  cbn [snd] in U. subst p. destruct Q as (_ & A & ->). exists s. eexists. refine (conj eq_refl (conj A (conj _ _))).
  - rewrite lines_down, W. unfold reboots, SSerial.delivered. rewrite map_app, flat_map_app. reflexivity.
  - intros t I. rewrite lines_down in I. apply in_app_or in I.
    destruct I as [I|I]; apply reboots_only in I; destruct I as (z & I); discriminate I.
Qed.
Lemma whole_all tr : whole tr (length (wire tr)) = tr.
Proof. pose proof (whole_cut tr [] [] eq_refl) as W. rewrite !app_nil_r in W. exact W. Qed.

(** ** Any bytes *)
Lemma dispatch_grows m tx : exists a b, m_cb_calls (dispatch m tx) = m_cb_calls m ++ a /\ m_rb_calls (dispatch m tx) = m_rb_calls m ++ b.
Proof.
  destruct tx as [t x]. unfold dispatch. destruct (is_response m t x).
  - exists [], []. cbn. rewrite !app_nil_r. auto.
  - unfold dispatch_other. repeat match goal with |- context [if ?b then _ else _] => destruct b end;
      cbn [set_out m_cb_calls m_rb_calls];
      first [exists [x], []; rewrite ?app_nil_r; split; reflexivity | exists [], [x]; rewrite ?app_nil_r; split; reflexivity
            | exists [], []; rewrite ?app_nil_r; split; reflexivity].
Qed.
Lemma message_lines l : filter is_message (flat_map message_line l) = flat_map message_line l
  /\ filter (fun x => negb (is_message x)) (flat_map message_line l) = [].
Proof.
  induction l as [|x l [A B]]; [auto|]. cbn [flat_map]. rewrite !filter_app, A, B.
  destruct x as [z|y|c]; cbn [message_line]; [auto | auto |]. destruct (str (o_command c)); cbn; auto.
Qed.
Lemma reboot_lines l : filter (fun x => negb (is_message x)) (flat_map reboot_line l) = flat_map reboot_line l
  /\ filter is_message (flat_map reboot_line l) = [].
Proof. induction l as [|x l [A B]]; [auto|]. cbn [flat_map]. rewrite !filter_app, A, B. destruct x; cbn; auto. Qed.
Lemma messages_any ms : forall m log, exists new a b, fold_left logger_message ms (m, log) = (fold_left dispatch ms m, log ++ new)
  /\ m_cb_calls (fold_left dispatch ms m) = m_cb_calls m ++ a /\ m_rb_calls (fold_left dispatch ms m) = m_rb_calls m ++ b
  /\ filter is_message new = flat_map message_line a /\ filter (fun x => negb (is_message x)) new = flat_map reboot_line b.
Proof.
  induction ms as [|tx ms IH]; intros m log; cbn [fold_left].
  - exists [], [], []. rewrite !app_nil_r. auto.
  - unfold logger_message at 2. destruct (dispatch_grows m tx) as (a1 & b1 & A1 & B1). rewrite A1, B1, !skip_more.
    destruct (IH (dispatch m tx) (log ++ flat_map message_line a1 ++ flat_map reboot_line b1)) as (new & a & b & E & A & B & Fa & Fb).
    exists ((flat_map message_line a1 ++ flat_map reboot_line b1) ++ new), (a1 ++ a), (b1 ++ b).
    rewrite E, A, B, A1, B1, !filter_app, Fa, Fb, !flat_map_app, <- !app_assoc.
    destruct (message_lines a1) as [-> ->], (reboot_lines b1) as [-> ->]. cbn [app]. auto.
Qed.
Lemma chunk_any lib s log chunk : exists new a b, logger_chunk lib (s, log) chunk = (device lib s (DBytes chunk), log ++ new)
  /\ let m := r_modem (se_reader s) in let m2 := r_modem (se_reader (device lib s (DBytes chunk))) in
     m_cb_calls m2 = m_cb_calls m ++ a /\ m_rb_calls m2 = m_rb_calls m ++ b
  /\ filter is_message new = flat_map message_line a /\ filter (fun x => negb (is_message x)) new = flat_map reboot_line b.
Proof.
  destruct s as [[p m al] u f t]. unfold logger_chunk, device, reader_chunk. cbn [se_reader r_alive r_parser r_modem se_uid se_fw se_sent].
  destruct al; [|exists [], [], []; cbn; rewrite !app_nil_r; auto]. destruct chunk as [|c cs]; [exists [], [], []; cbn; rewrite !app_nil_r; auto|].
  destruct (sparse lib p (c :: cs)) as [p' [res|e]]; [|exists [], [], []; cbn; rewrite !app_nil_r; auto].
  destruct (messages_any (pr_msgs res) m log) as (new & a & b & E & H). exists new, a, b. rewrite E. cbn [r_modem se_reader]. auto.
Qed.
Lemma chunks_any lib chunks : forall s log, let s2 := devices lib s (map DBytes chunks) in
  exists new a b, logger_chunks lib (s, log) chunks = (s2, log ++ new)
  /\ m_cb_calls (r_modem (se_reader s2)) = m_cb_calls (r_modem (se_reader s)) ++ a
  /\ m_rb_calls (r_modem (se_reader s2)) = m_rb_calls (r_modem (se_reader s)) ++ b
  /\ filter is_message new = flat_map message_line a /\ filter (fun x => negb (is_message x)) new = flat_map reboot_line b.
Proof.
  induction chunks as [|c cs IH]; intros s log; cbv zeta.
  - exists [], [], []. cbn. rewrite !app_nil_r. auto.
  - unfold logger_chunks, devices. cbn [map fold_left].
    destruct (chunk_any lib s log c) as (n1 & a1 & b1 & E1 & A1 & B1 & F1 & G1). rewrite E1.
    destruct (IH (device lib s (DBytes c)) (log ++ n1)) as (n2 & a2 & b2 & E2 & A2 & B2 & F2 & G2).
    unfold logger_chunks, devices in E2, A2, B2. exists (n1 ++ n2), (a1 ++ a2), (b1 ++ b2).
    rewrite E2, A2, B2, A1, B1, !filter_app, F1, F2, G1, G2, !flat_map_app, <- !app_assoc. auto.
Qed.
Lemma log_any lib chunks s log : let s2 := devices lib s (map DBytes chunks) in
  exists new, logger_chunks lib (s, log) chunks = (s2, log ++ new)
  /\ filter is_message new = flat_map message_line (new_commands s s2)
  /\ filter (fun x => negb (is_message x)) new = flat_map reboot_line (new_reboots s s2).
Proof.
  cbv zeta. destruct (chunks_any lib chunks s log) as (new & a & b & E & A & B & F & G). exists new.
  unfold new_commands, new_reboots. rewrite A, B, !skip_more. auto.
Qed.
Lemma log_ends lib s log chunk e p chunks : alive s = true -> chunk <> [] -> sparse lib (r_parser (se_reader s)) chunk = (p, Err e) ->
  exists s2, logger_chunks lib (s, log) (chunk :: chunks) = (s2, log) /\ alive s2 = false.
Proof.
  intros A N E. unfold logger_chunks. cbn [fold_left]. destruct s as [[q m al] u f t]. unfold alive in A. cbn [se_reader r_alive r_parser] in *. subst al.
  unfold logger_chunk at 2. cbn [se_reader r_alive r_parser]. destruct chunk as [|c cs]; [congruence|]. rewrite E.
  set (s2 := mkSession _ _ _ _). exists s2. split; [|reflexivity].
  induction chunks as [|x chunks IH]; [reflexivity|]. exact IH.
Qed.
