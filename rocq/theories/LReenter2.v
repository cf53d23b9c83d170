From Verif Require Import Bits LBits LBytes LGood LTypes LAlp LAction LCommand LReser LTraffic LRun LSend LLink LChunk LSerialProps LFiles LBuild SReenter LModem LConnect LConverse LLife LReenter.

(** ** Messages leave the receiving half of the parser alone *)
Definition at_parser (st : Seq) : SParser := parser_of (sq_session st).
Definition at_modem (st : Seq) : Modem := modem_of (sq_session st).
Lemma execute_parser s c t : exists u, parser_of (fst (execute s c t)) = with_up (parser_of s) u.
Proof.
  unfold execute, parser_of. pose proof (build_only_up (r_parser (se_reader s)) (command_ser c)) as H.
  destruct (build_serial_frame _ _) as [p [b|e]]; cbn in *.
  - exists (sp_up p). exact H.
  - exists (sp_up (r_parser (se_reader s))). symmetry. apply up_self.
Qed.
Lemma with_up_twice p u v : with_up (with_up p u) v = with_up p v.
Proof. reflexivity. Qed.
Lemma perform_parser p : forall st, exists u, at_parser (perform st p) = with_up (at_parser st) u.
Proof.
  induction p as [| |c t k IH|k IH]; intro st.
  - exists (sp_up (at_parser st)). symmetry. apply up_self.
  - exists (sp_up (at_parser st)). symmetry. apply up_self.
  - cbn [perform]. destruct (execute (sq_session st) c t) as [s' r] eqn:X.
    destruct (execute_parser (sq_session st) c t) as (u & U). rewrite X in U. cbn [fst] in U.
    match goal with |- context [perform ?st' (k ?v)] => destruct (IH v st') as (u' & U') end.
    exists u'. rewrite U'. unfold at_parser at 1. cbn [sq_session]. rewrite U. apply with_up_twice.
  - cbn [perform]. destruct (IH (mkSeq (sq_session st) false (sq_ended st) (sq_log st))) as (u & U). exists u. exact U.
Qed.
Lemma message_parser h st tx : exists u, at_parser (message h st tx) = with_up (at_parser st) u.
Proof.
  unfold message. destruct (sq_ended st).
  - exists (sp_up (at_parser st)). symmetry. apply up_self.
  - destruct (callback_for h (sq_session st) tx) as [p|].
    + match goal with |- context [perform ?st' p] => destruct (perform_parser p st') as (u & U) end. exists u. exact U.
    + exists (sp_up (at_parser st)). symmetry. apply up_self.
Qed.
Lemma messages_parser h ms : forall st, exists u, at_parser (fold_left (message h) ms st) = with_up (at_parser st) u.
Proof.
  induction ms as [|tx ms IH]; intro st; cbn.
  - exists (sp_up (at_parser st)). symmetry. apply up_self.
  - destruct (message_parser h st tx) as (u & U). destruct (IH (message h st tx)) as (v & V). exists v. rewrite V, U. reflexivity.
Qed.
Definition swap_parser (st : Seq) (p : SParser) : Seq :=
  mkSeq (with_reader (sq_session st) (mkReader p (at_modem st) (r_alive (se_reader (sq_session st)))))
        (sq_active st) (sq_ended st) (sq_log st).

Section Induction.
Context (lib : bool) (h : Handlers) (D : list (Z * Msg)) (I : list (Z * Msg) -> Seq -> Prop).
Hypothesis I_parser : forall ms st p, I ms st -> sp_up p = sp_up (at_parser st) -> I ms (swap_parser st p).
Hypothesis I_going : forall ms st, I ms st -> sq_ended st = false /\ sq_active st = true.
Hypothesis I_message : forall ms tx suf st, ms ++ tx :: suf = D -> I ms st -> I (ms ++ [tx]) (message h st tx).
Lemma seq_messages ms : forall pre suf st, pre ++ ms ++ suf = D -> I pre st -> I (pre ++ ms) (fold_left (message h) ms st).
Proof using I_message.
  induction ms as [|tx ms IH]; intros pre suf st E H; cbn [fold_left].
  - rewrite app_nil_r. exact H.
  - replace (pre ++ tx :: ms) with ((pre ++ [tx]) ++ ms) by (rewrite <- app_assoc; reflexivity).
    apply (IH (pre ++ [tx]) suf); [rewrite <- app_assoc; exact E|]. apply (I_message pre tx (ms ++ suf)); assumption.
Qed.
Lemma seq_feeds p chunks p' ms es : feeds lib p chunks p' ms es ->
  forall bs, chunks = map (fun b => [b]) bs -> forall pre suf st u, pre ++ ms ++ suf = D -> at_parser st = with_up p u -> I pre st ->
  I (pre ++ ms) (fold_left (one_byte lib h) bs st).
Proof using I_parser I_going I_message.
  induction 1 as [p|p c p1 r cs p2 ms es P H IH]; intros bs B pre suf st u E A Hi.
  - destruct bs; [|discriminate]. rewrite app_nil_r. exact Hi.
  - destruct bs as [|b bs]; [discriminate|]. injection B as -> B. cbn [fold_left].
    destruct (I_going _ _ Hi) as (En & Ac).
    assert (O : one_byte lib h st b = next_round (fold_left (message h) (pr_msgs r) (swap_parser st (with_up p1 u)))).
    { unfold one_byte. rewrite En. change (r_parser (se_reader (sq_session st))) with (at_parser st). rewrite A, sparse_with_up, P.
      cbn [fst snd]. unfold swap_parser. rewrite En. reflexivity. }
    assert (Hm : I (pre ++ pr_msgs r) (fold_left (message h) (pr_msgs r) (swap_parser st (with_up p1 u)))).
    { apply (seq_messages _ _ (ms ++ suf)); [rewrite app_assoc in E |- *; rewrite <- E, <- !app_assoc; reflexivity|].
      apply I_parser; [exact Hi|]. rewrite A. reflexivity. }
    destruct (I_going _ _ Hm) as (_ & Ac'). unfold next_round in O. rewrite Ac' in O. rewrite O, app_assoc.
    destruct (messages_parser h (pr_msgs r) (swap_parser st (with_up p1 u))) as (v & V).
    apply (IH bs B _ suf _ v); [rewrite <- E, <- !app_assoc; reflexivity | | exact Hm].
    rewrite V. reflexivity.
Qed.
End Induction.

Lemma single_concat (l : list Z) : concat (map (fun b => [b]) l) = l.
Proof. induction l; cbn; congruence. Qed.
Lemma seq_traffic lib h s tr (I : list (Z * Msg) -> Seq -> Prop) : in_use s -> Forall (sent_ok false) tr ->
  (forall ms st p, I ms st -> sp_up p = sp_up (at_parser st) -> I ms (swap_parser st p)) ->
  (forall ms st, I ms st -> sq_ended st = false /\ sq_active st = true) ->
  (forall ms tx suf st, ms ++ tx :: suf = SSerial.delivered tr -> I ms st -> I (ms ++ [tx]) (message h st tx)) ->
  I [] (mkSeq s true false []) -> I (SSerial.delivered tr) (in_sequence lib h s (wire tr)).
Proof.
  intros (_ & B & S & Dn & _) F I1 I2 I3 I0. destruct (map (fun b => [b]) (wire tr)) as [|c cs] eqn:M.
  - assert (W : wire tr = []) by (destruct (wire tr); [reflexivity | discriminate]). rewrite W. rewrite (wire_nil _ W). exact I0.
  - destruct (traffic lib (map (fun b => [b]) (wire tr)) (r_parser (se_reader s)) tr) as (p' & H & _).
    { rewrite S. exact F. }
    { rewrite B, single_concat. reflexivity. }
    { rewrite M. discriminate. }
    { exact Dn. }
    apply (seq_feeds lib h (SSerial.delivered tr) I I1 I2 I3 _ _ _ _ _ H (wire tr) eq_refl [] [] _ (sp_up (r_parser (se_reader s)))).
    + rewrite app_nil_r. reflexivity.
    + symmetry. apply up_self.
    + exact I0.
Qed.

(** ** Asynchronous callbacks *)
Definition flags (m : Modem) : bool * bool * bool * bool * option Z := (m_skip m, m_has_cb m, m_has_rbcb m, m_connected m, m_tag m).
Lemma dispatch_flags m tx : flags (dispatch m tx) = flags m.
Proof. destruct (dispatch_setup m tx) as (A & B & C & D & _ & E & _). unfold flags. rewrite A, B, C, D, E. reflexivity. Qed.
Lemma dispatches_flags ms : forall m, flags (fold_left dispatch ms m) = flags m.
Proof. induction ms as [|tx ms IH]; intro m; cbn; [reflexivity|]. rewrite IH. apply dispatch_flags. Qed.
Lemma flags_tag m m' : flags m = flags m' -> m_tag m = m_tag m'.
Proof. unfold flags. congruence. Qed.
Lemma place_flags m m' t x : flags m = flags m' -> place m t x = place m' t x.
Proof.
  unfold flags. intro E. injection E as A B C D T. unfold place.
  assert (is_response m t x = is_response m' t x) as -> by (destruct x; cbn; rewrite ?A, ?T; reflexivity).
  rewrite B, C, D. reflexivity.
Qed.
Definition kept (m : Modem) (st : Seq) : Prop :=
  sq_ended st = false /\ sq_active st = true /\ flags (at_modem st) = flags m
  /\ (m_resp (at_modem st) < length (m_heap (at_modem st)))%nat
  /\ forall p, p <> PResult -> inbox p (at_modem st) = inbox p m.
Lemma exec_flags m tag t : t <= 0 -> m_tag m = None -> flags (exec_start m tag t) = flags m.
Proof. intros L N. unfold flags. rewrite async_result by (left; exact L). rewrite N. reflexivity. Qed.
Lemma async_kept m p : m_tag m = None -> asynchronous p -> forall st, kept m st -> kept m (perform st p).
Proof.
  intros N A. induction A as [|c t k L _ IH]; intros st K; [exact K|]. cbn [perform].
  destruct K as (En & Ac & Fl & Li & Ib). unfold execute. destruct (build_serial_frame _ _) as [q [b|e]]; apply IH.
  - unfold kept, at_modem, modem_of in *. cbn [sq_ended sq_active sq_session se_reader r_modem].
    refine (conj En (conj Ac (conj _ (conj _ _)))).
    + rewrite exec_flags; [exact Fl | exact L|]. rewrite (flags_tag _ _ Fl). exact N.
    + cbn. rewrite app_length. cbn. lia.
    + intros p Np. rewrite command_leaves by exact Np. apply Ib. exact Np.
  - refine (conj En (conj Ac (conj Fl (conj Li Ib)))).
Qed.
Lemma async_traffic lib h s tr p sel : in_use s -> not_collecting s -> has_list s -> asynchronous_handlers h ->
  Forall (sent_ok false) tr -> p <> PResult -> sorted (r_modem (se_reader s)) p (SSerial.delivered tr) sel ->
  session_inbox p (sq_session (in_sequence lib h s (wire tr))) = session_inbox p s ++ sel
  /\ sq_ended (in_sequence lib h s (wire tr)) = false.
Proof.
  intros U N L (Hc & Hr) F Np So.
  pose (I := fun ms st => kept (fold_left dispatch ms (modem_of s)) st).
  assert (K : I (SSerial.delivered tr) (in_sequence lib h s (wire tr))).
  { apply seq_traffic; unfold I; try assumption.
    - intros ms st q K _. exact K.
    - intros ms st K. split; apply K.
    - intros ms [t x] suf st E K. rewrite fold_left_app. cbn [fold_left]. set (m := fold_left dispatch ms (modem_of s)) in *.
      assert (Tm : m_tag (dispatch m (t, x)) = None).
      { assert (Q : flags (dispatch m (t, x)) = flags (modem_of s)) by (rewrite dispatch_flags; apply dispatches_flags).
        rewrite (flags_tag _ _ Q). exact N. }
      destruct K as (En & Ac & Fl & Li & Ib).
      assert (K' : kept (dispatch m (t, x)) (mkSeq (with_modem (sq_session st) (dispatch (at_modem st) (t, x))) (sq_active st) false (sq_log st))).
      { unfold kept, at_modem, modem_of in *. cbn [sq_ended sq_active sq_session with_modem with_reader se_reader r_modem].
        refine (conj eq_refl (conj Ac (conj _ (conj _ _)))).
        - rewrite !dispatch_flags. exact Fl.
        - destruct (dispatch_setup (r_modem (se_reader (sq_session st))) (t, x)) as (_ & _ & _ & _ & -> & _ & ->). exact Li.
        - intros q Nq. assert (Lm : (m_resp m < length (m_heap m))%nat).
          { destruct (dispatches_setup ms (modem_of s)) as (_ & _ & _ & _ & E1 & _ & E2). unfold m, modem_of in *. rewrite E1, E2. exact L. }
          rewrite !dispatch_inbox by assumption. rewrite (Ib q Nq), (place_flags _ m t x Fl). reflexivity. }
      unfold message. rewrite En. destruct (callback_for h (sq_session st) (t, x)) as [q|] eqn:C; [|exact K'].
      apply async_kept; [exact Tm | | exact K'].
      revert C. unfold callback_for. destruct (is_response _ t x); [discriminate|].
      destruct (m_has_cb _ && _ && _); [intro C; injection C as <-; apply Hc|].
      destruct ((t =? 5) && _); [intro C; injection C as <-; apply Hr | discriminate].
    - unfold kept. cbn. refine (conj eq_refl (conj eq_refl (conj eq_refl (conj L _)))). reflexivity. }
  destruct K as (En & _ & _ & _ & Ib). split; [|exact En]. unfold session_inbox. unfold at_modem, modem_of in Ib. rewrite (Ib p Np).
  apply delivery; [exact L | exact So].
Qed.
Lemma async_delivery lib h s ls w tr p sel : in_use s -> not_collecting s -> has_list s -> asynchronous_handlers h ->
  rrun lib h (reading_world s) ls = Some w -> rests w -> rw_input w = [] -> came ls = wire tr -> Forall (sent_ok false) tr ->
  p <> PResult -> sorted (r_modem (se_reader s)) p (SSerial.delivered tr) sel ->
  session_inbox p (rw_session w) = session_inbox p s ++ sel /\ rw_at w = InRead.
Proof.
  intros U N L A E R Em C F Np So. destruct (as_if_at_once _ _ _ _ _ E R) as (done & D & Q). rewrite Em, app_nil_r in D.
  rewrite C in D. subst done. destruct (async_traffic lib h s tr p sel U N L A F Np So) as (B & En). rewrite Q in B, En. cbn in B, En.
  split; [exact B|]. destruct R as [R|R]; [exact R | rewrite R in En; discriminate].
Qed.

(** ** A synchronous call in a callback *)
Lemma sync_traffic lib h s tr t0 x0 rs c timeout : in_use s -> has_list s -> to_callback s = true ->
  Forall (sent_ok false) tr -> SSerial.delivered tr = (t0, x0) :: rs -> t0 <= 3 -> ~ is_answer (r_modem (se_reader s)) x0 ->
  (forall s', h_cb h s' x0 = Exec c timeout (fun _ => Finish)) ->
  command_wf c -> command_bytes c <= 255 -> 0 < timeout -> Forall (fun tx => is_reply (c_tag c) tx = true) rs ->
  let st := in_sequence lib h s (wire tr) in
  sq_ended st = false /\ sq_log st = [(c, timeout, Ok [])]
  /\ at_modem st = fold_left dispatch rs (exec_start (dispatch (modem_of s) (t0, x0)) (c_tag c) timeout).
Proof.
  intros U L Cb F D T0 NA Hx W Len To Rs. cbn zeta.
  pose (I := fun (ms : list (Z * Msg)) (st : Seq) =>
    sq_ended st = false /\ sq_active st = true /\ is_byte (sp_up (at_parser st))
    /\ match ms with
       | [] => sq_log st = [] /\ at_modem st = modem_of s
       | _ :: r => sq_log st = [(c, timeout, Ok [])]
                   /\ at_modem st = fold_left dispatch r (exec_start (dispatch (modem_of s) (t0, x0)) (c_tag c) timeout)
       end).
  assert (Sk : m_skip (modem_of s) = false) by apply U.
  assert (K : I (SSerial.delivered tr) (in_sequence lib h s (wire tr))).
  { apply seq_traffic; unfold I; try assumption.
    - intros ms st q (En & Ac & B & M) Eq. refine (conj En (conj Ac (conj _ M))). unfold at_parser at 1. unfold parser_of. cbn. rewrite Eq. exact B.
    - intros ms st K. split; apply K.
    - intros ms tx suf st E (En & Ac & B & M). rewrite D in E. unfold message. rewrite En. destruct ms as [|y r].
      + injection E as -> _. destruct M as (Lg & M). cbn [app].
        assert (CF : callback_for h (sq_session st) (t0, x0) = Some (Exec c timeout (fun _ => Finish))).
        { unfold callback_for. change (r_modem (se_reader (sq_session st))) with (at_modem st). rewrite M.
          destruct (is_response (modem_of s) t0 x0) eqn:R; [apply is_response_iff in R; tauto|].
          unfold to_callback, connected in Cb. unfold modem_of. rewrite Cb.
          replace (t0 <=? 3) with true by lia. cbn [andb]. rewrite Hx. reflexivity. }
        rewrite CF. cbn [perform sq_session sq_active sq_ended sq_log].
        destruct (transmits_command c W Len) as (bs & Eb & P & _).
        rewrite (execute_ok (with_modem (sq_session st) (dispatch (r_modem (se_reader (sq_session st))) (t0, x0))) c bs timeout B Eb P).
        cbn [sq_ended sq_active sq_log]. refine (conj eq_refl (conj Ac (conj _ (conj _ _)))).
        * apply (after_byte _ B).
        * rewrite Lg. reflexivity.
        * unfold at_modem, modem_of in *. cbn. rewrite M. reflexivity.
      + injection E as -> E. cbn [app]. destruct M as (Lg & M).
        assert (Rt : is_reply (c_tag c) tx = true).
        { rewrite Forall_forall in Rs. apply Rs. rewrite <- E. apply in_or_app. right. left. reflexivity. }
        assert (CF : callback_for h (sq_session st) tx = None).
        { destruct tx as [t x]. unfold callback_for. change (r_modem (se_reader (sq_session st))) with (at_modem st). rewrite M.
          apply is_reply_iff in Rt. cbn [fst snd] in Rt.
          destruct (dispatches_setup r (exec_start (dispatch (modem_of s) (t0, x0)) (c_tag c) timeout)) as (A1 & _ & _ & _ & _ & A2 & _).
          destruct (dispatch_setup (modem_of s) (t0, x0)) as (B1 & _).
          rewrite (proj2 (is_response_iff _ t x)); [reflexivity|]. split; [apply Rt|]. unfold is_answer. rewrite A1, A2.
          unfold exec_start. cbn [set_sync m_skip m_tag]. rewrite B1, Sk. replace (0 <? timeout) with true by lia. split; [reflexivity | apply Rt]. }
        rewrite CF. cbn [sq_ended sq_active sq_log]. refine (conj eq_refl (conj Ac (conj B (conj Lg _)))).
        unfold at_modem, modem_of in *. cbn [sq_session with_modem with_reader se_reader r_modem]. rewrite M, fold_left_app. reflexivity.
    - cbn. refine (conj eq_refl (conj eq_refl (conj _ (conj eq_refl eq_refl)))). apply U. }
  rewrite D in K. destruct K as (En & _ & _ & Lg & M). auto.
Qed.
Lemma sync_lost lib h s ls w tr t0 x0 rs c timeout : in_use s -> has_list s -> to_callback s = true ->
  rrun lib h (reading_world s) ls = Some w -> rests w -> rw_input w = [] -> came ls = wire tr ->
  Forall (sent_ok false) tr -> SSerial.delivered tr = (t0, x0) :: rs -> t0 <= 3 -> ~ is_answer (r_modem (se_reader s)) x0 ->
  (forall s', h_cb h s' x0 = Exec c timeout (fun _ => Finish)) ->
  command_wf c -> command_bytes c <= 255 -> 0 < timeout -> Forall (fun tx => is_reply (c_tag c) tx = true) rs ->
  rw_results w = [(c, timeout, Ok [])]
  /\ session_inbox PCallback (rw_session w) = session_inbox PCallback s ++ [x0]
  /\ session_inbox PUnsolicited (rw_session w) = session_inbox PUnsolicited s
  /\ session_inbox PResult (rw_session w) = map snd rs.
Proof.
  intros U L Cb E R Em C F D T0 NA Hx W Len To Rs. destruct (as_if_at_once _ _ _ _ _ E R) as (done & Dn & Q).
  rewrite Em, app_nil_r in Dn. rewrite C in Dn. subst done.
  destruct (sync_traffic lib h s tr t0 x0 rs c timeout U L Cb F D T0 NA Hx W Len To Rs) as (_ & Lg & M).
  rewrite Q in Lg, M. cbn [sq_log] in Lg. unfold at_modem, modem_of in M. cbn [sq_session] in M.
  refine (conj Lg _). unfold session_inbox. rewrite M. clear Q Lg M.
  set (m1 := dispatch (r_modem (se_reader s)) (t0, x0)). set (m2 := exec_start m1 (c_tag c) timeout).
  assert (L2 : (m_resp m2 < length (m_heap m2))%nat) by (cbn; rewrite app_length; cbn; lia).
  assert (S2 : m_skip m2 = false) by (change (m_skip m1 = false); unfold m1; destruct (dispatch_setup (r_modem (se_reader s)) (t0, x0)) as (-> & _); apply U).
  assert (T2 : m_tag m2 = c_tag c).
  { unfold m2, exec_start. cbn [set_sync m_tag]. replace (m_skip m1) with false by (symmetry; exact S2). replace (0 <? timeout) with true by lia. reflexivity. }
  assert (G : forall tx, In tx rs -> goes m2 (fst tx) (snd tx) PResult).
  { intros [t x] H. rewrite Forall_forall in Rs. specialize (Rs _ H). apply is_reply_iff in Rs. cbn [fst snd] in *.
    apply goes_result; [apply Rs|]. split; [exact S2 | rewrite T2; apply Rs]. }
  assert (SR : sorted m2 PResult rs (map snd rs)).
  { clear -G. induction rs as [|[t x] rs IH]; [constructor|]. cbn [map snd].
    apply sorted_take; [apply (G (t, x)); left; reflexivity | apply IH; intros tx H; apply G; right; exact H]. }
  assert (SN : forall p, p <> PResult -> sorted m2 p rs []).
  { intros p Np. clear -G Np. induction rs as [|[t x] rs IH]; [constructor|].
    apply sorted_skip; [|apply IH; intros tx H; apply G; right; exact H]. intro H. apply Np.
    apply (goes_function m2 t x _ _ H). apply (G (t, x)). left. reflexivity. }
  rewrite (delivery m2 rs PResult _ L2 SR).
  rewrite (delivery m2 rs PCallback [] L2 (SN PCallback ltac:(discriminate))), (delivery m2 rs PUnsolicited [] L2 (SN PUnsolicited ltac:(discriminate))).
  rewrite !app_nil_r. unfold m2. rewrite !command_leaves by discriminate. unfold m1.
  assert (Gx : goes (r_modem (se_reader s)) t0 x0 PCallback).
  { unfold to_callback, connected in Cb. apply andb_true_iff in Cb. destruct Cb. apply goes_callback; assumption. }
  rewrite (dispatch_take _ _ _ _ L Gx). rewrite (dispatch_leave _ _ _ PUnsolicited L).
  - refine (conj eq_refl (conj eq_refl _)). cbn [inbox exec_start set_sync m_resp m_heap]. rewrite nth_new. reflexivity.
  - intro H. pose proof (goes_function _ _ _ _ _ Gx H). discriminate.
Qed.
