(** Lemmas for C97 *)
From Coq Require Import ZifyBool.
From Verif Require Import LBits LBytes LAction LCommand LTraffic LSend LSerialProps LModem LConnect LOta LCallback LConverse SExit.
Open Scope list_scope.
Open Scope Z_scope.

(** ** What the device can change *)
Lemma handled_fold m ms : handled m ms = fold_left dispatch ms m.
Proof. reflexivity. Qed.
Lemma device_cb_reader lib cbs s e : exists msgs,
  r_modem (se_reader (device_cb lib cbs s e)) = fold_left dispatch msgs (r_modem (se_reader s))
  /\ sp_up (r_parser (se_reader (device_cb lib cbs s e))) = sp_up (r_parser (se_reader s)).
Proof.
  destruct s as [r u f t]. destruct e as [c|]; cbn [device_cb se_reader r_modem r_parser].
  - unfold reader_chunk_cb. destruct (r_alive r); [|exists []; auto]. destruct c as [|b c]; [exists []; auto|].
    pose proof (sparse_up lib (r_parser r) (b :: c)) as H. destruct (sparse lib (r_parser r) (b :: c)) as [p [x|e]]; cbn [fst] in H.
    + destruct (dispatch_all_spec cbs (pr_msgs x) (r_modem r)) as [[_ E] | (before & t' & x' & rest & _ & E)]; rewrite E; cbn [r_modem r_parser].
      * exists (pr_msgs x). auto.
      * exists (before ++ [(t', x')]). auto.
    + exists []. auto.
  - exists []. auto.
Qed.
Lemma events_modem lib cbs es : forall s, exists msgs,
  r_modem (se_reader (events_cb lib cbs s es)) = fold_left dispatch msgs (r_modem (se_reader s))
  /\ sp_up (r_parser (se_reader (events_cb lib cbs s es))) = sp_up (r_parser (se_reader s)).
Proof.
  induction es as [|e es IH]; intro s; [exists []; auto|].
  destruct (device_cb_reader lib cbs s e) as (m1 & A1 & A2). destruct (IH (device_cb lib cbs s e)) as (m2 & B1 & B2).
  exists (m1 ++ m2). unfold events_cb in *. cbn [fold_left]. rewrite B1, B2, A1, A2, fold_left_app. auto.
Qed.
Lemma events_keep lib cbs es : forall s, se_uid (events_cb lib cbs s es) = se_uid s /\ se_fw (events_cb lib cbs s es) = se_fw s
  /\ se_sent (events_cb lib cbs s es) = se_sent s.
Proof.
  induction es as [|e es IH]; intro s; [auto|]. unfold events_cb in *. cbn [fold_left].
  destruct (IH (device_cb lib cbs s e)) as (A & B & C). rewrite A, B, C. auto.
Qed.
Lemma round_ok_cb lib cbs s c es : usable_session s -> command_wf c -> command_bytes c <= 255 ->
  exists bs s1, command_ser c = Ok bs /\ is_payload bs /\ execute s c 10 = (s1, Ok tt)
  /\ usable_session (events_cb lib cbs s1 es)
  /\ se_sent (events_cb lib cbs s1 es) = se_sent s ++ frame (sp_up (r_parser (se_reader s))) 1 bs
  /\ sp_up (r_parser (se_reader (events_cb lib cbs s1 es))) = counter_after (sp_up (r_parser (se_reader s)))
  /\ forall x, In x (execute_result (events_cb lib cbs s1 es)) -> answers (c_tag c) x.
Proof.
  intros [U K] W L. destruct (transmits_command c W L) as (bs & E & P & _). exists bs. eexists.
  split; [exact E|]. split; [exact P|]. split; [apply (execute_ok s c bs 10 U E P)|].
  match goal with |- usable_session (events_cb lib cbs ?s1 es) /\ _ => destruct (events_modem lib cbs es s1) as (msgs & M & Up); destruct (events_keep lib cbs es s1) as (_ & _ & Sn) end.
  cbn [se_reader r_modem r_parser with_up sp_up se_sent] in *.
  destruct (dispatches_setup msgs (exec_start (r_modem (se_reader s)) (c_tag c) 10)) as (Sk & _).
  split; [|split; [exact Sn|split; [exact Up|]]].
  - split; [rewrite Up; apply after_byte; exact U|]. rewrite M, Sk. exact K.
  - intros x I. unfold execute_result in I. rewrite M in I. apply sync_tags in I; [apply I | exact K | lia].
Qed.

Lemma update_spec lib cbs rounds : forall s rest off s' log st, usable_session s -> Forall is_byte rest -> 0 <= off ->
  Forall (fun r => 0 <= fst r <= 255) rounds -> update_loop lib cbs s rest off rounds = (s', log, st) ->
  usable_session s' /\ outcome rest off (length rounds) log st
  /\ (exists l, Forall (sent_ok false) l /\ se_sent s' = se_sent s ++ wire l
      /\ delivered l = map (fun x => (1, MCmd (command_received (fst x)))) log)
  /\ (forall pre old, zlen pre = off ->
      fold_left (node_receives 200) (map (fun x => command_received (fst x)) log) (pre ++ old)
      = pre ++ firstn (239 * length log) rest ++ skipn (piece (length log) rest) old).
Proof.
  induction rounds as [|[rnd es] rounds IH]; intros s rest off s' log st U F O R E.
  - destruct rest as [|b rest]; cbn [update_loop] in E; injection E as <- <- <-.
    + split; [exact U|]. split; [split; [constructor|cbn; lia]|]. split; [exists []; rewrite app_nil_r; repeat split; constructor|reflexivity].
    + split; [exact U|]. split; [split; [constructor|split; [reflexivity|cbn; lia]]|].
      split; [exists []; rewrite app_nil_r; repeat split; constructor|reflexivity].
  - inversion R as [|x y Rt Rr]; subst x y. cbn [fst] in Rt. destruct rest as [|b rest0].
    { cbn [update_loop] in E. injection E as <- <- <-.
      split; [exact U|]. split; [split; [constructor|cbn; lia]|]. split; [exists []; rewrite app_nil_r; repeat split; constructor|reflexivity]. }
    set (rest := b :: rest0) in *.
    assert (E' : match ota_command rnd off (firstn 239 rest) with
      | Err e => (s, [], OtaRaised e)
      | Ok c => match execute s c 10 with
          | (s, Err e) => (s, [], OtaRaised e)
          | (s, Ok _) =>
              let s := events_cb lib cbs s es in
              if existsb answer_good (execute_result s)
              then match update_loop lib cbs s (skipn 239 rest) (off + 239) rounds with
                   | (s', log, st) => (s', (c, execute_result s) :: log, st)
                   end
              else (s, [(c, execute_result s)], OtaFailed)
          end end = (s', log, st)) by exact E. clear E.
    assert (Fc : Forall is_byte (firstn 239 rest)) by (rewrite <- (firstn_skipn 239 rest) in F; apply Forall_app in F; apply F).
    assert (Fr : Forall is_byte (skipn 239 rest)) by (rewrite <- (firstn_skipn 239 rest) in F; apply Forall_app in F; apply F).
    assert (Lc : zlen (firstn 239 rest) <= 239) by (unfold zlen; rewrite firstn_length; lia).
    assert (Nc : firstn 239 rest <> []) by (unfold rest; discriminate).
    assert (Nr : (0 < length rest)%nat) by (unfold rest; cbn; lia).
    rewrite ota_command_eq in E' by assumption.
    destruct ((0 <=? off) && (off <=? 1073741823)) eqn:Of.
    2:{ injection E' as <- <- <-. split; [exact U|]. split.
        - split; [reflexivity|]. split; [constructor|]. unfold len_max, zlen. cbn [length]. lia.
        - split; [exists []; rewrite app_nil_r; repeat split; constructor|reflexivity]. }
    set (c := ota_cmd rnd off (firstn 239 rest)) in *.
    assert (Wc : command_wf c) by (apply ota_cmd_wf; auto; unfold len_max; lia).
    assert (Bc : command_bytes c <= 255) by (pose proof (ota_cmd_size rnd off (firstn 239 rest) Lc); unfold c; lia).
    destruct (round_ok_cb lib cbs s c es U Wc Bc) as (bs & s1 & Eb & Pb & Ex & U1 & Sn & _ & Tg).
    rewrite Ex in E'. cbv zeta in E'.
    assert (SO : sent_ok false (mkSent (sp_up (r_parser (se_reader s))) 1 bs (MCmd (command_received c)))).
    { destruct (transmits_command c Wc Bc) as (bs' & Eb' & _ & Ca). assert (bs' = bs) as -> by congruence.
      unfold sent_ok. cbn [s_counter s_type s_payload s_msg]. refine (conj (proj1 U) (conj _ (conj Pb Ca))). unfold is_byte. lia. }
    pose proof (good_confirmed c _ Tg) as G.
    destruct (existsb answer_good (execute_result (events_cb lib cbs s1 es))) eqn:Go.
    + destruct (update_loop lib cbs (events_cb lib cbs s1 es) (skipn 239 rest) (off + 239) rounds) as [[s2 log2] st2] eqn:E2.
      injection E' as <- <- <-. assert (Ho : 0 <= off + 239) by lia. destruct (IH _ _ _ _ _ _ U1 Fr Ho Rr E2) as (U2 & Out & (l & Fl & Sl & Dl) & Nd).
      assert (Cf : confirmed (c, execute_result (events_cb lib cbs s1 es))) by (apply G; reflexivity).
      split; [exact U2|]. split; [|split].
      * unfold outcome in *. pose proof (skipn_length 239 rest) as SL. unfold zlen in *. destruct st2; cbn [length].
        -- destruct Out as [O1 O2]. split; [constructor; assumption|lia].
        -- destruct Out as (l0 & x & -> & O1 & O2). exists ((c, execute_result (events_cb lib cbs s1 es)) :: l0), x.
           split; [reflexivity|]. split; [constructor; assumption|exact O2].
        -- destruct Out as (O1 & O2 & O3 & O4). split; [exact O1|]. split; [constructor; assumption|]. lia.
        -- destruct Out as (O1 & O2 & O3). split; [constructor; assumption|]. lia.
      * exists (mkSent (sp_up (r_parser (se_reader s))) 1 bs (MCmd (command_received c)) :: l).
        split; [constructor; assumption|]. split.
        -- rewrite Sl, Sn, <- app_assoc. reflexivity.
        -- cbn [delivered map s_type s_msg fst]. f_equal. exact Dl.
      * intros pre old Lp. cbn [map fold_left fst]. unfold c at 1. rewrite node_ota, write_next by exact Lp.
        destruct (le_lt_dec (length rest) 239) as [Le|Gt].
        -- assert (skipn 239 rest = []) as Z0 by (apply skipn_all2; exact Le). rewrite Z0 in E2.
           assert (log2 = []) as -> by (destruct rounds as [|[? ?] ?]; cbn [update_loop] in E2; injection E2 as _ <- _; reflexivity).
           cbn [map fold_left length]. unfold piece. rewrite Nat.mul_1_r, firstn_length. reflexivity.
        -- rewrite app_assoc, Nd.
           ++ rewrite <- !app_assoc. f_equal. cbn [length].
              replace (239 * S (length log2))%nat with (239 + 239 * length log2)%nat by lia.
              rewrite firstn_plus, <- app_assoc. f_equal. f_equal.
              rewrite skipn_plus. f_equal. unfold piece. rewrite firstn_length, skipn_length. lia.
           ++ unfold zlen in *. rewrite app_length, firstn_length. lia.
    + injection E' as <- <- <-. split; [exact U1|]. split; [|split].
      * exists [], (c, execute_result (events_cb lib cbs s1 es)). split; [reflexivity|]. split; [constructor|].
        intro Cf. apply G in Cf. discriminate.
      * exists [mkSent (sp_up (r_parser (se_reader s))) 1 bs (MCmd (command_received c))].
        split; [constructor; [exact SO|constructor]|]. split; [|reflexivity].
        rewrite Sn. cbn [wire flat_map]. rewrite app_nil_r. reflexivity.
      * intros pre old Lp. cbn [map fold_left fst length]. unfold c at 1. rewrite node_ota, write_next by exact Lp.
        unfold piece. rewrite Nat.mul_1_r. do 3 f_equal. apply firstn_length.
Qed.
Lemma update_node lib cbs s file rounds s' log st : update_run lib cbs s file rounds s' log st ->
  exists bytes, se_sent s' = se_sent s ++ bytes /\ received_over lib bytes (commands_of log)
  /\ forall old, fold_left (node_receives 200) (commands_of log) old
     = firstn (239 * length log) file ++ skipn (Nat.min (239 * length log) (length file)) old.
Proof.
  intros (U & F & R & E). destruct (update_spec lib cbs rounds s file 0 s' log st U F ltac:(lia) R E) as (_ & _ & (l & Fl & Sl & Dl) & Nd).
  exists (wire l). split; [exact Sl|]. split.
  - intros q chunks Sk B C N. destruct (feeds_garbage lib chunks q [] l) as (es & H & _ & Z1); try assumption.
    + rewrite Sk. exact Fl.
    + constructor.
    + constructor.
    + rewrite B, C. reflexivity.
    + rewrite (Z1 eq_refl), Dl in H. unfold commands_of. rewrite map_map. eexists. split; [exact H | reflexivity].
  - intro old. exact (Nd [] old eq_refl).
Qed.

Lemma update_outcome lib cbs s file rounds s' log st : update_run lib cbs s file rounds s' log st -> outcome file 0 (length rounds) log st.
Proof. intros (U & F & R & E). apply (update_spec lib cbs rounds s file 0 s' log st U F ltac:(lia) R E). Qed.
Lemma update_done lib cbs s file rounds s' log : update_run lib cbs s file rounds s' log OtaDone ->
  Forall confirmed log
  /\ forall old, fold_left (node_receives 200) (commands_of log) old = file ++ skipn (length file) old.
Proof.
  intro H. destruct (update_outcome _ _ _ _ _ _ _ _ H) as [A B]. split; [exact A|]. intro old.
  destruct (update_node _ _ _ _ _ _ _ _ H) as (_ & _ & _ & K). rewrite K, firstn_all2 by lia. do 2 f_equal. lia.
Qed.
Lemma update_failed lib cbs s file rounds s' log : update_run lib cbs s file rounds s' log OtaFailed ->
  exists l x, log = l ++ [x] /\ Forall confirmed l /\ ~ confirmed x.
Proof. intro H. exact (update_outcome _ _ _ _ _ _ _ _ H). Qed.

(** ** A dead reader *)
Lemma dead_event lib cbs s e : ~ reader_runs s -> device_cb lib cbs s e = s.
Proof.
  unfold reader_runs. destruct s as [[p m a] u f t]. cbn. destruct a; [congruence|]. destruct e; reflexivity.
Qed.
Lemma dead_events lib cbs es : forall s, ~ reader_runs s -> events_cb lib cbs s es = s.
Proof. induction es as [|e es IH]; intros s D; [reflexivity|]. unfold events_cb in *. cbn [fold_left]. rewrite dead_event by exact D. apply IH, D. Qed.
Lemma execute_alive s c t : r_alive (se_reader (fst (execute s c t))) = r_alive (se_reader s).
Proof. unfold execute. destruct (build_serial_frame _ _) as [p [b|e]]; reflexivity. Qed.
Lemma fresh_result s c t s1 : execute s c t = (s1, Ok tt) -> execute_result s1 = [].
Proof.
  unfold execute. destruct (build_serial_frame _ _) as [p [b|e]]; [|discriminate]. intros H. injection H as <-. reflexivity.
Qed.
Lemma dead_mode lib cbs c rounds : command_wf c -> command_bytes c <= 255 -> forall s, usable_session s -> ~ reader_runs s ->
  exists s' l, mode_loop lib cbs s c rounds = (s', map (fun _ => (c, [])) rounds, EngRunning)
  /\ ~ reader_runs s' /\ Forall (sent_ok false) l /\ se_sent s' = se_sent s ++ wire l
  /\ delivered l = map (fun _ => (1, MCmd (command_received c))) rounds.
Proof.
  intros W B. induction rounds as [|es rounds IH]; intros s U D.
  - exists s, []. rewrite app_nil_r. repeat split; auto.
  - destruct (round_ok_cb lib cbs s c es U W B) as (bs & s1 & Eb & Pb & Ex & U1 & Sn & _ & _).
    assert (D1 : ~ reader_runs s1).
    { unfold reader_runs in *. pose proof (execute_alive s c 10) as Q. rewrite Ex in Q. cbn [fst] in Q. rewrite Q. exact D. }
    rewrite (dead_events lib cbs es s1 D1) in *.
    destruct (IH s1 U1 D1) as (s' & l & E & D' & F & S & Dl). cbn [mode_loop map]. rewrite Ex.
    change (fold_left (device_cb lib cbs) es s1) with (events_cb lib cbs s1 es). rewrite (dead_events lib cbs es s1 D1), (fresh_result _ _ _ _ Ex).
    cbv zeta. cbn [look_at_answers]. rewrite E.
    exists s', (mkSent (sp_up (r_parser (se_reader s))) 1 bs (MCmd (command_received c)) :: l).
    split; [reflexivity|]. split; [exact D'|]. split; [|split].
    + constructor; [|exact F]. destruct (transmits_command c W B) as (bs' & Eb' & _ & Ca). assert (bs' = bs) as -> by congruence.
      unfold sent_ok. cbn [s_counter s_type s_payload s_msg]. refine (conj (proj1 U) (conj _ (conj Pb Ca))). unfold is_byte. lia.
    + rewrite S, Sn, <- app_assoc. reflexivity.
    + cbn [delivered map s_type s_msg]. f_equal. exact Dl.
Qed.
Lemma wire_received lib l cmds : Forall (sent_ok false) l -> delivered l = map (fun c => (1, MCmd c)) cmds -> received_over lib (wire l) cmds.
Proof.
  intros Fl Dl q chunks Sk B C N. destruct (feeds_garbage lib chunks q [] l) as (es & H & _ & Z1); try assumption.
  + rewrite Sk. exact Fl.
  + constructor.
  + constructor.
  + rewrite B, C. reflexivity.
  + rewrite (Z1 eq_refl), Dl in H. eexists. split; [exact H | reflexivity].
Qed.
Lemma mode_hangs lib cbs s c rounds : command_wf c -> command_bytes c <= 255 -> usable_session s -> ~ reader_runs s ->
  exists s' bytes, mode_loop lib cbs s c rounds = (s', map (fun _ => (c, [])) rounds, EngRunning)
  /\ ~ reader_runs s' /\ se_sent s' = se_sent s ++ bytes /\ received_over lib bytes (repeat (command_received c) (length rounds)).
Proof.
  intros W B U D. destruct (dead_mode lib cbs c rounds W B s U D) as (s' & l & E & D' & F & S & Dl).
  exists s', (wire l). refine (conj E (conj D' (conj S _))). apply wire_received; [exact F|]. rewrite Dl. clear.
  induction rounds as [|r rounds IH]; [reflexivity|]. cbn [map length repeat]. f_equal. exact IH.
Qed.
Lemma ota_command_made rnd off rest : Forall is_byte rest -> 0 <= off <= len_max ->
  ota_command rnd off (firstn 239 rest) = Ok (ota_cmd rnd off (firstn 239 rest)).
Proof.
  intros F O. rewrite ota_command_eq.
  - unfold len_max in O. replace ((0 <=? off) && (off <=? 1073741823)) with true by lia. reflexivity.
  - rewrite <- (firstn_skipn 239 rest) in F. apply Forall_app in F. apply F.
  - unfold zlen. rewrite firstn_length. lia.
Qed.
(** one round whose result is empty *)
Lemma empty_round lib cbs s rest off rnd es rounds : usable_session s -> Forall is_byte rest -> rest <> [] -> 0 <= rnd <= 255 ->
  0 <= off <= len_max ->
  exists c s1, ota_command rnd off (firstn 239 rest) = Ok c /\ c_tag c = Some rnd /\ execute s c 10 = (s1, Ok tt)
  /\ (execute_result (events_cb lib cbs s1 es) = [] ->
      update_loop lib cbs s rest off ((rnd, es) :: rounds) = (events_cb lib cbs s1 es, [(c, [])], OtaFailed)).
Proof.
  intros U F N R O. pose proof (ota_command_made rnd off rest F O) as E. set (c := ota_cmd rnd off (firstn 239 rest)) in *.
  assert (Fc : Forall is_byte (firstn 239 rest)) by (rewrite <- (firstn_skipn 239 rest) in F; apply Forall_app in F; apply F).
  assert (Lc : zlen (firstn 239 rest) <= 239) by (unfold zlen; rewrite firstn_length; lia).
  assert (Nc : firstn 239 rest <> []) by (destruct rest; [congruence | discriminate]).
  assert (Wc : command_wf c) by (apply ota_cmd_wf; auto).
  assert (Bc : command_bytes c <= 255) by (pose proof (ota_cmd_size rnd off (firstn 239 rest) Lc); unfold c; lia).
  destruct (round_ok_cb lib cbs s c es U Wc Bc) as (bs & s1 & _ & _ & Ex & _).
  exists c, s1. refine (conj E (conj eq_refl (conj Ex _))). intros Z0.
  destruct rest as [|b rest]; [congruence|]. cbn [update_loop]. rewrite E, Ex. cbv zeta.
  change (fold_left (device_cb lib cbs) es s1) with (events_cb lib cbs s1 es). rewrite Z0. reflexivity.
Qed.
Lemma update_dead lib cbs s rest off rnd es rounds : usable_session s -> Forall is_byte rest -> rest <> [] -> 0 <= rnd <= 255 ->
  0 <= off <= len_max -> ~ reader_runs s ->
  exists c s', ota_command rnd off (firstn 239 rest) = Ok c
  /\ update_loop lib cbs s rest off ((rnd, es) :: rounds) = (s', [(c, [])], OtaFailed).
Proof.
  intros U F N R O D. destruct (empty_round lib cbs s rest off rnd es rounds U F N R O) as (c & s1 & E & _ & Ex & K).
  exists c. eexists. split; [exact E|]. apply K.
  assert (D1 : ~ reader_runs s1).
  { unfold reader_runs in *. pose proof (execute_alive s c 10) as Q. rewrite Ex in Q. cbn [fst] in Q. rewrite Q. exact D. }
  rewrite (dead_events lib cbs es s1 D1). exact (fresh_result _ _ _ _ Ex).
Qed.

(** ** While the reader lives the callbacks make no difference *)
Lemma event_alive lib cbs s e : reader_runs (device_cb lib cbs s e) -> device_cb lib cbs s e = device lib s e.
Proof.
  destruct s as [r u f t]. unfold reader_runs. destruct e as [c|]; [|reflexivity]. cbn [device_cb device se_reader se_uid se_fw se_sent].
  intros A. pose proof (callbacks_alive lib cbs [c] r A) as Q. change (reader_chunk_cb lib cbs r c = reader_chunk lib r c) in Q.
  unfold device_cb, device. cbn [se_reader se_uid se_fw se_sent]. rewrite Q. reflexivity.
Qed.
Lemma dead_stays lib cbs es s : reader_runs (events_cb lib cbs s es) -> reader_runs s.
Proof.
  intros A. destruct (r_alive (se_reader s)) eqn:E; [exact E|]. rewrite dead_events in A; [exact A|]. unfold reader_runs. congruence.
Qed.
Lemma events_alive lib cbs es : forall s, reader_runs (events_cb lib cbs s es) -> events_cb lib cbs s es = devices lib s es.
Proof.
  induction es as [|e es IH]; intros s A; [reflexivity|]. unfold events_cb, devices in *. cbn [fold_left] in *.
  rewrite (IH _ A). f_equal. apply event_alive. exact (dead_stays lib cbs es _ A).
Qed.
Lemma execute_dead s c t s1 r : execute s c t = (s1, r) -> reader_runs s1 -> reader_runs s.
Proof. intros E A. pose proof (execute_alive s c t) as Q. rewrite E in Q. cbn [fst] in Q. unfold reader_runs in *. congruence. Qed.
Lemma update_runs_back lib cbs rounds : forall s rest off s' log st,
  update_loop lib cbs s rest off rounds = (s', log, st) -> reader_runs s' -> reader_runs s.
Proof.
  induction rounds as [|[rnd es] rounds IH]; intros s rest off s' log st E A.
  - destruct rest; cbn [update_loop] in E; injection E as <- _ _; exact A.
  - destruct rest as [|b rest]; [cbn [update_loop] in E; injection E as <- _ _; exact A|].
    cbn [update_loop] in E. destruct (ota_command _ _ _) as [c|]; [|injection E as <- _ _; exact A].
    destruct (execute s c 10) as [s1 [[]|e]] eqn:Ex; [|injection E as <- _ _; exact (execute_dead _ _ _ _ _ Ex A)].
    apply (execute_dead _ _ _ _ _ Ex). apply (dead_stays lib cbs es). unfold events_cb.
    destruct (existsb _ _).
    + destruct (update_loop lib cbs _ _ _ rounds) as [[s2 log2] st2] eqn:E2. injection E as <- _ _. exact (IH _ _ _ _ _ _ E2 A).
    + injection E as <- _ _. exact A.
Qed.
Lemma update_same lib cbs rounds : forall s rest off s' log st,
  update_loop lib cbs s rest off rounds = (s', log, st) -> reader_runs s' -> ota lib s rest off rounds = (s', log, st).
Proof.
  induction rounds as [|[rnd es] rounds IH]; intros s rest off s' log st E A.
  - destruct rest; exact E.
  - destruct rest as [|b rest]; [exact E|].
    cbn [update_loop] in E. cbn [ota]. destruct (ota_command _ _ _) as [c|]; [|exact E].
    destruct (execute s c 10) as [s1 [[]|e]] eqn:Ex; [|exact E].
    change (fold_left (device_cb lib cbs) es s1) with (events_cb lib cbs s1 es) in E.
    change (fold_left (device lib) es s1) with (devices lib s1 es).
    assert (Q : reader_runs (events_cb lib cbs s1 es)).
    { cbv zeta in E. destruct (existsb _ _).
      - destruct (update_loop lib cbs _ _ _ rounds) as [[s2 log2] st2] eqn:E2. injection E as <- _ _. exact (update_runs_back _ _ _ _ _ _ _ _ _ E2 A).
      - injection E as <- _ _. exact A. }
    rewrite (events_alive lib cbs es s1 Q) in E. cbv zeta in *. destruct (existsb _ _); [|exact E].
    destruct (update_loop lib cbs _ _ _ rounds) as [[s2 log2] st2] eqn:E2. injection E as <- <- <-. rewrite (IH _ _ _ _ _ _ E2 A). reflexivity.
Qed.
Lemma mode_runs_back lib cbs c rounds : forall s s' log st,
  mode_loop lib cbs s c rounds = (s', log, st) -> reader_runs s' -> reader_runs s.
Proof.
  induction rounds as [|es rounds IH]; intros s s' log st E A; [injection E as <- _ _; exact A|].
  cbn [mode_loop] in E. destruct (execute s c 10) as [s1 [[]|e]] eqn:Ex; [|injection E as <- _ _; exact (execute_dead _ _ _ _ _ Ex A)].
  apply (execute_dead _ _ _ _ _ Ex). apply (dead_stays lib cbs es). unfold events_cb.
  destruct (look_at_answers _ _) as [[|]|]; try (injection E as <- _ _; exact A).
  destruct (mode_loop lib cbs _ _ rounds) as [[s2 log2] st2] eqn:E2. injection E as <- _ _. exact (IH _ _ _ _ E2 A).
Qed.
Lemma mode_same lib cbs c rounds : forall s s' log st,
  mode_loop lib cbs s c rounds = (s', log, st) -> reader_runs s' -> engineering lib s c rounds = (s', log, st).
Proof.
  induction rounds as [|es rounds IH]; intros s s' log st E A; [exact E|].
  cbn [mode_loop] in E. cbn [engineering]. destruct (execute s c 10) as [s1 [[]|e]] eqn:Ex; [|exact E].
  change (fold_left (device_cb lib cbs) es s1) with (events_cb lib cbs s1 es) in E.
  change (fold_left (device lib) es s1) with (devices lib s1 es).
  assert (Q : reader_runs (events_cb lib cbs s1 es)).
  { cbv zeta in E. destruct (look_at_answers _ _) as [[|]|]; try (injection E as <- _ _; exact A).
    destruct (mode_loop lib cbs _ _ rounds) as [[s2 log2] st2] eqn:E2. injection E as <- _ _. exact (mode_runs_back _ _ _ _ _ _ _ _ E2 A). }
  rewrite (events_alive lib cbs es s1 Q) in E. cbv zeta in *. destruct (look_at_answers _ _) as [[|]|]; try exact E.
  destruct (mode_loop lib cbs _ _ rounds) as [[s2 log2] st2] eqn:E2. injection E as <- <- <-. rewrite (IH _ _ _ _ E2 A). reflexivity.
Qed.

Lemma event_benign lib cbs s e : (forall m x, cb_raises cbs m x = false) -> (forall m x, rbcb_raises cbs m x = false) ->
  device_cb lib cbs s e = device lib s e.
Proof.
  intros H1 H2. destruct e as [c|]; [|reflexivity]. pose proof (callbacks_benign lib cbs [c] H1 H2 (se_reader s)) as Q.
  change (reader_chunk_cb lib cbs (se_reader s) c = reader_chunk lib (se_reader s) c) in Q. unfold device_cb, device. rewrite Q. reflexivity.
Qed.
Lemma events_benign lib cbs es : (forall m x, cb_raises cbs m x = false) -> (forall m x, rbcb_raises cbs m x = false) ->
  forall s, fold_left (device_cb lib cbs) es s = fold_left (device lib) es s.
Proof. intros H1 H2. induction es as [|e es IH]; intro s; [reflexivity|]. cbn [fold_left]. rewrite (event_benign lib cbs s e H1 H2). apply IH. Qed.
Lemma update_benign lib cbs rounds : (forall m x, cb_raises cbs m x = false) -> (forall m x, rbcb_raises cbs m x = false) ->
  forall s rest off, update_loop lib cbs s rest off rounds = ota lib s rest off rounds.
Proof.
  intros H1 H2. induction rounds as [|[rnd es] rounds IH]; intros s rest off; [destruct rest; reflexivity|].
  destruct rest as [|b rest]; [reflexivity|]. cbn [update_loop ota]. destruct (ota_command _ _ _) as [c|]; [|reflexivity].
  destruct (execute s c 10) as [s1 [[]|e]]; [|reflexivity]. rewrite (events_benign lib cbs es H1 H2 s1). cbv zeta. rewrite IH. reflexivity.
Qed.
Lemma mode_benign lib cbs c rounds : (forall m x, cb_raises cbs m x = false) -> (forall m x, rbcb_raises cbs m x = false) ->
  forall s, mode_loop lib cbs s c rounds = engineering lib s c rounds.
Proof.
  intros H1 H2. induction rounds as [|es rounds IH]; intros s; [reflexivity|]. cbn [mode_loop engineering].
  destruct (execute s c 10) as [s1 [[]|e]]; [|reflexivity]. rewrite (events_benign lib cbs es H1 H2 s1). cbv zeta. rewrite IH. reflexivity.
Qed.

(** ** What the callback lets through *)
Lemma dispatch_all_app cbs a : forall m b, dispatch_all cbs m (a ++ b)
  = if snd (dispatch_all cbs m a) then dispatch_all cbs (fst (dispatch_all cbs m a)) b else dispatch_all cbs m a.
Proof.
  induction a as [|tx a IH]; intros m b; [reflexivity|]. cbn [app dispatch_all]. destruct (dispatch_raises cbs m tx); [reflexivity|]. apply IH.
Qed.
Lemma chunk_cb_nil lib cbs r : reader_chunk_cb lib cbs r [] = r.
Proof. unfold reader_chunk_cb. destruct (r_alive r); reflexivity. Qed.
Lemma read_filter_cb lib cbs chunks : forall r, read_chunks_cb lib cbs r chunks = read_chunks_cb lib cbs r (filter nonempty chunks).
Proof.
  unfold read_chunks_cb. induction chunks as [|c cs IH]; intros r; [reflexivity|]. destruct c as [|b c]; cbn [fold_left filter nonempty].
  - rewrite chunk_cb_nil. apply IH.
  - apply IH.
Qed.
Lemma read_feeds_cb lib cbs p chunks p' ms es : feeds lib p chunks p' ms es -> Forall (fun c => c <> []) chunks ->
  forall m, r_modem (read_chunks_cb lib cbs (mkReader p m true) chunks) = fst (dispatch_all cbs m ms)
  /\ r_alive (read_chunks_cb lib cbs (mkReader p m true) chunks) = snd (dispatch_all cbs m ms).
Proof.
  induction 1 as [p|p c p1 r cs p2 ms es E H IH]; intros F m; [split; reflexivity|].
  inversion F as [|c' cs' N F']; subst. unfold read_chunks_cb in *. cbn [fold_left].
  unfold reader_chunk_cb at 2 4. cbn [r_alive r_parser r_modem]. destruct c as [|b c]; [congruence|].
  rewrite E, dispatch_all_app. destruct (dispatch_all cbs m (pr_msgs r)) as [m1 [|]] eqn:D; cbn [fst snd].
  - apply IH, F'.
  - pose proof (chunk_cb_dead lib cbs cs (mkReader p1 m1 false) eq_refl) as Q. unfold read_chunks_cb in Q. rewrite Q. split; reflexivity.
Qed.
Lemma reader_cb lib cbs chunks p m tr :
  Forall (sent_ok (sp_skip p)) tr -> sp_buf p = [] -> concat chunks = wire tr ->
  r_modem (read_chunks_cb lib cbs (mkReader p m true) chunks) = fst (dispatch_all cbs m (SSerial.delivered tr))
  /\ r_alive (read_chunks_cb lib cbs (mkReader p m true) chunks) = snd (dispatch_all cbs m (SSerial.delivered tr)).
Proof.
  intros F B E. rewrite read_filter_cb. destruct (filter nonempty chunks) as [|c cs] eqn:FC.
  - assert (tr = []).
    { apply LModem.wire_nil. rewrite <- E, <- concat_filter, FC. reflexivity. }
    subst tr. split; reflexivity.
  - destruct (feeds_garbage lib (c :: cs) p [] tr F) as (es & H & _ & Z1); try constructor.
    { rewrite B, <- FC, concat_filter. exact E. }
    { discriminate. }
    all: apply (read_feeds_cb _ _ _ _ _ _ _ H); rewrite <- FC; apply filter_nonempty.
Qed.
Lemma events_bytes lib cbs chunks : forall s, se_reader (events_cb lib cbs s (map DBytes chunks)) = read_chunks_cb lib cbs (se_reader s) chunks.
Proof.
  induction chunks as [|c cs IH]; intro s; [reflexivity|]. unfold events_cb, read_chunks_cb in *. cbn [map fold_left]. rewrite IH. reflexivity.
Qed.
Lemma events_app lib cbs a b s : events_cb lib cbs s (a ++ b) = events_cb lib cbs (events_cb lib cbs s a) b.
Proof. apply fold_left_app. Qed.

Definition callable (m : Modem) : Prop := m_has_cb m = true /\ m_connected m = true /\ m_skip m = false.
Lemma callable_dispatch m tx : callable m -> callable (dispatch m tx) /\ m_tag (dispatch m tx) = m_tag m.
Proof.
  intros (A & B & C). destruct (dispatch_setup m tx) as (Q1 & Q2 & Q3 & Q4 & Q5 & Q6 & _). unfold callable. rewrite Q1, Q2, Q4. auto.
Qed.
Lemma exit_raises m tx : callable m -> dispatch_raises exit_callbacks m tx = true <-> completes_other (m_tag m) tx.
Proof.
  intros (A & B & C). destruct tx as [t x]. unfold dispatch_raises, completes_other. rewrite A, B. cbn [andb fst snd exit_callbacks cb_raises rbcb_raises].
  destruct x as [z|z|c]; cbn [is_response msg_completed].
  - split; [|intros (c & E & _); discriminate E]. destruct (t <=? 3); [discriminate|]. destruct (t =? 5); [|discriminate]. destruct (m_has_rbcb m); discriminate.
  - split; [|intros (c & E & _); discriminate E]. destruct (t <=? 3); [discriminate|]. destruct (t =? 5); [|discriminate]. destruct (m_has_rbcb m); discriminate.
  - rewrite C. cbn [negb andb]. destruct (t <=? 3) eqn:T.
    + rewrite Bool.andb_true_r. destruct (tag_eqb (m_tag m) (c_tag c)) eqn:G.
      * apply tag_eqb_iff in G. split; [discriminate|]. intros (c' & E & _ & _ & N). injection E as <-. congruence.
      * split.
        -- intros K. exists c. refine (conj eq_refl (conj _ (conj K _))); [lia|]. intros Q.
           assert (tag_eqb (m_tag m) (c_tag c) = true) by (apply tag_eqb_iff; exact Q). congruence.
        -- intros (c' & E & _ & K & _). injection E as <-. exact K.
    + rewrite Bool.andb_false_r. split; [|intros (c' & E & L & _); lia]. destruct (t =? 5); [|discriminate]. destruct (m_has_rbcb m); discriminate.
Qed.
Lemma exit_lives msgs : forall m, callable m -> snd (dispatch_all exit_callbacks m msgs) = true <-> Forall (fun tx => ~ completes_other (m_tag m) tx) msgs.
Proof.
  induction msgs as [|tx msgs IH]; intros m C; [split; auto|]. cbn [dispatch_all].
  pose proof (exit_raises m tx C) as R. destruct (callable_dispatch m tx C) as [C' T].
  destruct (dispatch_raises exit_callbacks m tx).
  - split; [discriminate|]. intros F. inversion F as [|? ? N _]; subst. destruct N. apply R. reflexivity.
  - rewrite (IH _ C'), T. split.
    + intros F. constructor; [|exact F]. intros K. apply R in K. discriminate K.
    + intros F. inversion F; assumption.
Qed.
Lemma exit_late msgs late after : forall m, callable m -> m_completed m = false -> Forall (fun tx => ~ completes (m_tag m) tx) msgs ->
  completes_other (m_tag m) late ->
  snd (dispatch_all exit_callbacks m (msgs ++ late :: after)) = false
  /\ m_completed (fst (dispatch_all exit_callbacks m (msgs ++ late :: after))) = false.
Proof.
  assert (K : forall m tx, callable m -> m_completed m = false -> ~ completes (m_tag m) tx -> m_completed (dispatch m tx) = false).
  { intros m [t x] C N F. rewrite (dispatch_completed m (m_tag m) t x (proj2 (proj2 C)) eq_refl), N, Bool.orb_false_r.
    destruct (match_tag (m_tag m) t x) eqn:M; [|reflexivity]. destruct (msg_completed x) eqn:Q; [|reflexivity]. destruct F.
    apply match_tag_true in M. destruct M as (L & c & -> & T). exists c. auto. }
  induction msgs as [|tx msgs IH]; intros m C N F L; cbn [app dispatch_all].
  - rewrite (proj2 (exit_raises m late C) L). split; [reflexivity|]. apply K; [exact C | exact N |].
    destruct L as (c & E & _ & _ & T). intros (c' & E' & _ & _ & T'). congruence.
  - inversion F as [|? ? F1 F2]; subst. destruct (dispatch_raises exit_callbacks m tx).
    + split; [reflexivity | apply K; assumption].
    + destruct (callable_dispatch m tx C) as [C' T]. apply IH; [exact C' | apply K; assumption | rewrite T; exact F2 | rewrite T; exact L].
Qed.
(** the reader thread after some messages *)
Lemma reader_lives lib s tr es : in_use s -> listening s -> brings es tr ->
  reader_runs (events_cb lib exit_callbacks s es) <-> Forall (fun tx => ~ completes_other (waits_for s) tx) (delivered tr).
Proof.
  intros (A & B & S & _) L (chunks & -> & F & E). unfold reader_runs. rewrite events_bytes.
  destruct s as [[p m a] u f t]. unfold alive, waits_for in *. cbn [se_reader r_parser r_modem r_alive] in *. subst a.
  rewrite (proj2 (reader_cb lib exit_callbacks chunks p m tr ltac:(rewrite S; exact F) B E)). apply exit_lives. exact L.
Qed.
Lemma started s c bs : in_use s -> listening s -> command_ser c = Ok bs -> is_payload bs ->
  exists s1, execute s c 10 = (s1, Ok tt) /\ in_use s1 /\ listening s1 /\ waits_for s1 = c_tag c
  /\ m_completed (r_modem (se_reader s1)) = false.
Proof.
  intros (A & B & S & D & U & K) L E P. rewrite (execute_ok s c bs 10 U E P). eexists. split; [reflexivity|].
  unfold in_use, listening, waits_for, alive in *. cbn [se_reader r_parser r_modem r_alive with_up sp_buf sp_skip sp_down sp_up].
  unfold exec_start. rewrite K. cbn [set_sync m_tag m_completed m_has_cb m_connected m_skip]. destruct L as (L1 & L2 & _).
  pose proof (after_byte _ U). auto 12.
Qed.
Lemma late_result lib s before late after es more : in_use s -> listening s -> m_completed (r_modem (se_reader s)) = false ->
  brings es (before ++ late :: after) -> Forall (fun tx => ~ completes (waits_for s) tx) (delivered before) ->
  completes_other (waits_for s) (s_type late, s_msg late) ->
  let s2 := events_cb lib exit_callbacks s (es ++ more) in execute_result s2 = [] /\ ~ reader_runs s2.
Proof.
  intros (A & B & S & _) L N (chunks & -> & F & E) K O. cbv zeta.
  assert (Q : m_completed (r_modem (se_reader (events_cb lib exit_callbacks s (map DBytes chunks)))) = false
              /\ ~ reader_runs (events_cb lib exit_callbacks s (map DBytes chunks))).
  { unfold reader_runs. rewrite events_bytes. destruct s as [[p m a] u f t]. unfold alive, waits_for in *. cbn [se_reader r_parser r_modem r_alive] in *. subst a.
    destruct (reader_cb lib exit_callbacks chunks p m _ ltac:(rewrite S; exact F) B E) as [-> ->].
    unfold delivered in *. rewrite map_app. cbn [map].
    destruct (exit_late _ _ (map (fun x => (s_type x, s_msg x)) after) m L N K O) as [-> ->]. split; [reflexivity | discriminate]. }
  rewrite events_app, dead_events by apply Q. split; [|apply Q]. unfold execute_result, exec_result. rewrite (proj1 Q). reflexivity.
Qed.
Lemma late_update lib s rest off rnd es more rounds before late after : in_use s -> listening s -> Forall is_byte rest -> rest <> [] ->
  0 <= rnd <= 255 -> 0 <= off <= len_max ->
  brings es (before ++ late :: after) -> Forall (fun tx => ~ completes (Some rnd) tx) (delivered before) ->
  completes_other (Some rnd) (s_type late, s_msg late) ->
  exists c s', ota_command rnd off (firstn 239 rest) = Ok c
  /\ update_loop lib exit_callbacks s rest off ((rnd, es ++ more) :: rounds) = (s', [(c, [])], OtaFailed).
Proof.
  intros U L F N R O Br K Ot. assert (Us : usable_session s) by (destruct U as (_ & _ & _ & _ & U1 & U2); split; assumption).
  destruct (empty_round lib exit_callbacks s rest off rnd (es ++ more) rounds Us F N R O) as (c & s1 & E & T & Ex & Q).
  exists c. eexists. split; [exact E|]. apply Q.
  assert (W : exists bs, command_ser c = Ok bs /\ is_payload bs).
  { rewrite (ota_command_made rnd off rest F O) in E. injection E as <-.
    destruct (transmits_command (ota_cmd rnd off (firstn 239 rest))) as (bs & E1 & E2 & _); [..|exists bs; auto].
    - apply ota_cmd_wf; auto.
      + rewrite <- (firstn_skipn 239 rest) in F. apply Forall_app in F. apply F.
      + unfold zlen. rewrite firstn_length. lia.
      + destruct rest; [congruence | discriminate].
    - assert (Lc : zlen (firstn 239 rest) <= 239) by (unfold zlen; rewrite firstn_length; lia).
      pose proof (ota_cmd_size rnd off (firstn 239 rest) Lc). lia. }
  destruct W as (bs & E1 & E2). destruct (started s c bs U L E1 E2) as (s1' & Ex' & U1 & L1 & T1 & M1).
  assert (s1' = s1) as -> by congruence. rewrite T in T1.
  apply (late_result lib s1 before late after es more U1 L1 M1 Br); rewrite T1; assumption.
Qed.
Lemma late_mode lib s c es more rounds before late after : in_use s -> listening s -> command_wf c -> command_bytes c <= 255 ->
  brings es (before ++ late :: after) -> Forall (fun tx => ~ completes (c_tag c) tx) (delivered before) ->
  completes_other (c_tag c) (s_type late, s_msg late) ->
  exists s' bytes, mode_loop lib exit_callbacks s c ((es ++ more) :: rounds) = (s', map (fun _ => (c, [])) ((es ++ more) :: rounds), EngRunning)
  /\ ~ reader_runs s' /\ se_sent s' = se_sent s ++ bytes /\ received_over lib bytes (repeat (command_received c) (S (length rounds))).
Proof.
  intros U L W B Br K O. destruct (transmits_command c W B) as (bs & E1 & E2 & Ca).
  destruct (started s c bs U L E1 E2) as (s1 & Ex & U1 & L1 & T1 & M1).
  assert (Us : usable_session s) by (destruct U as (_ & _ & _ & _ & X1 & X2); split; assumption).
  destruct (round_ok_cb lib exit_callbacks s c (es ++ more) Us W B) as (bs' & s1' & Eb & _ & Ex' & U2 & Sn & _ & _).
  assert (s1' = s1) as -> by congruence. assert (bs' = bs) as -> by congruence.
  destruct (late_result lib s1 before late after es more U1 L1 M1 Br) as [R D]; [rewrite T1; assumption.. |].
  destruct (dead_mode lib exit_callbacks c rounds W B (events_cb lib exit_callbacks s1 (es ++ more)) U2 D) as (s' & l & E & D' & F & S & Dl).
  cbn [mode_loop map]. rewrite Ex. cbv zeta. change (fold_left (device_cb lib exit_callbacks) (es ++ more) s1) with (events_cb lib exit_callbacks s1 (es ++ more)).
  rewrite R. cbn [look_at_answers]. rewrite E. eexists _, (wire (mkSent (sp_up (r_parser (se_reader s))) 1 bs (MCmd (command_received c)) :: l)).
  split; [reflexivity|]. split; [exact D'|]. split.
  - rewrite S, Sn, <- app_assoc. reflexivity.
  - apply wire_received.
    + constructor; [|exact F]. unfold sent_ok. cbn [s_counter s_type s_payload s_msg]. refine (conj (proj1 Us) (conj _ (conj E2 Ca))). unfold is_byte. lia.
    + cbn [delivered map s_type s_msg repeat]. f_equal. unfold delivered in Dl. rewrite Dl. clear.
      induction rounds as [|r rounds IH]; [reflexivity|]. cbn [map length repeat]. f_equal. exact IH.
Qed.

(** ** write_update.py: the write to file 199 and the update *)
Definition first_write (rnd : Z) : Command :=
  mkCommand [mkAction (Regular false false) (WriteFileData (mkData (mkOffset 199 (mkLength 0)) (mkLength 1) [0]))]
            None true (Some rnd) true false None.
Lemma first_write_eq rnd : create_write rnd 199 [0] 0 IF_HOST None = Ok (first_write rnd).
Proof. reflexivity. Qed.
Lemma first_write_wf rnd : 0 <= rnd <= 255 -> command_wf (first_write rnd).
Proof.
  intros R. unfold command_wf, first_write. cbn [c_actions c_status c_generate c_tag].
  refine (conj _ (conj eq_refl (conj eq_refl _))).
  - constructor; [|constructor]. unfold action_wf, op_wf, data_wf, off_wf, len_wf. cbn [a_op a_kind d_offset d_length d_data off_id off_offset len_value sendable].
    unfold len_max, zlen. cbn [length]. repeat split; try lia; try discriminate; auto. constructor; [unfold is_byte; lia | constructor].
  - intros _. exists rnd. auto.
Qed.
Lemma first_write_size rnd : command_bytes (first_write rnd) <= 255.
Proof.
  unfold command_bytes, command_layout, first_write, tag_bits, action_layout, act_bits.
  cbn [c_generate c_tag c_respond c_actions flat_map a_kind a_op operand_layout tag_value].
  unfold data_layout, off_layout. cbn [d_offset d_length d_data off_id off_offset].
  pose proof (len_layout_size 0). pose proof (len_layout_small 1 ltac:(lia)).
  unfold zlen in *. repeat (rewrite ?app_length, ?Zbits_length, ?bytes_bits_length; cbn [length]). lia.
Qed.
Lemma quiet_events lib s es tr : in_use s -> listening s -> brings es tr ->
  Forall (fun tx => ~ completes_other (waits_for s) tx) (delivered tr) ->
  in_use (events_cb lib exit_callbacks s es) /\ listening (events_cb lib exit_callbacks s es).
Proof.
  intros U L Br F. pose proof (proj2 (reader_lives lib s tr es U L Br) F) as R. rewrite (events_alive _ _ _ _ R).
  destruct U as (A & B & S & D & Up & K). destruct Br as (chunks & -> & Fs & E).
  pose proof (devices_reader lib chunks s) as Q. destruct s as [[p m a] u f t]. unfold alive in A. cbn [se_reader r_alive r_parser r_modem] in *. subst a.
  destruct (reader_exchange lib chunks p m tr ltac:(rewrite S; exact Fs) B E D) as (p' & HR & B' & S' & U' & D').
  rewrite HR in Q. unfold in_use, listening, alive in *. rewrite Q. cbn [r_alive r_parser r_modem se_reader] in *.
  destruct (dispatches_setup (SSerial.delivered tr) m) as (Q1 & Q2 & Q3 & Q4 & _). rewrite B', S', U', Q1, Q2, Q4.
  destruct L as (L1 & L2 & L3). auto 12.
Qed.
Lemma late_program lib s image rnd0 es0 quiet rnd es before late after more rounds : in_use s -> listening s -> Forall is_byte image -> image <> [] ->
  0 <= rnd0 <= 255 -> 0 <= rnd <= 255 -> rnd0 <> rnd ->
  brings es0 quiet -> Forall (fun tx => forall tag, ~ completes tag tx) (delivered quiet) ->
  brings es (before ++ late :: after) -> Forall (fun tx => ~ completes (Some rnd) tx) (delivered before) ->
  completes (Some rnd0) (s_type late, s_msg late) ->
  exists c s', ota_command rnd 0 (firstn 239 image) = Ok c
  /\ update_program lib exit_callbacks s image rnd0 es0 ((rnd, es ++ more) :: rounds) = (s', [(c, [])], OtaFailed).
Proof.
  intros U L F N R0 R D B0 Q0 Br K O. unfold update_program. rewrite first_write_eq.
  destruct (transmits_command (first_write rnd0) (first_write_wf rnd0 R0) (first_write_size rnd0)) as (bs & E1 & E2 & _).
  destruct (started s (first_write rnd0) bs U L E1 E2) as (s1 & Ex & U1 & L1 & T1 & _). rewrite Ex.
  destruct (quiet_events lib s1 es0 quiet U1 L1 B0) as [U2 L2].
  { eapply Forall_impl; [|exact Q0]. intros tx H (c & X1 & X2 & X3 & _). apply (H (c_tag c)). exists c. auto. }
  apply (late_update lib _ image 0 rnd es more rounds before late after U2 L2 F N R ltac:(unfold len_max; lia) Br K).
  destruct O as (c & X1 & X2 & X3 & X4). exists c. refine (conj X1 (conj X2 (conj X3 _))). congruence.
Qed.

(** ** Waiting for a reboot *)
Definition heard (m : Modem) : bool := match m_rb_calls m with [] => false | _ => true end.
Lemma heard_dispatch m t x : m_has_rbcb m = true -> heard (dispatch m (t, x)) = (t =? 5) || heard m.
Proof.
  intros R. unfold dispatch, dispatch_other, heard. destruct (is_response m t x) eqn:I.
  - cbn [set_sync m_rb_calls]. replace (t =? 5) with false; [reflexivity|]. destruct x; try discriminate I.
    cbn [is_response] in I. apply Bool.andb_true_iff in I. destruct I as [_ I]. lia.
  - rewrite R. destruct (m_has_cb m && m_connected m && (t <=? 3)) eqn:C.
    + cbn [set_out m_rb_calls]. replace (t =? 5) with false; [reflexivity|]. apply Bool.andb_true_iff in C. destruct C as [_ C]. lia.
    + destruct (t =? 5); [cbn [set_out m_rb_calls]; destruct (m_rb_calls m); reflexivity|].
      destruct (t =? 4); [reflexivity|]. destruct (t <=? 3); reflexivity.
Qed.
Lemma heard_all msgs : forall m, callable m -> m_has_rbcb m = true ->
  heard (fst (dispatch_all exit_callbacks m msgs)) = true
  <-> heard m = true \/ exists before x after, msgs = before ++ (5, x) :: after /\ Forall (fun tx => ~ completes_other (m_tag m) tx) before.
Proof.
  induction msgs as [|[t x] msgs IH]; intros m C R.
  - split; [auto|]. intros [H | (b & x & a & E & _)]; [exact H | destruct b; discriminate E].
  - cbn [dispatch_all]. pose proof (exit_raises m (t, x) C) as X. destruct (dispatch_raises exit_callbacks m (t, x)) eqn:D.
    + cbn [fst]. rewrite heard_dispatch by exact R. rewrite Bool.orb_true_iff. split.
      * intros [T | H]; [|auto]. right. exists [], x, msgs. split; [|constructor]. replace t with 5 by lia. reflexivity.
      * intros [H | (b & x' & a & E & F)]; [auto|]. destruct b as [|tx b]; cbn [app] in E.
        -- injection E as -> _ _. auto.
        -- injection E as <- E. inversion F as [|? ? N _]; subst. destruct N. apply X. reflexivity.
    + destruct (callable_dispatch m (t, x) C) as [C' T]. pose proof (dispatch_setup m (t, x)) as (_ & _ & R' & _).
      rewrite (IH _ C') by (rewrite R'; exact R). rewrite heard_dispatch by exact R. rewrite T, Bool.orb_true_iff. split.
      * intros [[H | H] | (b & x' & a & E & F)].
        -- right. exists [], x, msgs. split; [|constructor]. replace t with 5 by lia. reflexivity.
        -- auto.
        -- right. exists ((t, x) :: b), x', a. split; [rewrite E; reflexivity|]. constructor; [|exact F]. intros Q. apply X in Q. discriminate Q.
      * intros [H | (b & x' & a & E & F)]; [auto|]. destruct b as [|tx b]; cbn [app] in E.
        -- injection E as -> _ _. auto.
        -- injection E as <- E. right. exists b, x', a. inversion F; subst. auto.
Qed.
Lemma stop_heard lib s tr es : in_use s -> listening s -> to_reboot_callback s = true -> brings es tr ->
  may_stop (events_cb lib exit_callbacks s es) = true
  <-> may_stop s = true \/ exists before x after, tr = before ++ x :: after /\ s_type x = 5
        /\ Forall (fun tx => ~ completes_other (waits_for s) tx) (delivered before).
Proof.
  intros (A & B & S & _) L R (chunks & -> & F & E). unfold may_stop at 1. rewrite events_bytes.
  destruct s as [[p m a] u f t]. unfold alive, waits_for, may_stop, to_reboot_callback in *. cbn [se_reader r_parser r_modem r_alive] in *. subst a.
  rewrite (proj1 (reader_cb lib exit_callbacks chunks p m tr ltac:(rewrite S; exact F) B E)). fold (heard m).
  fold (heard (fst (dispatch_all exit_callbacks m (SSerial.delivered tr)))). rewrite (heard_all _ m L R). apply or_iff_compat_l.
  unfold SSerial.delivered. split.
  - intros (b & x & a & Em & Fb). apply map_eq_app in Em. destruct Em as (l1 & l2 & -> & <- & E2).
    apply map_eq_cons in E2. destruct E2 as (y & l3 & -> & Ey & _). exists l1, y, l3. refine (conj eq_refl (conj _ Fb)). congruence.
  - intros (b & x & a & -> & T & Fb). exists (map (fun x => (s_type x, s_msg x)) b), (s_msg x), (map (fun x => (s_type x, s_msg x)) a).
    split; [|exact Fb]. rewrite map_app. cbn [map]. rewrite T. reflexivity.
Qed.
