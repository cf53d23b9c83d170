(** Lemmas for C108 *)
From Coq Require Import ZifyBool ZifyNat.
From Verif Require Import LBits LBytes LAction LCommand LRun LTraffic LSend LSerialProps LModem LConnect LConverse SCounted LPrompt LChunk LCounted.
Open Scope list_scope.
Open Scope Z_scope.

Lemma arriving_app a b : arriving (a ++ b) = arriving a ++ arriving b.
Proof. apply flat_map_app. Qed.
Lemma feeds_come lib chunks : forall p l more, Forall (arrival_ok (sp_skip p)) l -> begun l (sp_buf p) ->
  (sp_buf p ++ concat chunks) ++ more = arriving l ->
  exists l1 p', come l (sp_buf p ++ concat chunks) l1 (sp_buf p') /\ feeds lib p chunks p' (delivered (accepted l1)) (refused l1)
  /\ sp_skip p' = sp_skip p /\ sp_up p' = sp_up p.
Proof.
  induction chunks as [|c cs IH]; intros p l more F U E.
  - exists [], p. cbn [concat] in *. rewrite app_nil_r in *. split; [exists l; auto|]. split; [constructor | auto].
  - cbn [concat] in *. rewrite app_assoc in *. rewrite <- (app_assoc _ (concat cs) more) in E.
    pose proof (arriving_bytes _ _ F) as Fb. rewrite <- E in Fb. apply Forall_app in Fb. destruct Fb as [Fb _].
    pose proof (proj1 (Forall_app _ _ _) Fb) as [Bp Bc].
    destruct (runs_arriving lib (sp_skip p) l F _ _ E) as (l1 & l2 & pd & fin & El & Ef & R & U2).
    pose proof (sparse_runs _ _ _ _ _ _ _ _ _ Bp Bc R) as S1. cbv iota in S1.
    set (p1 := set_buf (with_counters p (map arrival_counter l1)) fin) in *.
    assert (Sk : sp_skip p1 = sp_skip p) by (unfold p1; apply set_counters_skip).
    assert (Up : sp_up p1 = sp_up p) by (unfold p1; cbn [set_buf sp_up]; apply counters_up).
    assert (Bf : sp_buf p1 = fin) by reflexivity.
    assert (Eb : sp_buf p ++ c = arriving l1 ++ fin).
    { apply (app_inv_tail (concat cs ++ more)). rewrite <- (app_assoc (arriving l1)), Ef, <- arriving_app, <- El. exact E. }
    rewrite El in F. apply Forall_app in F. destruct F as [F1 F2].
    destruct (IH p1 l2 more) as (m1 & p2 & A2 & Fd & Sk2 & Up2); [rewrite Sk; exact F2 | exact U2 | rewrite Bf, <- app_assoc; exact Ef |].
    exists (l1 ++ m1), p2. split; [|split; [|rewrite Sk2, Up2; auto]].
    + destruct A2 as (l3 & E3 & Eb3 & U3). exists l3. split; [rewrite El, E3; apply app_assoc|]. split; [|exact U3].
      rewrite Eb, arriving_app, <- !app_assoc. f_equal. rewrite <- Bf. exact Eb3.
    + assert (Dl : delivered (accepted (l1 ++ m1)) = delivered (accepted l1) ++ delivered (accepted m1)) by (rewrite accepted_app; apply map_app).
      rewrite Dl, refused_app. exact (feeds_cons lib p c p1 _ cs p2 _ _ S1 Fd).
Qed.
Lemma come_function l bytes l1 r1 l1' r1' : come l bytes l1 r1 -> come l bytes l1' r1' -> l1 = l1' /\ r1 = r1'.
Proof.
  revert bytes l1 l1'. induction l as [|x l IH]; intros bytes l1 l1' (l2 & E & Eb & U) (l2' & E' & Eb' & U').
  - symmetry in E, E'. apply app_eq_nil in E. apply app_eq_nil in E'. destruct E as [-> ->], E' as [-> ->]. cbn in U, U'. subst. auto.
  - assert (Long : forall r m q, arrival_bytes x = r ++ m -> m <> [] -> r = arrival_bytes x ++ q -> False).
    { intros r m q H N K. rewrite K in H. apply (f_equal (@length Z)) in H. rewrite !app_length in H. destruct m; [congruence | cbn [length] in H; lia]. }
    destruct l1 as [|y l1], l1' as [|y' l1']; cbn [app] in E, E'; unfold arriving in Eb, Eb'; cbn [flat_map app] in Eb, Eb'.
    + split; congruence.
    + exfalso. subst l2. injection E' as <- _. destruct U as (e & N & Ef). subst bytes. rewrite <- app_assoc in Eb'. exact (Long _ _ _ Ef N Eb').
    + exfalso. subst l2'. injection E as <- _. destruct U' as (e & N & Ef). subst bytes. rewrite <- app_assoc in Eb'. exact (Long _ _ _ Ef N (eq_sym Eb')).
    + injection E as <- E. injection E' as <- E'. rewrite <- app_assoc in Eb, Eb'. subst bytes. apply app_inv_head in Eb'.
      destruct (IH (arriving l1 ++ r1) l1 l1') as [-> ->]; [exists l2; auto | exists l2'; auto | auto].
Qed.
Lemma reader_come lib chunks p m l more : Forall (arrival_ok (sp_skip p)) l -> sp_buf p = [] -> concat chunks ++ more = arriving l ->
  exists l1 p', come l (concat chunks) l1 (sp_buf p')
  /\ read_chunks lib (mkReader p m true) chunks = mkReader p' (fold_left dispatch (delivered (accepted l1)) m) true.
Proof.
  intros F B E. rewrite read_filter, <- concat_filter. rewrite <- concat_filter in E.
  destruct (feeds_come lib (filter nonempty chunks) p l more F) as (l1 & p' & A & Fd & _).
  { rewrite B. apply begun_nil. } { rewrite B. exact E. }
  exists l1, p'. split; [rewrite B in A; exact A|].
  apply (read_feeds _ _ _ _ _ _ Fd). apply filter_nonempty.
Qed.
Lemma session_come lib s l chunks more : in_use s -> Forall (arrival_ok false) l -> concat chunks ++ more = arriving l ->
  let s2 := devices lib s (map DBytes chunks) in
  alive s2 = true /\ exists l1, come l (concat chunks) l1 (sp_buf (r_parser (se_reader s2)))
  /\ r_modem (se_reader s2) = handled (r_modem (se_reader s)) (delivered (accepted l1)).
Proof.
  intros (A & B & S & _) F E. destruct s as [[p m a] u f t]. unfold alive in *. cbn [se_reader r_alive r_parser r_modem] in *. subst a.
  destruct (reader_come lib chunks p m l more ltac:(rewrite S; exact F) B E) as (l1 & p' & Ar & R).
  cbv zeta. rewrite devices_reader. cbn [se_reader]. rewrite R. split; [reflexivity|]. exists l1. auto.
Qed.
Lemma result_come lib s c timeout l chunks more : in_use s -> command_wf c -> command_bytes c <= 255 -> 0 < timeout ->
  Forall (arrival_ok false) l -> concat chunks ++ more = arriving l ->
  exists s1, execute s c timeout = (s1, Ok tt) /\
  let s2 := devices lib s1 (map DBytes chunks) in
  exists l1, come l (concat chunks) l1 (sp_buf (r_parser (se_reader s2))) /\
     let x := mkExchange c timeout (accepted l1) chunks in
     execute_result s2 = expected x /\ answered s2 = existsb ends_execution (replies x).
Proof.
  intros U W L T F E. destruct (transmits_command c W L) as (bs & Eb & P & _). pose proof U as (A & B & S & D & Up & K).
  pose proof (execute_ok s c bs timeout Up Eb P) as Ex. set (s1 := mkSession _ _ _ _) in Ex.
  assert (U1 : in_use s1).
  { unfold in_use, alive, s1. cbn [se_reader r_parser r_modem r_alive with_up sp_buf sp_skip sp_down sp_up].
    pose proof (after_byte _ Up). unfold alive in A. auto 10. }
  destruct (session_come lib s1 l chunks more U1 F E) as (_ & l1 & Ar & M).
  exists s1. split; [exact Ex|]. cbv zeta. exists l1. split; [exact Ar|]. unfold execute_result, answered. rewrite M.
  assert (M1 : r_modem (se_reader s1) = exec_start (r_modem (se_reader s)) (c_tag c) timeout) by reflexivity. rewrite M1. unfold handled.
  split.
  - exact (proj1 (modem_exchange (r_modem (se_reader s)) (c_tag c) timeout (mkExchange c timeout (accepted l1) chunks) K T eq_refl)).
  - exact (answered_iff (r_modem (se_reader s)) (c_tag c) timeout (mkExchange c timeout (accepted l1) chunks) K T eq_refl).
Qed.
Lemma come_exists l bytes more : bytes ++ more = arriving l -> exists l1 rest, come l bytes l1 rest.
Proof.
  revert bytes. induction l as [|x l IH]; intros bytes E.
  - cbn in E. apply app_eq_nil in E. destruct E as [-> _]. exists [], [], []. cbn. auto.
  - unfold arriving in E. cbn [flat_map] in E. fold (arriving l) in E.
    destruct (Nat.le_gt_cases (length (arrival_bytes x)) (length bytes)) as [Hl|Hl].
    + assert (K : bytes = arrival_bytes x ++ skipn (length (arrival_bytes x)) bytes).
      { rewrite <- (firstn_skipn (length (arrival_bytes x)) bytes) at 1. f_equal.
        apply (f_equal (firstn (length (arrival_bytes x)))) in E. rewrite firstn_app in E.
        replace (length (arrival_bytes x) - length bytes)%nat with 0%nat in E by lia. rewrite firstn_app, Nat.sub_diag, firstn_all in E.
        cbn [firstn] in E. rewrite !app_nil_r in E. exact E. }
      rewrite K, <- app_assoc in E. apply app_inv_head in E. destruct (IH _ E) as (l1 & r & l2 & -> & Eb & U).
      exists (x :: l1), r, l2. split; [reflexivity|]. split; [|exact U]. rewrite K, Eb. cbn [arriving flat_map]. rewrite <- app_assoc. reflexivity.
    + exists [], bytes, (x :: l). split; [reflexivity|]. split; [reflexivity|].
      exists (skipn (length bytes) (arrival_bytes x)). split.
      * intros N. apply (f_equal (@length Z)) in N. rewrite skipn_length in N. cbn in N. lia.
      * apply (f_equal (firstn (length bytes))) in E. rewrite firstn_app, Nat.sub_diag, firstn_all in E. cbn [firstn] in E. rewrite app_nil_r in E.
        rewrite firstn_app in E. replace (length bytes - length (arrival_bytes x))%nat with 0%nat in E by lia. cbn [firstn] in E. rewrite app_nil_r in E.
        rewrite E at 1. symmetry. apply firstn_skipn.
Qed.
Lemma come_all l l1 rest : come l (arriving l) l1 rest -> l1 = l /\ rest = [].
Proof.
  intros C. apply (come_function l (arriving l) l1 rest l []); [exact C|]. exists []. rewrite !app_nil_r. cbn. auto.
Qed.
Lemma session_all lib s l chunks : in_use s -> Forall (arrival_ok false) l -> concat chunks = arriving l ->
  let s2 := devices lib s (map DBytes chunks) in
  alive s2 = true /\ sp_buf (r_parser (se_reader s2)) = []
  /\ r_modem (se_reader s2) = handled (r_modem (se_reader s)) (delivered (accepted l)).
Proof.
  intros U F E. destruct (session_come lib s l chunks [] U F) as (A & l1 & C & M); [rewrite app_nil_r; exact E|].
  cbv zeta. rewrite E in C. destruct (come_all _ _ _ C) as [-> B]. auto.
Qed.
Lemma wire_whole l : arriving (map Whole l) = wire l.
Proof. unfold arriving, wire. induction l as [|x l IH]; [reflexivity|]. cbn [map flat_map]. rewrite IH. reflexivity. Qed.
Lemma accepted_whole l : accepted (map Whole l) = l.
Proof. unfold accepted. induction l as [|x l IH]; [reflexivity|]. cbn [map flat_map app]. rewrite IH. reflexivity. Qed.
Lemma accepted_ok skip l : Forall (arrival_ok skip) l -> Forall (arrival_ok skip) (map Whole (accepted l)).
Proof.
  unfold accepted. induction 1 as [|[x|d] l H _ IH]; cbn [flat_map map app]; [constructor | constructor; [exact H | exact IH] | exact IH].
Qed.
Lemma same_undamaged lib s l chunks chunks' : in_use s -> Forall (arrival_ok false) l ->
  concat chunks = arriving l -> concat chunks' = wire (accepted l) ->
  r_modem (se_reader (devices lib s (map DBytes chunks))) = r_modem (se_reader (devices lib s (map DBytes chunks'))).
Proof.
  intros U F E E'. destruct (session_all lib s l chunks U F E) as (_ & _ & ->).
  destruct (session_all lib s (map Whole (accepted l)) chunks' U (accepted_ok _ _ F)) as (_ & _ & ->); [rewrite wire_whole; exact E'|].
  rewrite accepted_whole. reflexivity.
Qed.
Lemma answer_hurt lib s c timeout l chunks : in_use s -> command_wf c -> command_bytes c <= 255 -> 0 < timeout ->
  Forall (arrival_ok false) l -> concat chunks = arriving l ->
  existsb ends_execution (replies (mkExchange c timeout (accepted l) chunks)) = false ->
  exists s1, execute s c timeout = (s1, Ok tt) /\
  let s2 := devices lib s1 (map DBytes chunks) in answered s2 = false /\ execute_result s2 = [].
Proof.
  intros U W L T F E N. destruct (result_come lib s c timeout l chunks [] U W L T F) as (s1 & X & l1 & C & R & A); [rewrite app_nil_r; exact E|].
  exists s1. split; [exact X|]. cbv zeta. rewrite E in C. destruct (come_all _ _ _ C) as [-> _].
  rewrite A, R. unfold expected. rewrite N. auto.
Qed.
(** ** Conversations over a damaged line *)
Lemma reader_hurt lib chunks p m l :
  Forall (arrival_ok (sp_skip p)) l -> sp_buf p = [] -> concat chunks = arriving l -> is_byte (sp_down p) ->
  exists p', read_chunks lib (mkReader p m true) chunks = mkReader p' (fold_left dispatch (SSerial.delivered (accepted l)) m) true
    /\ sp_buf p' = [] /\ sp_skip p' = sp_skip p /\ sp_up p' = sp_up p /\ is_byte (sp_down p').
Proof.
  intros F B E D. rewrite read_filter. destruct (filter nonempty chunks) as [|c cs] eqn:FC.
  - assert (l = []) as ->.
    { rewrite <- concat_filter, FC in E. destruct l as [|x l]; [reflexivity|]. exfalso. cbn [concat arriving flat_map] in E.
      symmetry in E. apply app_eq_nil in E. destruct E as [E _]. destruct x; discriminate E. }
    exists p. auto.
  - assert (E2 : sp_buf p ++ concat (c :: cs) = arriving l) by (rewrite B, <- FC, concat_filter; exact E).
    pose proof (feeds_arriving lib (c :: cs) p l F E2 ltac:(discriminate)) as H.
    eexists. split; [apply (read_feeds _ _ _ _ _ _ H); rewrite <- FC; apply filter_nonempty|].
    cbn [set_buf sp_buf sp_skip sp_up sp_down]. rewrite counters_skip, counters_up. refine (conj eq_refl (conj eq_refl (conj eq_refl _))).
    assert (Fc : Forall is_byte (map arrival_counter l)).
    { clear - F. induction F as [|[x|d] l H Hl IH]; cbn [map]; constructor; try exact IH; cbn [arrival_counter].
      - apply H.
      - destruct H as (H & _). unfold hit_bytes in H. repeat match goal with H : Forall _ (_ :: _) |- _ => inversion H; clear H; subst end. assumption. }
    destruct (counters_errs (map arrival_counter l) p D Fc) as [-> _].
    clear -D Fc. revert D. generalize (sp_down p). revert Fc. generalize (map arrival_counter l). clear l. intros l Fc. induction Fc as [|x l0 Hx Fl IH]; intros d D; [exact D|].
    destruct l0 as [|y l0]; [exact Hx|]. apply (IH d D).
Qed.
Lemma one_hurt lib s x : in_use s -> exchange_hurt x ->
  exists s2 bs, exchange lib s x = (s2, Ok (expected x)) /\ in_use s2
  /\ to_callback s2 = to_callback s /\ to_reboot_callback s2 = to_reboot_callback s
  /\ command_ser (x_command x) = Ok bs /\ is_payload bs
  /\ se_sent s2 = se_sent s ++ frame (sp_up (r_parser (se_reader s))) 1 bs
  /\ sp_up (r_parser (se_reader s2)) = counter_after (sp_up (r_parser (se_reader s)))
  /\ received_from s s2 [x].
Proof.
  intros (A & B & S & D & U & MS) (W & L & T & ln & F & E & Tr).
  destruct (transmits_command (x_command x) W L) as (bs & Eb & P & _).
  unfold exchange. rewrite (execute_ok s (x_command x) bs (x_timeout x) U Eb P).
  set (s1 := mkSession _ _ _ _). eexists _, bs. split; [|split; [|split; [|split; [|split; [exact Eb | split; [exact P|split; [|split]]]]]]].
  all: destruct (devices_keep lib (map DBytes (x_chunks x)) s1) as (K1 & K2 & K3).
  all: pose proof (devices_reader lib (x_chunks x) s1) as R; unfold s1 in R at 2; cbn [se_reader] in R; rewrite A in R.
  all: destruct (reader_hurt lib (x_chunks x) (with_up (r_parser (se_reader s)) (counter_after (sp_up (r_parser (se_reader s)))))
              (exec_start (r_modem (se_reader s)) (c_tag (x_command x)) (x_timeout x)) ln) as (p' & HR & B' & S' & U' & D');
       [cbn [with_up sp_skip]; rewrite S; exact F | exact B | exact E | exact D | rewrite <- Tr in HR; rewrite HR in R].
  all: destruct (modem_exchange (r_modem (se_reader s)) _ (x_timeout x) x MS T eq_refl) as (M0 & M1 & M2 & M3 & M4 & M5).
  all: destruct (dispatches_setup (SSerial.delivered (x_traffic x)) (exec_start (r_modem (se_reader s)) (c_tag (x_command x)) (x_timeout x)))
         as (Q1 & Q2 & Q3 & Q4 & _).
  all: cbn [with_up sp_skip sp_up] in *.
  - unfold execute_result. rewrite R. cbn [r_modem]. rewrite M0. reflexivity.
  - unfold in_use, alive. rewrite R. cbn [r_alive r_parser r_modem]. rewrite B', S', U', Q1.
    repeat split; auto; try apply D'; apply (after_byte _ U).
  - unfold to_callback, connected. rewrite R. cbn [r_modem]. rewrite Q2, Q4. reflexivity.
  - unfold to_reboot_callback. rewrite R. cbn [r_modem]. rewrite Q3. reflexivity.
  - rewrite K3. reflexivity.
  - rewrite R. exact U'.
  - unfold received_from, session_inbox, to_callback, to_reboot_callback, connected. rewrite R. cbn [r_modem flat_map].
    rewrite !app_nil_r. auto.
Qed.

(** ** The conversation *)
Lemma conversation_hurt lib xs : forall s, in_use s -> Forall exchange_hurt xs ->
  exists s2 tr, converse lib s xs = (s2, map (fun x => Ok (expected x)) xs) /\ in_use s2
  /\ to_callback s2 = to_callback s /\ to_reboot_callback s2 = to_reboot_callback s
  /\ received_from s s2 xs
  /\ se_sent s2 = se_sent s ++ wire tr /\ Forall (sent_ok false) tr
  /\ SSerial.delivered tr = map (fun x => (1, MCmd (command_received (x_command x)))) xs
  /\ map s_counter tr = count_up (sp_up (r_parser (se_reader s))) (length xs).
Proof.
  induction xs as [|x xs IH]; intros s U F.
  - exists s, []. cbn. unfold received_from. cbn [flat_map].
    destruct (to_callback s), (to_reboot_callback s); rewrite !app_nil_r; repeat split; try apply U; constructor.
  - inversion F as [|? ? Fx Fr]; subst. destruct (one_hurt lib s x U Fx) as (s1 & bs & E1 & U1 & C1 & R1 & Eb & P & Sn & Up & Rc).
    destruct (IH s1 U1 Fr) as (s2 & tr & E2 & U2 & C2 & R2 & Rc2 & Sn2 & Ft & Dl & Cn).
    exists s2, (mkSent (sp_up (r_parser (se_reader s))) 1 bs (MCmd (command_received (x_command x))) :: tr).
    cbn [converse]. rewrite E1, E2. split; [reflexivity|]. split; [exact U2|]. split; [congruence|]. split; [congruence|].
    split; [|split; [|split; [|split]]].
    + unfold received_from in *. cbn [flat_map] in *. rewrite !app_nil_r in *. rewrite C1, R1 in Rc2.
      destruct Rc as (a1 & a2 & a3 & a4 & a5), Rc2 as (b1 & b2 & b3 & b4 & b5).
      rewrite b1, b2, b3, b4, b5, a1, a2, a3, a4, a5.
      destruct (to_callback s), (to_reboot_callback s); rewrite ?app_nil_r, ?app_assoc; auto.
    + rewrite Sn2, Sn, <- app_assoc. reflexivity.
    + constructor; [|exact Ft]. destruct Fx as (W & L & _).
      destruct (transmits_command _ W L) as (bs' & Eb' & _ & Ca). assert (bs' = bs) as -> by congruence.
      unfold sent_ok. cbn [s_counter s_type s_payload s_msg]. refine (conj _ (conj _ (conj P Ca))); [apply U | unfold is_byte; lia].
    + cbn [SSerial.delivered map s_type s_msg]. f_equal. exact Dl.
    + cbn [map s_counter length count_up]. rewrite Cn, Up. reflexivity.
Qed.
Lemma hurt_results lib s xs : in_use s -> Forall exchange_hurt xs ->
  snd (converse lib s xs) = map (fun x => Ok (expected x)) xs /\ in_use (fst (converse lib s xs)).
Proof. intros U F. destruct (conversation_hurt lib xs s U F) as (s2 & tr & -> & U2 & _). auto. Qed.
Lemma hurt_others lib s xs : in_use s -> Forall exchange_hurt xs ->
  let s2 := fst (converse lib s xs) in
  session_inbox PCallback s2 = session_inbox PCallback s ++ (if to_callback s then flat_map others xs else [])
  /\ session_inbox PUnsolicited s2 = session_inbox PUnsolicited s ++ (if to_callback s then [] else flat_map others xs)
  /\ session_inbox PRebootCallback s2 = session_inbox PRebootCallback s ++ (if to_reboot_callback s then flat_map (of_type 5) xs else [])
  /\ session_inbox PReboots s2 = session_inbox PReboots s ++ (if to_reboot_callback s then [] else flat_map (of_type 5) xs)
  /\ session_inbox PLog s2 = session_inbox PLog s ++ flat_map (of_type 4) xs.
Proof. intros U F. destruct (conversation_hurt lib xs s U F) as (s2 & tr & -> & _ & _ & _ & R & _). exact R. Qed.
Lemma hurt_peer lib lib' s xs q chunks : in_use s -> Forall exchange_hurt xs ->
  sp_skip q = false -> sp_buf q = [] -> is_byte (sp_down q) -> chunks <> [] ->
  se_sent (fst (converse lib s xs)) = se_sent s ++ concat chunks ->
  exists q', feeds lib' q chunks q' (map (fun x => (1, MCmd (command_received (x_command x)))) xs) []
  /\ sp_buf q' = [] /\ (in_step (r_parser (se_reader s)) q -> sp_errs q' = sp_errs q).
Proof.
  intros U F S B D N E. destruct (conversation_hurt lib xs s U F) as (s2 & tr & Ec & _ & _ & _ & _ & Sn & Ft & Dl & Cn).
  rewrite Ec in E. cbn [fst] in E. rewrite Sn in E. apply app_inv_head in E.
  destruct (traffic lib' chunks q tr) as (q' & H & B' & Er & _); try assumption.
  - rewrite S. exact Ft.
  - rewrite B. cbn [app]. congruence.
  - exists q'. rewrite <- Dl. split; [exact H|]. split; [exact B'|]. intro I. rewrite Er, Cn, <- I, jumps_count. lia.
Qed.
Lemma reader_good lib chunks r l : r_alive r = true -> Forall (arrival_ok (sp_skip (r_parser r))) l -> sp_buf (r_parser r) = [] ->
  forall more, concat chunks ++ more = arriving l ->
  let r2 := read_chunks lib r chunks in
  r_alive r2 = true /\ exists l1, come l (concat chunks) l1 (sp_buf (r_parser r2))
  /\ r_modem r2 = handled (r_modem r) (delivered (accepted l1)).
Proof.
  intros A F B more E. destruct r as [p m a]. cbn [r_alive r_parser r_modem] in *. subst a. cbv zeta.
  destruct (reader_come lib chunks p m l more F B E) as (l1 & p' & C & R).
  rewrite R. cbn [r_alive r_parser r_modem]. split; [reflexivity|]. exists l1. auto.
Qed.
Lemma crossed_facts skip good tr l : crossed good tr l -> Forall (sent_ok skip) tr ->
  Forall (arrival_ok skip) l /\ accepted l = marked good tr /\ map arrival_counter l = map s_counter tr
  /\ length (refused l) = length (filter negb good).
Proof.
  induction 1 as [|x good tr l H IH|x d good tr l Hd Hc H IH]; intros F.
  - repeat split; constructor.
  - inversion F as [|? ? Fx Fr]; subst. destruct (IH Fr) as (A & B & C & D). repeat split.
    + constructor; [exact Fx | exact A].
    + unfold accepted in *. cbn [flat_map marked app]. rewrite B. reflexivity.
    + cbn [map arrival_counter]. rewrite C. reflexivity.
    + exact D.
  - inversion F as [|? ? Fx Fr]; subst. destruct (IH Fr) as (A & B & C & D). repeat split.
    + constructor; [exact Hd | exact A].
    + exact B.
    + cbn [map arrival_counter]. rewrite C, Hc. reflexivity.
    + unfold refused in *. cbn [flat_map app length filter negb]. rewrite D. reflexivity.
Qed.
Lemma marked_map {A B} (f : A -> B) good : forall l, map f (marked good l) = marked good (map f l).
Proof. induction good as [|[|] g IH]; intros [|x l]; cbn; try reflexivity; [rewrite IH; reflexivity | apply IH]. Qed.
Lemma commands_lost lib lib' s xs q : in_use s -> Forall exchange_hurt xs ->
  sp_skip q = false -> sp_buf q = [] -> is_byte (sp_down q) ->
  exists tr, se_sent (fst (converse lib s xs)) = se_sent s ++ wire tr /\ Forall (sent_ok false) tr
  /\ delivered tr = map (fun x => (1, MCmd (command_received (x_command x)))) xs
  /\ forall good l chunks, crossed good tr l -> concat chunks = arriving l -> chunks <> [] ->
     exists q' es, feeds lib' q chunks q' (marked good (map (fun x => (1, MCmd (command_received (x_command x)))) xs)) es
     /\ length es = length (filter negb good) /\ sp_buf q' = [] /\ (in_step (r_parser (se_reader s)) q -> sp_errs q' = sp_errs q).
Proof.
  intros U F Sk B D. destruct (conversation_hurt lib xs s U F) as (s2 & tr & Ec & _ & _ & _ & _ & Sn & Ft & Dl & Cn).
  exists tr. rewrite Ec. cbn [fst]. split; [exact Sn|]. split; [exact Ft|]. split; [exact Dl|].
  intros good l chunks C E N. destruct (crossed_facts false good tr l C Ft) as (A & Ac & Ct & Rf).
  destruct (arrivals lib' q chunks l) as (q' & Fd & Bf & _ & Er); [rewrite Sk; exact A | rewrite B; exact E | exact N | exact D |].
  exists q', (refused l). split; [|split; [exact Rf|split; [exact Bf|]]].
  - rewrite <- Dl. unfold delivered in *. rewrite <- marked_map, <- Ac. exact Fd.
  - intro I. rewrite Er, Ct, Cn, <- I, jumps_count. lia.
Qed.
(** ** connect() *)
Lemma connect_waits rnd s : 0 <= rnd <= 255 -> in_use s -> connected s = false ->
  exists c s1, connect_command rnd = Ok c /\ c_tag c = Some rnd /\ connect_begin rnd true s = (s1, Waiting) /\ execute s c 10 = (s1, Ok tt) /\ in_use s1.
Proof.
  intros H (A & B & S & D & Up & K) C. destruct (connect_command_ok rnd H) as (c & Ec & T & E).
  pose proof (execute_ok s c _ 10 Up E (request_payload rnd H)) as Ex. set (s1 := mkSession _ _ _ _) in Ex.
  exists c, s1. split; [exact Ec|]. split; [exact T|]. split.
  - unfold connect_begin. unfold connected in C. rewrite C. cbn [negb]. rewrite Ec, K, Ex. reflexivity.
  - split; [exact Ex|]. unfold in_use, alive, s1. cbn [se_reader r_parser r_modem r_alive with_up sp_buf sp_skip sp_down sp_up].
    pose proof (after_byte _ Up). unfold alive in A. auto 10.
Qed.
Lemma connect_end_same a b : r_modem (se_reader a) = r_modem (se_reader b) -> se_uid a = se_uid b -> se_fw a = se_fw b ->
  let x := connect_end a in let y := connect_end b in
  snd x = snd y /\ r_modem (se_reader (fst x)) = r_modem (se_reader (fst y)) /\ se_uid (fst x) = se_uid (fst y) /\ se_fw (fst x) = se_fw (fst y).
Proof.
  intros M U F. cbv zeta. unfold connect_end, execute_result. rewrite M, U, F.
  destruct (exec_result (r_modem (se_reader b))) as [|[z|l|c] r]; cbn [fst snd]; auto.
  destruct (connect_actions (se_uid b, se_fw b) (c_actions c)) as [[u f] [e|]]; cbn [fst snd with_connected se_reader r_modem se_uid se_fw]; rewrite M; auto.
Qed.
Lemma connect_damaged lib rnd s l chunks chunks' : 0 <= rnd <= 255 -> in_use s -> connected s = false ->
  Forall (arrival_ok false) l -> concat chunks = arriving l -> concat chunks' = wire (accepted l) ->
  exists s1, connect_begin rnd true s = (s1, Waiting) /\
  let x := connect_end (devices lib s1 (map DBytes chunks)) in let y := connect_end (devices lib s1 (map DBytes chunks')) in
  snd x = snd y /\ r_modem (se_reader (fst x)) = r_modem (se_reader (fst y)) /\ se_uid (fst x) = se_uid (fst y) /\ se_fw (fst x) = se_fw (fst y).
Proof.
  intros H U C F E E'. destruct (connect_waits rnd s H U C) as (c & s1 & _ & _ & B & _ & U1). exists s1. split; [exact B|].
  apply connect_end_same.
  - exact (same_undamaged lib s1 l chunks chunks' U1 F E E').
  - destruct (devices_keep lib (map DBytes chunks) s1) as (K1 & _), (devices_keep lib (map DBytes chunks') s1) as (L1 & _). congruence.
  - destruct (devices_keep lib (map DBytes chunks) s1) as (_ & K1 & _), (devices_keep lib (map DBytes chunks') s1) as (_ & L1 & _). congruence.
Qed.
Lemma existsb_pick (f : Z * Msg -> bool) (g : Msg -> bool) l : existsb g (map snd (filter f l)) = existsb (fun tx => f tx && g (snd tx)) l.
Proof. induction l as [|x l IH]; [reflexivity|]. cbn [filter existsb]. destruct (f x); cbn [map existsb andb orb]; rewrite IH; reflexivity. Qed.
Lemma connect_lost lib rnd s l chunks : 0 <= rnd <= 255 -> in_use s -> connected s = false ->
  Forall (arrival_ok false) l -> concat chunks = arriving l ->
  existsb (fun tx => is_reply (Some rnd) tx && ends_execution (snd tx)) (delivered (accepted l)) = false ->
  exists s1, connect_begin rnd true s = (s1, Waiting) /\
  let x := connect_end (devices lib s1 (map DBytes chunks)) in snd x = Returned (Some false) /\ connected (fst x) = false.
Proof.
  intros H U C F E N. destruct (connect_waits rnd s H U C) as (c & s1 & _ & T & B & Ex & U1). exists s1. split; [exact B|]. cbv zeta.
  destruct (session_all lib s1 l chunks U1 F E) as (_ & _ & M).
  assert (M1 : r_modem (se_reader s1) = exec_start (r_modem (se_reader s)) (c_tag c) 10).
  { unfold execute in Ex. destruct (build_serial_frame _ _) as [p [bs|e]]; [|discriminate]. injection Ex as <-. reflexivity. }
  pose proof U as (_ & _ & _ & _ & _ & K).
  assert (R : execute_result (devices lib s1 (map DBytes chunks)) = []).
  { unfold execute_result. rewrite M, M1. unfold handled.
    pose proof (proj1 (modem_exchange (r_modem (se_reader s)) (c_tag c) 10 (mkExchange c 10 (accepted l) chunks) K ltac:(lia) eq_refl)) as R.
    cbn [x_traffic] in R. rewrite R. unfold expected, replies, pick. cbn [x_traffic x_command]. rewrite existsb_pick, T, N. reflexivity. }
  unfold connect_end. rewrite R. cbn [fst snd]. split; [reflexivity|].
  unfold connected. rewrite M. unfold handled. destruct (dispatches_setup (delivered (accepted l)) (r_modem (se_reader s1))) as (_ & _ & _ & Q & _).
  rewrite Q, M1. exact C.
Qed.
