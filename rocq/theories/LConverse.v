From Verif Require Import Bits LBits LBytes LGood LTypes LAlp LAction LCommand LReser LTraffic LRun LSend LLink LChunk LSerialProps LFiles LBuild SConverse LModem LConnect.

(** ** The reader over one exchange *)
Lemma reader_exchange lib chunks p m tr :
  Forall (sent_ok (sp_skip p)) tr -> sp_buf p = [] -> concat chunks = wire tr -> is_byte (sp_down p) ->
  exists p', read_chunks lib (mkReader p m true) chunks = mkReader p' (fold_left dispatch (SSerial.delivered tr) m) true
    /\ sp_buf p' = [] /\ sp_skip p' = sp_skip p /\ sp_up p' = sp_up p /\ is_byte (sp_down p').
Proof.
  intros F B E D. rewrite read_filter. destruct (filter nonempty chunks) as [|c cs] eqn:FC.
  - assert (tr = []).
    { apply wire_nil. rewrite <- E, <- concat_filter, FC. reflexivity. }
    subst tr. exists p. auto.
  - destruct (feeds_garbage lib (c :: cs) p [] tr F) as (es & H & _ & Z1); try constructor.
    { rewrite B, <- FC, concat_filter. exact E. }
    { discriminate. }
    eexists. split; [apply (read_feeds _ _ _ _ _ _ H); rewrite <- FC; apply filter_nonempty|].
    cbn [set_buf sp_buf sp_skip sp_up sp_down]. rewrite counters_skip, counters_up. refine (conj eq_refl (conj eq_refl (conj eq_refl _))).
    pose proof (counters_byte _ _ F) as Fc. destruct (counters_errs (map s_counter tr) p D Fc) as [-> _].
    clear -D Fc. revert D. generalize (sp_down p). induction Fc as [|x l Hx Fl IH]; intros d D; [exact D|].
    destruct l as [|y l]; [exact Hx|]. apply (IH d D).
Qed.

(** ** Messages by place *)
Lemma same_tag_iff a b : same_tag a b = true <-> a = b.
Proof.
  destruct a as [x|], b as [y|]; cbn; split; intro H; try discriminate; try reflexivity.
  - apply Z.eqb_eq in H. congruence.
  - injection H as ->. apply Z.eqb_refl.
Qed.
Lemma is_reply_iff tag tx : is_reply tag tx = true <-> fst tx <= 3 /\ answers tag (snd tx).
Proof.
  unfold is_reply. rewrite andb_true_iff, Z.leb_le. unfold answers. destruct tx as [t [z|l|c]]; cbn [fst snd]; split.
  1, 3: intros [_ H]; discriminate.
  1, 2: intros [_ (c & H & _)]; discriminate.
  - intros [L H]. apply same_tag_iff in H. eauto.
  - intros [L (c' & H & T)]. injection H as <-. rewrite same_tag_iff. auto.
Qed.
Lemma sorted_filter m p f ms : (forall t x, f (t, x) = true <-> goes m t x p) -> sorted m p ms (map snd (filter f ms)).
Proof.
  intro H. induction ms as [|[t x] ms IH]; [constructor|]. cbn [filter].
  destruct (f (t, x)) eqn:E.
  - apply sorted_take; [apply H; exact E | exact IH].
  - apply sorted_skip; [|exact IH]. intro G. apply H in G. congruence.
Qed.
Lemma answers_filter tag ms : answers_in tag ms (map snd (filter (is_reply tag) ms)).
Proof.
  induction ms as [|[t x] ms IH]; [constructor|]. cbn [filter]. destruct (is_reply tag (t, x)) eqn:E.
  - apply is_reply_iff in E. apply answers_take; [apply E | apply E | exact IH].
  - apply answers_skip; [|exact IH]. destruct (Z.leb_spec t 3); [right|left; assumption]. intro A.
    assert (is_reply tag (t, x) = true) by (apply is_reply_iff; auto). congruence.
Qed.
Lemma ends_iff l : existsb ends_execution l = true <-> some_completed l.
Proof.
  rewrite existsb_exists. split.
  - intros ([z|b|c] & I & H); try discriminate. exists c. auto.
  - intros (c & I & H). exists (MCmd c). auto.
Qed.

Lemma modem_exchange m tag timeout x : m_skip m = false -> 0 < timeout -> tag = c_tag (x_command x) ->
  let m2 := fold_left dispatch (SSerial.delivered (x_traffic x)) (exec_start m tag timeout) in
  exec_result m2 = expected x
  /\ inbox PCallback m2 = inbox PCallback m ++ (if m_has_cb m && m_connected m then others x else [])
  /\ inbox PUnsolicited m2 = inbox PUnsolicited m ++ (if m_has_cb m && m_connected m then [] else others x)
  /\ inbox PRebootCallback m2 = inbox PRebootCallback m ++ (if m_has_rbcb m then of_type 5 x else [])
  /\ inbox PReboots m2 = inbox PReboots m ++ (if m_has_rbcb m then [] else of_type 5 x)
  /\ inbox PLog m2 = inbox PLog m ++ of_type 4 x.
Proof.
  intros S T -> m2. set (tag := c_tag (x_command x)) in *. set (ms := SSerial.delivered (x_traffic x)) in *.
  set (m1 := exec_start m tag timeout) in *.
  assert (T1 : m_tag m1 = tag).
  { unfold m1, exec_start. cbn. rewrite S. assert (0 <? timeout = true) as -> by lia. reflexivity. }
  assert (A1 : forall tx : Z * Msg, is_answer m1 (snd tx) <-> answers tag (snd tx)).
  { intro tx. unfold is_answer. rewrite T1. change (m_skip m1) with (m_skip m). rewrite S. tauto. }
  assert (L1 : (m_resp m1 < length (m_heap m1))%nat) by (unfold m1; cbn; rewrite app_length; cbn; lia).
  assert (D : forall p f, p <> PResult -> (forall t y, f (t, y) = true <-> goes m1 t y p) ->
            inbox p m2 = inbox p m ++ map snd (filter f ms)).
  { intros p f N H. unfold m2. rewrite (delivery m1 ms p _ L1 (sorted_filter m1 p f ms H)).
    unfold m1. rewrite command_leaves by exact N. reflexivity. }
  assert (D0 : forall p, p <> PResult -> (forall t y, ~ goes m1 t y p) -> inbox p m2 = inbox p m ++ []).
  { intros p N H. rewrite (D p (fun _ => false) N); [|intros t y; split; [discriminate | intro G; destruct (H t y G)]].
    f_equal. clear. induction ms; cbn; auto. }
  assert (CB : m_has_cb m1 = m_has_cb m /\ m_connected m1 = m_connected m /\ m_has_rbcb m1 = m_has_rbcb m) by auto.
  destruct CB as (CB & CN & RB).
  assert (OF : forall t y, ((t <=? 3) && negb (is_reply tag (t, y)) = true) <-> t <= 3 /\ ~ is_answer m1 y).
  { intros t y. rewrite andb_true_iff, negb_true_iff, Z.leb_le. specialize (A1 (t, y)). cbn [snd] in A1. rewrite A1.
    split; intros [L H]; split; auto.
    - intro A. assert (is_reply tag (t, y) = true) by (apply is_reply_iff; auto). congruence.
    - destruct (is_reply tag (t, y)) eqn:E; [|reflexivity]. apply is_reply_iff in E. tauto. }
  split.
  { unfold expected, replies, pick. fold ms tag. 
    destruct (sync_result m tag timeout ms _ S T (answers_filter tag ms)) as [[C E]|[C E]]; fold m1 m2 in E; rewrite E.
    - apply ends_iff in C. rewrite C. reflexivity.
    - destruct (existsb ends_execution _) eqn:X; [|reflexivity]. apply ends_iff in X. contradiction. }
  unfold others, of_type, pick. fold ms tag.
  split; [|split; [|split; [|split]]].
  - destruct (m_has_cb m && m_connected m) eqn:C.
    + apply andb_true_iff in C. destruct C as [C1 C2]. apply D; [discriminate|]. intros t y. cbn [fst]. rewrite OF. split.
      * intros [L N]. constructor; congruence || assumption.
      * inversion 1; auto.
    + apply D0; [discriminate|]. intros t y G. inversion G as [| ? ? H1 H2 | | | |]. rewrite CB in H1. rewrite CN in H2. rewrite H1, H2 in C. discriminate.
  - destruct (m_has_cb m && m_connected m) eqn:C.
    + apply andb_true_iff in C. apply D0; [discriminate|]. intros t y G.
      inversion G as [| | ? ? H | | |]. rewrite CB, CN in H. destruct C, H; congruence.
    + apply D; [discriminate|]. intros t y. cbn [fst]. rewrite OF. split.
      * intros [L N]. constructor; try assumption. rewrite CB, CN. destruct (m_has_cb m), (m_connected m); auto; discriminate.
      * inversion 1; auto.
  - destruct (m_has_rbcb m) eqn:C.
    + apply D; [discriminate|]. intros t y. cbn [fst]. rewrite Z.eqb_eq. split; [intros ->; constructor; congruence | inversion 1; auto].
    + apply D0; [discriminate|]. intros t y G. inversion G. congruence.
  - destruct (m_has_rbcb m) eqn:C.
    + apply D0; [discriminate|]. intros t y G. inversion G. congruence.
    + apply D; [discriminate|]. intros t y. cbn [fst]. rewrite Z.eqb_eq. split; [intros ->; constructor; congruence | inversion 1; auto].
  - apply D; [discriminate|]. intros t y. cbn [fst]. rewrite Z.eqb_eq. split; [intros ->; constructor; congruence | inversion 1; auto].
Qed.

(** ** One exchange *)
Definition received_from (s : Session) (s2 : Session) (xs : list Exchange) : Prop :=
  session_inbox PCallback s2 = session_inbox PCallback s ++ (if to_callback s then flat_map others xs else [])
  /\ session_inbox PUnsolicited s2 = session_inbox PUnsolicited s ++ (if to_callback s then [] else flat_map others xs)
  /\ session_inbox PRebootCallback s2 = session_inbox PRebootCallback s ++ (if to_reboot_callback s then flat_map (of_type 5) xs else [])
  /\ session_inbox PReboots s2 = session_inbox PReboots s ++ (if to_reboot_callback s then [] else flat_map (of_type 5) xs)
  /\ session_inbox PLog s2 = session_inbox PLog s ++ flat_map (of_type 4) xs.
Lemma one_exchange lib s x : in_use s -> exchange_ok x ->
  exists s2 bs, exchange lib s x = (s2, Ok (expected x)) /\ in_use s2
  /\ to_callback s2 = to_callback s /\ to_reboot_callback s2 = to_reboot_callback s
  /\ command_ser (x_command x) = Ok bs /\ is_payload bs
  /\ se_sent s2 = se_sent s ++ frame (sp_up (r_parser (se_reader s))) 1 bs
  /\ sp_up (r_parser (se_reader s2)) = counter_after (sp_up (r_parser (se_reader s)))
  /\ received_from s s2 [x].
Proof.
  intros (A & B & S & D & U & MS) (W & L & T & F & E).
  destruct (transmits_command (x_command x) W L) as (bs & Eb & P & _).
  unfold exchange. rewrite (execute_ok s (x_command x) bs (x_timeout x) U Eb P).
  set (s1 := mkSession _ _ _ _). eexists _, bs. split; [|split; [|split; [|split; [|split; [exact Eb | split; [exact P|split; [|split]]]]]]].
  all: destruct (devices_keep lib (map DBytes (x_chunks x)) s1) as (K1 & K2 & K3).
  all: pose proof (devices_reader lib (x_chunks x) s1) as R; unfold s1 in R at 2; cbn [se_reader] in R; rewrite A in R.
  all: destruct (reader_exchange lib (x_chunks x) (with_up (r_parser (se_reader s)) (counter_after (sp_up (r_parser (se_reader s)))))
              (exec_start (r_modem (se_reader s)) (c_tag (x_command x)) (x_timeout x)) (x_traffic x)) as (p' & HR & B' & S' & U' & D');
       [cbn [with_up sp_skip]; rewrite S; exact F | exact B | exact E | exact D | rewrite HR in R].
  all: destruct (modem_exchange (r_modem (se_reader s)) _ (x_timeout x) x MS T eq_refl) as (M0 & M1 & M2 & M3 & M4 & M5).
  all: destruct (dispatches_setup (SSerial.delivered (x_traffic x)) (exec_start (r_modem (se_reader s)) (c_tag (x_command x)) (x_timeout x)))
         as (Q1 & Q2 & Q3 & Q4 & _).
  all: cbn [with_up sp_skip sp_up] in *.
  - unfold execute_result. rewrite R. cbn [r_modem]. rewrite M0. reflexivity.
  - unfold in_use, alive. rewrite R. cbn [r_alive r_parser r_modem]. rewrite B', S', U', Q1.
    repeat split; auto; try apply D'; apply (after_byte _ U).
  - unfold to_callback, connected. rewrite R. cbn [r_modem]. rewrite Q2, Q4. reflexivity.
  - unfold to_reboot_callback. rewrite R. cbn [r_modem]. rewrite Q3. reflexivity.
  - rewrite K3. reflexivity.
  - rewrite R. exact U'.
  - unfold received_from, session_inbox, to_callback, to_reboot_callback, connected. rewrite R. cbn [r_modem flat_map].
    rewrite !app_nil_r. auto.
Qed.

(** ** The conversation *)
Lemma conversation lib xs : forall s, in_use s -> Forall exchange_ok xs ->
  exists s2 tr, converse lib s xs = (s2, map (fun x => Ok (expected x)) xs) /\ in_use s2
  /\ to_callback s2 = to_callback s /\ to_reboot_callback s2 = to_reboot_callback s
  /\ received_from s s2 xs
  /\ se_sent s2 = se_sent s ++ wire tr /\ Forall (sent_ok false) tr
  /\ SSerial.delivered tr = map (fun x => (1, MCmd (command_received (x_command x)))) xs
  /\ map s_counter tr = count_up (sp_up (r_parser (se_reader s))) (length xs).
Proof.
  induction xs as [|x xs IH]; intros s U F.
  - exists s, []. cbn. unfold received_from. cbn [flat_map].
    destruct (to_callback s), (to_reboot_callback s); rewrite !app_nil_r; repeat split; try apply U; constructor.
  - inversion F as [|? ? Fx Fr]; subst. destruct (one_exchange lib s x U Fx) as (s1 & bs & E1 & U1 & C1 & R1 & Eb & P & Sn & Up & Rc).
    destruct (IH s1 U1 Fr) as (s2 & tr & E2 & U2 & C2 & R2 & Rc2 & Sn2 & Ft & Dl & Cn).
    exists s2, (mkSent (sp_up (r_parser (se_reader s))) 1 bs (MCmd (command_received (x_command x))) :: tr).
    cbn [converse]. rewrite E1, E2. split; [reflexivity|]. split; [exact U2|]. split; [congruence|]. split; [congruence|].
    split; [|split; [|split; [|split]]].
    + unfold received_from in *. cbn [flat_map] in *. rewrite !app_nil_r in *. rewrite C1, R1 in Rc2.
      destruct Rc as (a1 & a2 & a3 & a4 & a5), Rc2 as (b1 & b2 & b3 & b4 & b5).
      rewrite b1, b2, b3, b4, b5, a1, a2, a3, a4, a5.
      destruct (to_callback s), (to_reboot_callback s); rewrite ?app_nil_r, ?app_assoc; auto.
    + rewrite Sn2, Sn, <- app_assoc. reflexivity.
    + constructor; [|exact Ft]. destruct Fx as (W & L & _).
      destruct (transmits_command _ W L) as (bs' & Eb' & _ & Ca). assert (bs' = bs) as -> by congruence.
      unfold sent_ok. cbn [s_counter s_type s_payload s_msg]. refine (conj _ (conj _ (conj P Ca))); [apply U | unfold is_byte; lia].
    + cbn [SSerial.delivered map s_type s_msg]. f_equal. exact Dl.
    + cbn [map s_counter length count_up]. rewrite Cn, Up. reflexivity.
Qed.
Lemma conversation_results lib s xs : in_use s -> Forall exchange_ok xs ->
  snd (converse lib s xs) = map (fun x => Ok (expected x)) xs /\ in_use (fst (converse lib s xs)).
Proof. intros U F. destruct (conversation lib xs s U F) as (s2 & tr & -> & U2 & _). auto. Qed.
Lemma conversation_others lib s xs : in_use s -> Forall exchange_ok xs ->
  let s2 := fst (converse lib s xs) in
  session_inbox PCallback s2 = session_inbox PCallback s ++ (if to_callback s then flat_map others xs else [])
  /\ session_inbox PUnsolicited s2 = session_inbox PUnsolicited s ++ (if to_callback s then [] else flat_map others xs)
  /\ session_inbox PRebootCallback s2 = session_inbox PRebootCallback s ++ (if to_reboot_callback s then flat_map (of_type 5) xs else [])
  /\ session_inbox PReboots s2 = session_inbox PReboots s ++ (if to_reboot_callback s then [] else flat_map (of_type 5) xs)
  /\ session_inbox PLog s2 = session_inbox PLog s ++ flat_map (of_type 4) xs.
Proof. intros U F. destruct (conversation lib xs s U F) as (s2 & tr & -> & _ & _ & _ & R & _). exact R. Qed.
Lemma conversation_peer lib lib' s xs q chunks : in_use s -> Forall exchange_ok xs ->
  sp_skip q = false -> sp_buf q = [] -> is_byte (sp_down q) -> chunks <> [] ->
  se_sent (fst (converse lib s xs)) = se_sent s ++ concat chunks ->
  exists q', feeds lib' q chunks q' (map (fun x => (1, MCmd (command_received (x_command x)))) xs) []
  /\ sp_buf q' = [] /\ (in_step (r_parser (se_reader s)) q -> sp_errs q' = sp_errs q).
Proof.
  intros U F S B D N E. destruct (conversation lib xs s U F) as (s2 & tr & Ec & _ & _ & _ & _ & Sn & Ft & Dl & Cn).
  rewrite Ec in E. cbn [fst] in E. rewrite Sn in E. apply app_inv_head in E.
  destruct (traffic lib' chunks q tr) as (q' & H & B' & Er & _); try assumption.
  - rewrite S. exact Ft.
  - rewrite B. cbn [app]. congruence.
  - exists q'. rewrite <- Dl. split; [exact H|]. split; [exact B'|]. intro I. rewrite Er, Cn, <- I, jumps_count. lia.
Qed.

(** ** Replies made with the library *)
Lemma tag_response_wf tag r : 0 <= tag <= 255 -> action_wf (tag_response tag r).
Proof. intro H. split; [exact H | exact I]. Qed.
Lemma reply_shape tag r c : reply_command tag r c ->
  c = mkCommand (tag_response tag r :: re_actions r) None false None true false None.
Proof.
  intros (rnd & c0 & E & <-). cbn in E. injection E as <-. destruct (calls_effect (reply_calls tag r) (mkCommand [] None false None true false None)) as [-> _].
  unfold with_actions. cbn [c_actions c_status c_generate c_tag c_respond c_completed c_error app]. f_equal.
  unfold reply_calls. cbn [flat_map added refused app]. f_equal. generalize (re_actions r). clear. intro acts. induction acts as [|a l IH]; [reflexivity|]. cbn [map flat_map]. rewrite IH. reflexivity.
Qed.
Lemma reply_exists tag r : exists c, reply_command tag r c.
Proof. eexists. exists 0. eexists. split; reflexivity. Qed.
Lemma reply_transmits tag r c : reply_ok tag r -> reply_command tag r c ->
  transmits false (command_ser c) (MCmd (reply_seen tag r)).
Proof.
  intros (T & W & Pl & L) R. apply reply_shape in R. subst c. set (acts := re_actions r) in *.
  set (ta := tag_response tag r). pose proof (tag_response_wf tag r T) as Wt. fold ta in Wt.
  assert (Em : emits (command_ser (mkCommand (ta :: acts) None false None true false None)) (flat_map action_layout (ta :: acts))).
  { unfold command_ser. cbn [c_generate c_status c_actions]. 
    apply (emits_app _ _ [] (flat_map action_layout (ta :: acts))); [apply emits_nil|].
    apply (emits_app _ _ [] (flat_map action_layout (ta :: acts))); [apply emits_nil|].
    apply emits_rconcat. apply Forall_impl with (P := action_wf); [apply action_emits | constructor; assumption]. }
  destruct Em as (bs & E & F & B). exists bs.
  set (lay := flat_map action_layout (ta :: acts)) in *.
  assert (Lb : zlen lay = 8 * zlen bs) by (rewrite <- B; unfold zlen; rewrite bytes_bits_length; lia).
  assert (La : zlen lay = 16 + zlen (flat_map action_layout acts)).
  { unfold lay, zlen. cbn [flat_map]. rewrite app_length. change (length (action_layout ta)) with 16%nat. lia. }
  refine (conj E (conj _ _)); [split; [exact F | lia]|]. intros rest Fr. constructor; auto; try lia.
  set (items := map (fun a => (action_layout a, Some (action_received a))) (ta :: acts)).
  assert (Pb : forallb plain (map action_received acts) = true).
  { apply forallb_forall. intros x I. apply in_map_iff in I as (y & <- & I).
    rewrite Forall_forall in W. rewrite forallb_forall in Pl. apply received_plain; auto. }
  destruct (plain_lists _ Pb) as (Tg & St & Fl).
  pose proof (alp_accepts items) as A.
  assert (Cl : concat (map fst items) = lay).
  { unfold items, lay. rewrite map_map. cbn [fst]. symmetry. apply flat_map_concat_map. }
  rewrite Cl in A. specialize (A ltac:(unfold items; apply Forall_map; cbn [fst snd]; apply Forall_impl with (P := action_wf);
    [intros a Ha; split; [apply action_accepts | apply action_whole]; exact Ha | constructor; assumption])).
  specialize (A (reply_seen tag r)).
  assert (Sn : map snd items = map Some (ta :: map action_received acts)).
  { unfold items. cbn [map snd]. f_equal. rewrite !map_map. reflexivity. }
  rewrite Sn in A. rewrite mk_command_parsed in A; rewrite ?somes_map, ?has_none_map; auto.
  - assert (Co : command_of false None true (ta :: map action_received acts) = reply_seen tag r).
    { unfold command_of, reply_seen.
      change (filter plain (ta :: map action_received acts)) with (filter plain (map action_received acts)).
      change (filter is_status (ta :: map action_received acts)) with (filter is_status (map action_received acts)).
      rewrite St, Fl. reflexivity. }
    rewrite somes_map in A. specialize (A (f_equal Ok Co)).
    pose proof (A 56%nat (bytes_bits rest) eq_refl) as K. rewrite Lb in K.
    replace (8 * zlen bs / 8) with (zlen bs) in K by lia.
    rewrite bytes_bits_app, B, K, skipn_app_exact by reflexivity. do 3 f_equal. unfold zlen in Lb. lia.
  - constructor; [intros _; discriminate|]. apply Forall_forall. intros x I K. exfalso.
    assert (I' : In x (filter is_tag (map action_received acts))) by (apply filter_In; auto). rewrite Tg in I'. exact I'.
  - unfold one_tag. cbn [filter is_tag ta tag_response a_kind]. rewrite Tg. cbn [length]. lia.
  - unfold one_status. cbn [filter is_status ta tag_response a_kind]. rewrite St. cbn [length]. lia.
Qed.

Lemma request_reply lib s c timeout tag rs rcs q fs q' chunks :
  in_use s -> command_wf c -> command_bytes c <= 255 -> 0 < timeout -> c_tag c = Some tag ->
  Forall2 (fun r rc => reply_ok tag r /\ reply_command tag r rc) rs rcs ->
  is_byte (sp_up q) -> sends q (map command_ser rcs) fs q' -> concat chunks = concat fs ->
  exists s1, execute s c timeout = (s1, Ok tt)
  /\ execute_result (devices lib s1 (map DBytes chunks))
     = if existsb re_eop rs then map (fun r => MCmd (reply_seen tag r)) rs else [].
Proof.
  intros U W L T Tg F2 Uq Sd E.
  assert (Tr : Forall2 (transmits false) (map command_ser rcs) (map (fun r => MCmd (reply_seen tag r)) rs)).
  { clear -F2. induction F2 as [|r rc rs rcs [H1 H2] F IH]; constructor; [eapply reply_transmits; eassumption | exact IH]. }
  destruct (sends_wire _ _ _ _ _ Sd _ Uq Tr) as (l & Fl & Wl & Dl & _).
  set (x := mkExchange c timeout l chunks).
  assert (X : exchange_ok x) by (refine (conj W (conj L (conj T (conj Fl _)))); cbn [x_chunks x_traffic x]; congruence).
  destruct (one_exchange lib s x U X) as (s2 & bs & Ex & _). unfold exchange in Ex. cbn [x_command x_timeout x_chunks x] in Ex.
  destruct (execute s c timeout) as [s1 [[]|e]]; [|discriminate]. injection Ex as _ Ex. exists s1. split; [reflexivity|]. rewrite Ex. clear Ex.
  unfold expected, replies, pick. cbn [x_command x_traffic x]. rewrite Dl, Tg.
  assert (K : map snd (filter (is_reply (Some tag)) (map (fun m => (1, m)) (map (fun r => MCmd (reply_seen tag r)) rs)))
            = map (fun r => MCmd (reply_seen tag r)) rs).
  { clear. induction rs as [|r rs IH]; [reflexivity|]. cbn [map filter].
    assert (is_reply (Some tag) (1, MCmd (reply_seen tag r)) = true) as -> by (cbn; apply Z.eqb_refl).
    cbn [map snd]. rewrite IH. reflexivity. }
  rewrite K. assert (existsb ends_execution (map (fun r => MCmd (reply_seen tag r)) rs) = existsb re_eop rs) as ->; [|reflexivity].
  clear. induction rs as [|r rs IH]; [reflexivity|]. cbn [map existsb]. rewrite IH. reflexivity.
Qed.
Lemma replies_sendable tag rs rcs q : Forall2 (fun r rc => reply_ok tag r /\ reply_command tag r rc) rs rcs ->
  is_byte (sp_up q) -> exists fs q', sends q (map command_ser rcs) fs q'.
Proof.
  intros F2 U. apply (sends_exists false _ (map (fun r => MCmd (reply_seen tag r)) rs)); [|exact U].
  clear -F2. induction F2 as [|r rc rs rcs [H1 H2] F IH]; constructor; [eapply reply_transmits; eassumption | exact IH].
Qed.

(** ** The tag response given to the constructor instead *)
Lemma constructor_reply rnd g tag r c : reply_ok tag r ->
  mk_command rnd (map Some (tag_response tag r :: re_actions r)) g None true = Ok c ->
  transmits false (command_ser c)
    (MCmd (mkCommand (map action_received (re_actions r)) None false (if g then Some tag else None) true false None)).
Proof.
  intros (T & W & Pl & L) E. set (acts := re_actions r) in *.
  destruct (plain_lists _ Pl) as (Tg & St & Fl).
  assert (TT : Forall tag_typed (tag_response tag r :: acts)).
  { constructor; [intros _; discriminate|]. apply Forall_forall. intros x I K. exfalso.
    assert (I' : In x (filter is_tag acts)) by (apply filter_In; auto). rewrite Tg in I'. exact I'. }
  destruct (mk_command_spec rnd (map Some (tag_response tag r :: acts)) g None true ltac:(rewrite somes_map; exact TT)) as (_ & _ & H).
  destruct H as (c' & E' & H1 & H2 & H3 & H4 & H5 & H6 & H7).
  - rewrite somes_map. refine (conj _ (conj _ _)).
    + intros _. unfold one_tag. cbn [filter is_tag tag_response a_kind]. rewrite Tg. cbn [length]. lia.
    + congruence.
    + unfold one_status. cbn [filter is_status tag_response a_kind]. rewrite St. cbn [length]. lia.
  - apply has_none_map.
  - assert (c' = c) as -> by congruence. rewrite somes_map in *.
    assert (Co : command_of g None true (tag_response tag r :: acts) = mkCommand acts None g (Some tag) true (re_eop r) (Some (re_error r))).
    { unfold command_of.
      change (filter plain (tag_response tag r :: acts)) with (filter plain acts).
      change (filter is_status (tag_response tag r :: acts)) with (filter is_status acts).
      rewrite St, Fl. reflexivity. }
    rewrite Co in *. cbn [c_actions c_status c_generate c_tag c_respond c_completed c_error] in *.
    assert (Tc : c_tag c = Some tag) by (destruct g; exact H4).
    assert (Wc : command_wf c).
    { unfold command_wf. rewrite H1, H2. refine (conj W (conj Pl (conj eq_refl _))). intros _. eauto. }
    assert (Lc : command_bytes c <= 255).
    { unfold command_bytes, command_layout. rewrite H1, H3, Tc. unfold zlen in *. rewrite app_length.
      assert (length (if g then tag_bits (c_respond c) tag else []) <= 16)%nat by (destruct g; [cbn|cbn]; lia). lia. }
    pose proof (transmits_command c Wc Lc) as Tm. unfold command_received in Tm. rewrite H1, H3, Tc, H5 in Tm.
    destruct g; exact Tm.
Qed.
