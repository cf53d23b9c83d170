From Verif Require Import LBits LBytes LAction LCommand LTraffic LSend LSerialProps LModem LConnect LTypes LReser LSp LOta LPrograms SThroughput.

(** ** The waiting loop *)
Lemma arrived_cons r new its k : arrived r (new :: its) (S k) = arrived (r ++ new) its k.
Proof. unfold arrived. cbn [firstn concat]. rewrite app_assoc. reflexivity. Qed.
Lemma waiting_spec count its : forall r total, exists k, (k <= length its)%nat
  /\ (match k with O => True | S _ => total < count end)
  /\ (forall j, (0 < j < k)%nat -> zlen (arrived r its (j - 1)) < count)
  /\ (count <= (match k with O => total | S j => zlen (arrived r its j) end) \/ k = length its)
  /\ waiting count its r total = (arrived r its k, match k with O => total | S j => zlen (arrived r its j) end).
Proof.
  induction its as [|new its IH]; intros r total; cbn [waiting]; destruct (total <? count) eqn:L.
  - exists 0%nat. split; [lia|]. split; [exact I|]. split; [lia|]. split; [right; reflexivity|]. unfold arrived. cbn. rewrite app_nil_r. reflexivity.
  - exists 0%nat. split; [lia|]. split; [exact I|]. split; [lia|]. split; [left; lia|]. unfold arrived. cbn. rewrite app_nil_r. reflexivity.
  - destruct (IH (r ++ new) (zlen r)) as (k & K1 & K2 & K3 & K4 & K5). exists (S k). cbn [length]. split; [lia|]. split; [lia|].
    assert (A0 : zlen (arrived r (new :: its) 0) = zlen r) by (unfold arrived; cbn; rewrite app_nil_r; reflexivity).
    split; [|split].
    + intros j J. destruct j as [|[|j]]; [lia| |].
      * replace (1 - 1)%nat with 0%nat by lia. rewrite A0. destruct k; [lia | exact K2].
      * replace (S (S j) - 1)%nat with (S j) by lia. rewrite arrived_cons. specialize (K3 (S j)). replace (S j - 1)%nat with j in K3 by lia. apply K3. lia.
    + destruct K4 as [K4|K4]; [left | right; lia]. destruct k; [rewrite A0; exact K4 | rewrite arrived_cons; exact K4].
    + rewrite K5, arrived_cons. f_equal. destruct k; [rewrite A0; reflexivity | rewrite arrived_cons; reflexivity].
  - exists 0%nat. split; [lia|]. split; [exact I|]. split; [lia|]. split; [left; lia|]. unfold arrived. cbn. rewrite app_nil_r. reflexivity.
Qed.
Lemma waiting_ends count its r : exists k, ends_after count r its k /\ waiting count its r 0 = (arrived r its k, counted r its k).
Proof.
  destruct (waiting_spec count its r 0) as (k & K1 & K2 & K3 & K4 & K5). exists k. split; [|exact K5].
  split; [exact K1|]. split; [|exact K4]. intros [|j] J; cbn [counted].
  - destruct k; [lia | exact K2].
  - specialize (K3 (S j)). replace (S j - 1)%nat with j in K3 by lia. apply K3. lia.
Qed.
Lemma ends_unique count its r k k' : ends_after count r its k -> ends_after count r its k' -> k = k'.
Proof.
  intros (A1 & A2 & A3) (B1 & B2 & B3). destruct (Nat.lt_trichotomy k k') as [L|[L|L]]; [|exact L|].
  - specialize (B2 k L). destruct A3; lia.
  - specialize (A2 k' L). destruct B3; lia.
Qed.

(** ** The payloads *)
Lemma payload_errors_spec p cmds : forall e,
  match payload_errors p cmds e with
  | None => exists c, In c cmds /\ ~ carries_data c
  | Some b => Forall carries_data cmds /\ (b = false <-> e = false /\ Forall (carries p) cmds)
  end.
Proof.
  induction cmds as [|c l IH]; intro e; cbn [payload_errors].
  - split; [constructor|]. split; [intro; split; [assumption | constructor] | intros [H _]; exact H].
  - destruct (c_actions c) as [|a rest] eqn:A.
    { exists c. split; [left; reflexivity|]. intros (a & r & d & X & _). congruence. }
    destruct (operand_data (a_op a)) as [d|] eqn:D.
    2:{ exists c. split; [left; reflexivity|]. intros (a' & r & d & X & Y). rewrite A in X. injection X as <- <-. congruence. }
    specialize (IH (if list_eq_dec Z.eq_dec d p then e else true)).
    destruct (payload_errors p l _) as [b|].
    + destruct IH as [F B]. split; [constructor; [exists a, rest, d; auto | exact F]|]. rewrite B.
      destruct (list_eq_dec Z.eq_dec d p) as [E|N].
      * subst d. split.
        -- intros [H1 H2]. split; [exact H1|]. constructor; [exists a, rest; auto | exact H2].
        -- intros [H1 H2]. inversion H2. auto.
      * split; [intros [H _]; discriminate|]. intros [_ H2]. inversion H2 as [|? ? (a' & r' & X & Y) _]; subst.
        rewrite A in X. injection X as <- <-. congruence.
    + destruct IH as (c' & I & N). exists c'. split; [right; exact I | exact N].
Qed.
Lemma verdict_spec count p r its k : ends_after count r its k ->
  match wait_for_receiver count p r its with
  | VerdictOK => Forall (carries p) (arrived r its k) /\ counted r its k = count
  | VerdictNOK => Forall carries_data (arrived r its k) /\ ~ (Forall (carries p) (arrived r its k) /\ counted r its k = count)
  | VerdictRaised => exists c, In c (arrived r its k) /\ ~ carries_data c
  end.
Proof.
  intro E. destruct (waiting_ends count its r) as (k' & E' & W). assert (k' = k) as -> by (eapply ends_unique; eassumption).
  unfold wait_for_receiver. rewrite W. pose proof (payload_errors_spec p (arrived r its k) false) as P.
  destruct (payload_errors p (arrived r its k) false) as [b|]; [|exact P]. destruct P as [F B].
  destruct b; cbn [negb andb].
  - split; [exact F|]. intros [X _]. assert (true = false) by (apply B; auto). discriminate.
  - destruct (Z.eqb_spec (counted r its k) count) as [C|C].
    + split; [apply B; reflexivity | exact C].
    + split; [exact F|]. intros [_ X]. exact (C X).
Qed.
Lemma verdict_ok_iff count p r its : wait_for_receiver count p r its = VerdictOK <->
  exists k, ends_after count r its k /\ counted r its k = count /\ Forall (carries p) (arrived r its k).
Proof.
  split.
  - intro H. destruct (waiting_ends count its r) as (k & E & _). exists k. pose proof (verdict_spec count p r its k E) as V. rewrite H in V. tauto.
  - intros (k & E & C & F). pose proof (verdict_spec count p r its k E) as V.
    destruct (wait_for_receiver count p r its); [reflexivity | tauto |]. destruct V as (c & I & N). exfalso. apply N.
    rewrite Forall_forall in F. destruct (F c I) as (a & rest & X & Y). exists a, rest, p. auto.
Qed.
Lemma verdict_raised_iff count p r its : wait_for_receiver count p r its = VerdictRaised <->
  exists k c, ends_after count r its k /\ In c (arrived r its k) /\ ~ carries_data c.
Proof.
  split.
  - intro H. destruct (waiting_ends count its r) as (k & E & _). pose proof (verdict_spec count p r its k E) as V. rewrite H in V.
    destruct V as (c & I & N). exists k, c. auto.
  - intros (k & c & E & I & N). pose proof (verdict_spec count p r its k E) as V.
    destruct (wait_for_receiver count p r its); [| |reflexivity]; destruct V as [F _]; rewrite Forall_forall in F; specialize (F c I).
    + destruct F as (a & rest & X & Y). exfalso. apply N. exists a, rest, p. auto.
    + tauto.
Qed.
Lemma arrived_le r its j k : (j <= k)%nat -> zlen (arrived r its j) <= zlen (arrived r its k).
Proof.
  intro L. unfold arrived, zlen. rewrite !app_length. replace k with (j + (k - j))%nat by lia.
  assert (G : forall n (l : list (list Command)), (length (concat (firstn j l)) <= length (concat (firstn (j + n) l)))%nat).
  { clear. intro n. induction j as [|j IH]; intro l; [cbn; lia|]. destruct l as [|x l]; [cbn; lia|].
    cbn [Nat.add firstn concat]. rewrite !app_length. specialize (IH l). lia. }
  specialize (G (k - j)%nat its). lia.
Qed.
Lemma verdict_ok_means count p r its : 0 <= count -> wait_for_receiver count p r its = VerdictOK ->
  exists k, ends_after count r its k /\ count <= zlen (arrived r its k) /\ Forall (carries p) (arrived r its k).
Proof.
  intros C0 H. apply verdict_ok_iff in H as (k & E & C & F). exists k. refine (conj E (conj _ F)).
  destruct k; cbn [counted] in C; [unfold zlen; lia|]. rewrite <- C. apply arrived_le. lia.
Qed.
Lemma verdict_ok_all count p r its sent : 0 <= count -> zlen sent = count ->
  (forall k, no_duplicates (arrived r its k) sent) ->
  wait_for_receiver count p r its = VerdictOK -> exists k, Permutation sent (arrived r its k).
Proof.
  intros C0 L D H. destruct (verdict_ok_means count p r its C0 H) as (k & _ & C & _). exists k.
  destruct (D k) as [lost P]. pose proof (Permutation_length P) as Pl. rewrite app_length in Pl. unfold zlen in *.
  assert (length lost = 0)%nat by lia. destruct lost; [|discriminate]. rewrite app_nil_r in P. exact P.
Qed.
Lemma verdict_too_many count p r its k : ends_after count r its k -> count < counted r its k -> wait_for_receiver count p r its <> VerdictOK.
Proof. intros E L H. pose proof (verdict_spec count p r its k E) as V. rewrite H in V. lia. Qed.
Lemma on_command_spec received c :
  on_command received c = match c_status c with
                          | None => Ok received
                          | Some _ => match on_command [] c with Ok _ => Ok (received ++ [c]) | Err e => Err e end
                          end
  /\ (on_command received c = Ok (received ++ [c]) <-> with_status c)
  /\ (forall e, on_command received c = Err e -> e = AttributeError).
Proof.
  unfold on_command. destruct (c_status c) as [a|] eqn:S.
  - destruct (a_op a) eqn:O; try (split; [reflexivity|]; split; [|congruence]; split; [discriminate|]; intros (a' & o' & s' & X & Y & _); congruence).
    destruct (iso_status o) as [s|] eqn:Is.
    + split; [reflexivity|]. split; [|discriminate]. split; [|reflexivity]. intros _. exists a, o, s. auto.
    + split; [reflexivity|]. split; [|congruence]. split; [discriminate|]. intros (a' & o' & s' & X & Y & Z'). congruence.
  - split; [reflexivity|]. split; [|discriminate]. split.
    + intro X. injection X as X. exfalso. apply (f_equal (@length Command)) in X. rewrite app_length in X. cbn in X. lia.
    + intros (a' & o' & s' & X & _). congruence.
Qed.

(** ** Sending *)
Definition tp_cmd (rnd : Z) (n : nat) (conf : Configuration) : Command :=
  mkCommand [mkAction (Regular false false) (Forward (mkIC IF_D7ASP (Some (CfgD7 conf))));
             mkAction (Regular false false) (mk_return_file_data (mkData (mkOffset 64 (mkLength 0)) (mkLength (Z.of_nat n)) (counting n)))]
            None true (Some rnd) true false None.
Lemma counting_length n : zlen (counting n) = Z.of_nat n.
Proof. unfold zlen, counting. rewrite map_length, seq_length. reflexivity. Qed.
Lemma counting_bytes n : (n <= 256)%nat <-> Forall is_byte (counting n).
Proof.
  unfold counting. split.
  - intro L. apply Forall_forall. intros x I. apply in_map_iff in I as (k & <- & I). apply in_seq in I. unfold is_byte. lia.
  - intro F. destruct (Nat.le_gt_cases n 256) as [L|L]; [exact L|]. exfalso. rewrite Forall_forall in F.
    assert (I : In (Z.of_nat (n - 1)) (map Z.of_nat (seq 0 n))) by (apply in_map, in_seq; lia).
    apply F in I. unfold is_byte in I. lia.
Qed.
Lemma throughput_eq rnd n conf : (n <= 256)%nat -> throughput_command rnd n conf = Ok (tp_cmd rnd n conf).
Proof.
  intro L. unfold throughput_command, create_return, mk_data. fold (counting n). rewrite counting_length. unfold mk_length, in_range, mk_offset, validated.
  replace ((0 <=? 0) && (0 <=? 1073741823)) with true by reflexivity. cbn [rbind].
  replace (is_BYTE 64) with true by reflexivity. cbn [rbind].
  replace ((0 <=? Z.of_nat n) && (Z.of_nat n <=? 1073741823)) with true by lia. cbn [rbind].
  assert (forallb is_BYTE (counting n) = true) as ->.
  { apply forallb_forall. intros x I. apply counting_bytes in L. rewrite Forall_forall in L. specialize (L x I). unfold is_byte in L. unfold is_BYTE, in_range. lia. }
  reflexivity.
Qed.
Lemma throughput_refused rnd n conf : (256 < n)%nat -> throughput_command rnd n conf = Err ValueError.
Proof.
  intro L. unfold throughput_command, create_return, mk_data. fold (counting n). rewrite counting_length. unfold mk_length, in_range, mk_offset, validated.
  replace ((0 <=? 0) && (0 <=? 1073741823)) with true by reflexivity. cbn [rbind].
  replace (is_BYTE 64) with true by reflexivity. cbn [rbind].
  assert (forallb is_BYTE (counting n) = false) as ->.
  { destruct (forallb is_BYTE (counting n)) eqn:F; [|reflexivity]. exfalso. assert (B : Forall is_byte (counting n)).
    { apply Forall_forall. intros x I. rewrite forallb_forall in F. specialize (F x I). unfold is_BYTE, in_range in F. unfold is_byte. lia. }
    apply counting_bytes in B. lia. }
  destruct ((0 <=? Z.of_nat n) && (Z.of_nat n <=? 1073741823)); cbn [rbind]; reflexivity.
Qed.
Lemma tp_cmd_wf rnd n conf : 0 <= rnd <= 255 -> (1 <= n <= 256)%nat -> conf_wf conf -> conf_stable conf -> command_wf (tp_cmd rnd n conf).
Proof.
  intros R N W S. unfold command_wf, tp_cmd. cbn [c_actions c_status c_generate c_tag].
  refine (conj _ (conj eq_refl (conj eq_refl _))).
  - constructor; [|constructor; [|constructor]].
    + unfold action_wf, op_wf. cbn [a_op a_kind]. exact (conj W (conj eq_refl S)).
    + unfold action_wf, op_wf, mk_return_file_data, data_wf, off_wf, len_wf.
      assert (counting n <> []) by (intro X; pose proof (counting_length n) as Y; rewrite X in Y; unfold zlen in Y; cbn in Y; lia).
      assert (Forall is_byte (counting n)) by (apply counting_bytes; lia).
      pose proof (counting_length n).
      cbn [a_op a_kind d_offset d_length d_data off_id off_offset len_value sendable]. unfold len_max. repeat split; try lia; auto.
  - intros _. exists rnd. auto.
Qed.
Lemma conf_layout_size conf : conf_wf conf -> Z.of_nat (length (conf_layout conf)) = 8 * (4 + id_bytes (cf_addressee conf)).
Proof.
  intros [_ [_ W]]. unfold conf_layout, qos_layout, ct_layout, addr_layout, addr_bits. repeat (rewrite ?app_length, ?Zbits_length; cbn [length]).
  assert (Z.of_nat (length (addr_id_bits (cf_addressee conf))) = 8 * id_bytes (cf_addressee conf)); [|lia].
  unfold addr_id_bits, id_bytes. destruct (ad_id_type (cf_addressee conf)), (ad_id (cf_addressee conf)); try contradiction; unfold ct_layout; rewrite ?app_length, ?Zbits_length; cbn [length]; lia.
Qed.
Lemma len_layout_bytes n : (n <= 256)%nat -> Z.of_nat (length (len_layout (mkLength (Z.of_nat n)))) = 8 * (if (n <? 64)%nat then 1 else 2).
Proof.
  intro H. unfold len_layout, len_form. rewrite app_length, !Zbits_length. cbn [len_value]. unfold len_k.
  change (2 ^ 6) with 64. change (2 ^ 14) with 16384.
  replace (Z.of_nat n <? 64) with (n <? 64)%nat by lia. replace (Z.of_nat n <? 16384) with true by (symmetry; apply Z.ltb_lt; lia).
  destruct (n <? 64)%nat; cbn; lia.
Qed.
Lemma tp_cmd_size rnd n conf : (n <= 256)%nat -> conf_wf conf -> command_bytes (tp_cmd rnd n conf) = message_bytes n conf.
Proof.
  intros L W. unfold command_bytes, command_layout, tp_cmd, tag_bits, action_layout, act_bits, mk_return_file_data.
  cbn [c_generate c_tag c_respond c_actions flat_map a_kind a_op operand_layout tag_value].
  unfold data_layout, off_layout, ic_layout, ifconf_layout. cbn [d_offset d_length d_data off_id off_offset ic_conf ic_id].
  pose proof (conf_layout_size conf W). pose proof (len_layout_bytes n L).
  assert (length (len_layout (mkLength 0)) = 8)%nat by reflexivity. pose proof (counting_length n).
  unfold message_bytes, zlen in *. repeat (rewrite ?app_length, ?Zbits_length, ?bytes_bits_length; cbn [length]). destruct (n <? 64)%nat; lia.
Qed.
Lemma tp_received rnd n conf : command_received (tp_cmd rnd n conf)
  = mkCommand (map action_received (c_actions (tp_cmd rnd n conf))) None false (Some rnd) true false None.
Proof. reflexivity. Qed.
Lemma round_any lib s c es timeout : usable_session s -> command_wf c -> command_bytes c <= 255 ->
  exists bs s1, command_ser c = Ok bs /\ is_payload bs /\ execute s c timeout = (s1, Ok tt)
  /\ usable_session (devices lib s1 es)
  /\ se_sent (devices lib s1 es) = se_sent s ++ frame (sp_up (r_parser (se_reader s))) 1 bs.
Proof.
  intros [U K] W L. destruct (transmits_command c W L) as (bs & E & P & _). exists bs. eexists.
  split; [exact E|]. split; [exact P|]. split; [apply (execute_ok s c bs timeout U E P)|].
  match goal with |- usable_session (devices lib ?s1 es) /\ _ => destruct (devices_modem lib es s1) as (msgs & M & Up); destruct (devices_keep lib es s1) as (_ & _ & Sn) end.
  cbn [se_reader r_modem r_parser with_up sp_up se_sent] in *.
  destruct (dispatches_setup msgs (exec_start (r_modem (se_reader s)) (c_tag c) timeout)) as (Sk & _).
  split; [|exact Sn]. split; [rewrite Up; apply after_byte; exact U|]. rewrite M, Sk. exact K.
Qed.
Lemma transmit_loop lib c : command_wf c -> command_bytes c <= 255 -> forall rounds s, usable_session s ->
  exists s', transmit lib s c rounds = (s', Ok tt) /\ usable_session s'
  /\ exists l, Forall (sent_ok false) l /\ se_sent s' = se_sent s ++ wire l
      /\ delivered l = repeat (1, MCmd (command_received c)) (length rounds).
Proof.
  intros Wc Bc. induction rounds as [|es rounds IH]; intros s U.
  - exists s. split; [reflexivity|]. split; [exact U|]. exists []. rewrite app_nil_r. repeat split; constructor.
  - destruct (round_any lib s c es 100 U Wc Bc) as (bs & s1 & Eb & Pb & Ex & U1 & Sn).
    destruct (IH _ U1) as (s' & T & U' & l & Fl & Sl & Dl). exists s'. cbn [transmit]. rewrite Ex.
    split; [exact T|]. split; [exact U'|].
    exists (mkSent (sp_up (r_parser (se_reader s))) 1 bs (MCmd (command_received c)) :: l).
    assert (SO : sent_ok false (mkSent (sp_up (r_parser (se_reader s))) 1 bs (MCmd (command_received c)))).
    { destruct (transmits_command c Wc Bc) as (bs' & Eb' & _ & Ca). assert (bs' = bs) as -> by congruence.
      unfold sent_ok. cbn [s_counter s_type s_payload s_msg]. refine (conj (proj1 U) (conj _ (conj Pb Ca))). unfold is_byte. lia. }
    split; [constructor; assumption|]. split.
    + rewrite Sl, Sn, <- app_assoc. reflexivity.
    + cbn [delivered map s_type s_msg length repeat]. f_equal. exact Dl.
Qed.
Lemma throughput_sends lib s rnd n conf rounds : usable_session s -> 0 <= rnd <= 255 -> (1 <= n <= 256)%nat -> conf_wf conf -> conf_stable conf ->
  message_bytes n conf <= 255 ->
  exists c s' bytes, throughput_command rnd n conf = Ok c /\ transmit lib s c rounds = (s', Ok tt)
  /\ se_sent s' = se_sent s ++ bytes /\ received_over lib bytes (repeat (command_received c) (length rounds)).
Proof.
  intros U R N W S B. exists (tp_cmd rnd n conf).
  assert (Wc : command_wf (tp_cmd rnd n conf)) by (apply tp_cmd_wf; auto; lia).
  assert (Bc : command_bytes (tp_cmd rnd n conf) <= 255) by (rewrite tp_cmd_size by (assumption || lia); exact B).
  destruct (transmit_loop lib _ Wc Bc rounds s U) as (s' & T & _ & l & Fl & Sl & Dl). exists s', (wire l).
  refine (conj (throughput_eq _ _ _ _) (conj T (conj Sl _))); [lia|].
  intros q chunks Sk Bq C Nn. destruct (feeds_garbage lib chunks q [] l) as (es & H & _ & Z1); try assumption.
  - rewrite Sk. exact Fl.
  - constructor.
  - constructor.
  - rewrite Bq, C. reflexivity.
  - rewrite (Z1 eq_refl), Dl in H.
    replace (repeat (1, MCmd (command_received (tp_cmd rnd n conf))) (length rounds))
      with (map (fun c0 => (1, MCmd c0)) (repeat (command_received (tp_cmd rnd n conf)) (length rounds))) in H.
    + eexists. split; [exact H | reflexivity].
    + clear. induction (length rounds) as [|k IH]; [reflexivity|]. cbn [map repeat]. rewrite IH. reflexivity.
Qed.
Lemma throughput_return rnd n conf c : throughput_command rnd n conf = Ok c ->
  exists d, c_actions (command_received c) = [mkAction (FwdAct false) (Forward (mkIC IF_D7ASP (Some (CfgD7 conf)))); mkAction (Regular false false) (mk_return_file_data d)]
  /\ off_id (d_offset d) = 64 /\ len_value (off_offset (d_offset d)) = 0 /\ d_data d = counting n.
Proof.
  intro E. destruct (Nat.le_gt_cases n 256) as [L|L].
  - rewrite throughput_eq in E by exact L. injection E as <-. eexists. split; [reflexivity|]. repeat split.
  - rewrite throughput_refused in E by exact L. discriminate.
Qed.
Lemma throughput_too_long lib s rnd n conf es rounds : usable_session s -> 0 <= rnd <= 255 -> (1 <= n <= 256)%nat -> conf_wf conf -> conf_stable conf ->
  255 < message_bytes n conf ->
  exists c, throughput_command rnd n conf = Ok c /\ transmit lib s c (es :: rounds) = (s, Err ValueError).
Proof.
  intros [U K] R N W S B. exists (tp_cmd rnd n conf). split; [apply throughput_eq; lia|]. cbn [transmit]. unfold execute.
  destruct (command_emits (tp_cmd rnd n conf)) as (bs & E & F & Bb); [apply tp_cmd_wf; auto; lia|]. rewrite E.
  rewrite <- (tp_cmd_size rnd n conf) in B by (assumption || lia). unfold command_bytes in B. rewrite <- Bb in B. unfold zlen in B. rewrite bytes_bits_length in B.
  rewrite build_long; [reflexivity | exact U | unfold zlen; lia].
Qed.
Lemma loop_ends count received its : exists k, ends_after count received its k /\ forall k', ends_after count received its k' -> k' = k.
Proof. destruct (waiting_ends count its received) as (k & E & _). exists k. split; [exact E|]. intros k' E'. eapply ends_unique; eassumption. Qed.

(** ** Counterexamples *)
Lemma ok_all_refuted : ~ (forall count p received its sent, zlen sent = count ->
  (forall k c, In c (arrived received its k) -> In c sent) ->
  wait_for_receiver count p received its = VerdictOK -> forall c, In c sent -> exists k, In c (arrived received its k)).
Proof.
  intro H. pose (a := received_message 0 [7]). pose (b := received_message 1 [7]).
  destruct (H 2 [7] [a; a] [[]] [a; b]) with (c := b) as [k I].
  - reflexivity.
  - intros k c I. unfold arrived in I. assert (concat (firstn k [[]]) = @nil Command) as E by (destruct k as [|[|k]]; reflexivity).
    rewrite E in I. cbn [app In] in I. left. tauto.
  - vm_compute. reflexivity.
  - right. left. reflexivity.
  - unfold arrived in I. assert (concat (firstn k [[]]) = @nil Command) as E by (destruct k as [|[|k]]; reflexivity).
    rewrite E in I. cbn [app In] in I. destruct I as [I|[I|[]]]; vm_compute in I; discriminate.
Qed.
Lemma nok_loss_refuted : ~ (forall count p received its k, ends_after count received its k ->
  zlen (arrived received its k) = count -> Forall (carries p) (arrived received its k) ->
  wait_for_receiver count p received its = VerdictOK).
Proof.
  intro H. specialize (H 1 [7] [] [[received_message 0 [7]]] 1%nat).
  assert (X : wait_for_receiver 1 [7] [] [[received_message 0 [7]]] = VerdictOK); [|vm_compute in X; discriminate].
  apply H.
  - split; [cbn; lia|]. split; [|right; reflexivity]. intros j J. destruct j; [vm_compute; reflexivity | lia].
  - reflexivity.
  - repeat constructor. eexists _, _. split; reflexivity.
Qed.
Lemma ok_returned_refuted : ~ (forall count p received its k c, ends_after count received its k ->
  wait_for_receiver count p received its = VerdictOK -> In c (arrived received its k) ->
  exists a rest d f, c_actions c = a :: rest /\ a_op a = ReturnFileData d f /\ off_id (d_offset d) = 64).
Proof.
  intro H.
  pose (c := mkCommand [mkAction (Regular false false) (WriteFileData (mkData (mkOffset 5 (mkLength 0)) (mkLength 1) [7]))]
               (c_status (received_message 0 [7])) false None true false None).
  destruct (H 1 [7] [c] [[]] 1%nat c) as (a & rest & d & f & X & Y & _).
  - split; [cbn; lia|]. split; [|left; vm_compute; discriminate]. intros j J. destruct j; [vm_compute; reflexivity | lia].
  - vm_compute. reflexivity.
  - left. reflexivity.
  - cbn in X. injection X as <- <-. discriminate Y.
Qed.
