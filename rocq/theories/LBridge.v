From Verif Require Import Bits LBits LBytes LRun LTraffic LLink LChunk LModem LConnect LConnect2 SBridge.
From Coq Require Import Lia.

Definition togo (st : Setup) : nat :=
  match st with ModemMade => 3 | ModemConnected => 2 | ClientMade => 1 | TopicKnown => 0 end.
Definition upto (k : nat) (ls : list BLabel) : nat := match k with O => O | _ => handled_before k ls end.
Definition lost_of (fs : list (Z * Z * list Z)) : list Outcome := map (fun _ => Failed AttributeError) (payloads alp fs).
Definition pub_of (fs : list (Z * Z * list Z)) : list Outcome := map Published (payloads alp fs).
Definition msgs_of (fs : list (Z * Z * list Z)) : list (Z * Msg) := SSerial.delivered (map bridge_sent fs).
Definition bparser (b : Bridge) : SParser := r_parser (se_reader (br_session b)).
Definition bmodem (b : Bridge) : Modem := r_modem (se_reader (br_session b)).
Record good (rnd : Z) (b : Bridge) : Prop := mkGood
  { g_alive : reading b = true; g_skip : sp_skip (bparser b) = true; g_mskip : m_skip (bmodem b) = true;
    g_cb : m_has_cb (bmodem b) = true; g_buf : Forall is_byte (sp_buf (bparser b));
    g_up : br_setup b = ModemMade -> sp_up (bparser b) = 0;
    g_con : m_connected (bmodem b) = match br_setup b with ModemMade => false | _ => true end;
    g_sent : se_sent (br_session b) = match br_setup b with ModemMade => [] | _ => frame 0 1 (connect_request rnd) end }.

Lemma payloads_app sel a b : payloads sel (a ++ b) = payloads sel a ++ payloads sel b.
Proof. unfold payloads. rewrite filter_app, map_app. reflexivity. Qed.
Lemma msgs_app a b : msgs_of (a ++ b) = msgs_of a ++ msgs_of b.
Proof. unfold msgs_of. rewrite map_app. apply map_app. Qed.
Lemma bumps_up cs : forall p, sp_up (with_counters p cs) = sp_up p.
Proof.
  induction cs as [|c cs IH]; intro p; [reflexivity|]. change (with_counters p (c :: cs)) with (with_counters (bump p c) cs).
  rewrite IH. unfold bump. destruct (negb _); reflexivity.
Qed.
Lemma connect_bridge rnd s : 0 <= rnd <= 255 -> connected s = false -> m_skip (r_modem (se_reader s)) = true ->
  is_byte (sp_up (r_parser (se_reader s))) ->
  exists s', connect_begin rnd true s = (s', Returned (Some true))
  /\ alive s' = alive s /\ sp_skip (r_parser (se_reader s')) = sp_skip (r_parser (se_reader s))
  /\ sp_buf (r_parser (se_reader s')) = sp_buf (r_parser (se_reader s))
  /\ m_skip (r_modem (se_reader s')) = true /\ m_has_cb (r_modem (se_reader s')) = m_has_cb (r_modem (se_reader s))
  /\ m_connected (r_modem (se_reader s')) = true /\ m_unsol (r_modem (se_reader s')) = m_unsol (r_modem (se_reader s))
  /\ se_sent s' = se_sent s ++ frame (sp_up (r_parser (se_reader s))) 1 (connect_request rnd)
  /\ m_has_rbcb (r_modem (se_reader s')) = m_has_rbcb (r_modem (se_reader s))
  /\ m_rebooted (r_modem (se_reader s')) = m_rebooted (r_modem (se_reader s)) ++ []
  /\ m_rb_calls (r_modem (se_reader s')) = m_rb_calls (r_modem (se_reader s))
  /\ m_logged (r_modem (se_reader s')) = m_logged (r_modem (se_reader s)) ++ [].
Proof.
  intros H C S B. unfold connect_begin. unfold connected in C. rewrite C. cbn [negb].
  destruct (connect_command_ok rnd H) as (c & -> & T & E). rewrite S.
  rewrite (execute_ok (with_connected s (se_uid s) (se_fw s) true) c _ 0 B E (request_payload rnd H)).
  eexists. split; [reflexivity|]. rewrite !app_nil_r. repeat split. cbn. exact S.
Qed.
(** the reader handles one frame *)
Lemma handle_one m f : m_skip m = true -> m_has_cb m = true ->
  let m' := dispatch m (fst (fst f) * 0 + snd (fst f), s_msg (bridge_sent f)) in
  m_skip m' = true /\ m_has_cb m' = true /\ m_connected m' = m_connected m
  /\ m_cb_calls m' = m_cb_calls m ++ (if m_connected m then map MRaw (payloads alp [f]) else [])
  /\ m_unsol m' = m_unsol m ++ (if m_connected m then [] else map MRaw (payloads alp [f])).
Proof.
  destruct f as [[c t] payload]. intros S B. cbn [fst snd bridge_sent s_msg]. rewrite Z.mul_0_r. cbn [Z.add].
  set (x := if t =? 5 then MInt (hd 0 payload) else MRaw payload).
  assert (NR : is_response m t x = false).
  { destruct (is_response m t x) eqn:R; [|reflexivity]. apply is_response_iff in R. destruct R as [_ [R _]]. congruence. }
  unfold dispatch. rewrite NR. unfold dispatch_other. rewrite B. cbn [andb]. unfold payloads, alp. cbn [filter fst snd].
  destruct (Z.leb_spec t 3) as [L|L].
  - assert (t =? 5 = false) as E5 by lia. assert (t =? 4 = false) as E4 by lia. subst x. rewrite E5, E4.
    destruct (m_connected m) eqn:Q; cbn; rewrite ?app_nil_r; repeat split; assumption.
  - rewrite andb_false_r. destruct (t =? 5), (t =? 4), (m_has_rbcb m), (m_connected m) eqn:Q; cbn; rewrite ?app_nil_r; repeat split; assumption.
Qed.
Lemma run_inv lib rnd rest : 0 <= rnd <= 255 -> forall ls b b' l0 l1,
  good rnd b -> ~ device_fails ls -> Forall bridge_ok l0 -> Forall bridge_ok l1 ->
  br_pending b = msgs_of l0 -> sp_buf (bparser b) ++ bytes_read ls ++ rest = flat_map bridge_frame l1 ->
  (bytes_read ls ++ rest = [] -> l1 = []) ->
  bridge_run lib rnd b ls = Some b' ->
  let k := togo (br_setup b) in
  let seen := firstn (handled ls) (l0 ++ l1) in
  let c := upto (k - 2) ls in
  let t := upto k ls in
  good rnd b'
  /\ kept b' = kept b ++ map MRaw (payloads alp (firstn c seen))
  /\ br_outcomes b' = br_outcomes b ++ lost_of (skipn c (firstn t seen)) ++ pub_of (skipn t seen)
  /\ (br_setup b' = ModemMade <-> br_setup b = ModemMade /\ ~ In BMain ls)
  /\ exists l0' l1', l0 ++ l1 = seen ++ l0' ++ l1' /\ length seen = handled ls
     /\ br_pending b' = msgs_of l0' /\ sp_buf (bparser b') ++ rest = flat_map bridge_frame l1'
     /\ (rest = [] -> l1' = []).
Proof.
  intros Hr. induction ls as [|l ls IH]; intros b b' l0 l1 G NF F0 F1 Ep Eb Ez R; cbn [bridge_run] in R.
  - injection R as <-. cbn [handled firstn]. cbv zeta. rewrite !skipn_nil, !firstn_nil, skipn_nil. cbn [lost_of pub_of payloads filter map app].
    unfold lost_of, pub_of, payloads. cbn. rewrite !app_nil_r. split; [exact G|].
    refine (conj eq_refl (conj eq_refl (conj _ _))); [cbn; tauto|]. exists l0, l1. refine (conj eq_refl (conj eq_refl (conj Ep (conj Eb _)))). auto.
  - destruct (bridge_step lib rnd b l) as [b1|] eqn:S; [|discriminate].
    assert (NF' : ~ device_fails ls) by (intro X; apply NF; right; exact X).
    destruct G as [Ga Gs Gm Gc Gb Gu Gk Gt]. unfold reading, alive, bparser, bmodem in *.
    destruct l as [e| |].
    + unfold bridge_step in S. rewrite Ga in S. destruct (br_pending b) as [|] eqn:Pe; [|discriminate].
      assert (l0 = []) as -> by (destruct l0; [reflexivity | discriminate]).
      destruct e as [chunk|]; [|exfalso; apply NF; left; reflexivity].
      destruct chunk as [|x chunk].
      * injection S as <-. cbn [bytes_read flat_map app] in Eb.
        destruct (IH b b' [] l1) as (I1 & I2 & I3 & I4 & I5); try assumption; [constructor; assumption|].
        assert (U : forall k, upto k (BDevice (DBytes []) :: ls) = upto k ls) by (intros [|?]; reflexivity).
        cbv zeta. rewrite !U. refine (conj I1 (conj I2 (conj I3 (conj _ I5)))). rewrite I4. cbn [In]. split; intros [X Y]; split; auto.
        intros [Z|Z]; [discriminate | auto].
      * cbn [bytes_read flat_map] in Eb. fold (bytes_read ls) in Eb. rewrite <- app_assoc, app_assoc in Eb.
        set (ch := x :: chunk) in *. cbv iota in S.
        destruct (runs_prefix lib true (map bridge_sent l1)) with (y := sp_buf (r_parser (se_reader (br_session b))) ++ ch) (z := bytes_read ls ++ rest)
          as (m1 & m2 & pd & fin & Em & Ef & Rn & Rz).
        { apply Forall_map. eapply Forall_impl; [|exact F1]. intros f. apply bridge_sent_ok. }
        { rewrite bridge_wire. exact Eb. }
        apply map_eq_app in Em. destruct Em as (a & a2 & -> & <- & <-). apply Forall_app in F1. destruct F1 as [Fa Fa2].
        assert (Fall : Forall is_byte ((sp_buf (r_parser (se_reader (br_session b))) ++ ch) ++ bytes_read ls ++ rest)).
        { rewrite Eb. rewrite <- bridge_wire. eapply wire_bytes with (skip := true). apply Forall_map.
          eapply Forall_impl; [|apply Forall_app; split; eassumption]. intros f. apply bridge_sent_ok. }
        apply Forall_app in Fall. destruct Fall as [Fbc Frest]. apply Forall_app in Fbc. destruct Fbc as [_ Fc].
        rewrite <- Gs in Rn. pose proof (sparse_runs _ _ _ _ _ _ _ _ _ Gb Fc Rn) as Sp. cbv iota in Sp.
        change (sparse lib (r_parser (se_reader (br_session b))) (x :: chunk)) with (sparse lib (r_parser (se_reader (br_session b))) ch) in S.
        rewrite Sp in S. injection S as <-. rewrite bridge_wire in Ef.
        match type of R with bridge_run _ _ ?b1 _ = _ => set (b2 := b1) in * end.
        assert (G2 : good rnd b2).
        { unfold b2. constructor; unfold bparser, bmodem, reading, alive; cbn [br_session br_setup with_reader se_reader r_alive r_parser r_modem se_sent set_buf sp_skip sp_buf sp_up]; try assumption.
          - reflexivity.
          - rewrite counters_skip. exact Gs.
          - pose proof (wire_bytes true (map bridge_sent a2)) as W. rewrite bridge_wire, <- Ef in W.
            refine (proj1 (proj1 (Forall_app _ _ _) (W _))). apply Forall_map. eapply Forall_impl; [|exact Fa2]. intros f. apply bridge_sent_ok.
          - intros X. rewrite bumps_up. auto. }
        destruct (IH b2 b' a a2) as (I1 & I2 & I3 & I4 & l0' & l1' & J1 & J2 & J3 & J4 & J5); try assumption; try reflexivity.
        { intros X. destruct (Rz X) as [X1 _]. destruct a2; [reflexivity | discriminate]. }
        assert (U : forall k, upto k (BDevice (DBytes ch) :: ls) = upto k ls) by (intros [|?]; reflexivity).
        cbv zeta. cbn [app handled]. rewrite !U. refine (conj I1 (conj I2 (conj I3 (conj _ _)))).
        -- rewrite I4. cbn [In b2 br_setup]. split; intros [X Y]; split; auto. intros [Z|Z]; [discriminate | auto].
        -- exists l0', l1'. refine (conj J1 (conj J2 (conj J3 (conj J4 J5)))).
    + unfold bridge_step in S. destruct (br_pending b) as [|y pend] eqn:Pe; [discriminate|].
      destruct l0 as [|f l0]; [discriminate|]. inversion F0 as [|? ? Fo0 F0']; subst.
      change (msgs_of (f :: l0)) with ((s_type (bridge_sent f), s_msg (bridge_sent f)) :: msgs_of l0) in Ep.
      assert (Ey : y = (s_type (bridge_sent f), s_msg (bridge_sent f))) by congruence.
      assert (Ep' : pend = msgs_of l0) by congruence. clear Ep. rename Ep' into Ep.
      cbv zeta in S. remember (dispatch (r_modem (se_reader (br_session b))) y) as m2 eqn:E2. injection S as <-.
      pose proof (handle_one (r_modem (se_reader (br_session b))) f Gm Gc) as Ho. cbv zeta in Ho.
      assert (Em : (fst (fst f) * 0 + snd (fst f), s_msg (bridge_sent f)) = (s_type (bridge_sent f), s_msg (bridge_sent f))).
      { destruct f as [[c t] py]. cbn. f_equal. lia. }
      rewrite Em, <- Ey, <- E2 in Ho. clear Em E2.
      destruct Ho as (H1 & H2 & H3 & H4 & H5).
      match type of R with bridge_run _ _ ?b1 _ = _ => set (b2 := b1) in * end.
      assert (G2 : good rnd b2).
      { unfold b2. constructor; unfold bparser, bmodem, reading, alive; cbn [br_session br_setup with_reader se_reader r_alive r_parser r_modem se_sent set_buf sp_skip sp_buf sp_up]; try assumption. exact (eq_trans H3 Gk). }
      destruct (IH b2 b' l0 l1) as (I1 & I2 & I3 & I4 & l0' & l1' & J1 & J2 & J3 & J4 & J5); try assumption.
      unfold kept, session_inbox, inbox in *. cbv zeta in *.
      cbn [b2 br_setup br_outcomes br_session with_reader se_reader r_modem] in I2, I3, I4.
      cbn [handled app firstn]. set (seen := firstn (handled ls) (l0 ++ l1)) in *.
      refine (conj I1 (conj _ (conj _ (conj _ _)))).
      * rewrite I2, H5, Gk. destruct (br_setup b) eqn:St; cbn [togo Nat.sub upto handled_before firstn]; rewrite <- ?app_assoc, ?app_nil_r; try reflexivity.
        f_equal. rewrite (payloads_app alp [f] _ : payloads alp (f :: firstn (handled_before 1 ls) seen) = _). rewrite map_app. reflexivity.
      * rewrite I3, H4, Gk. rewrite skipn_app, skipn_all, Nat.sub_diag. cbn [app skipn].
        assert (Pf : forall l, payloads alp (f :: l) = payloads alp [f] ++ payloads alp l) by (intro; apply (payloads_app alp [f])).
        assert (Oc : forall st, map (on_command_received st) (map MRaw (payloads alp [f])) = match st with TopicKnown => pub_of [f] | _ => lost_of [f] end).
        { intros st. unfold pub_of, lost_of. rewrite map_map. destruct st; reflexivity. }
        assert (Lf : forall l, lost_of (f :: l) = lost_of [f] ++ lost_of l) by (intro; unfold lost_of; rewrite Pf, map_app; reflexivity).
        assert (Pu : forall l, pub_of (f :: l) = pub_of [f] ++ pub_of l) by (intro; unfold pub_of; rewrite Pf, map_app; reflexivity).
        destruct (br_setup b) eqn:St; cbn [togo Nat.sub upto handled_before firstn skipn]; try (rewrite Lf; rewrite Oc); try (rewrite Pu; rewrite Oc); rewrite <- ?app_assoc; reflexivity.
      * rewrite I4. cbn [In]. split; intros [X Y]; split; auto. intros [Z|Z]; [discriminate | auto].
      * exists l0', l1'. refine (conj _ (conj _ (conj J3 (conj J4 J5)))); [cbn [app]; f_equal; exact J1 | cbn [length]; f_equal; exact J2].
    + cbn [bytes_read flat_map app] in Eb. fold (bytes_read ls) in Eb. unfold bridge_step in S.
      assert (U : forall k, upto (Datatypes.S k) (BMain :: ls) = upto k ls) by (intros [|?]; reflexivity).
      destruct (br_setup b) eqn:St.
      * destruct (connect_bridge rnd (br_session b) Hr) as (s' & Ec & C1 & C2 & C3 & C4 & C5 & C6 & C7 & C8 & _).
        { exact Gk. } { exact Gm. } { rewrite Gu by reflexivity. unfold is_byte. lia. }
        rewrite Ec in S. injection S as <-.
        match type of R with bridge_run _ _ ?b1 _ = _ => set (b2 := b1) in * end.
        assert (G2 : good rnd b2).
        { unfold b2. constructor; unfold bparser, bmodem, reading; cbn [br_session br_setup]; try congruence.
          - exact (eq_trans C1 Ga). - rewrite C8, Gt, Gu by reflexivity. reflexivity. }
        destruct (IH b2 b' l0 l1) as (I1 & I2 & I3 & I4 & I5); try assumption.
        { unfold b2, bparser. cbn [br_session]. rewrite C3. exact Eb. }
        cbv zeta in *. cbn [togo Nat.sub handled b2 br_setup br_outcomes] in *. rewrite !U.
        refine (conj I1 (conj _ (conj I3 (conj _ I5)))).
        -- rewrite I2. unfold kept, session_inbox, inbox. cbn [b2 br_session]. rewrite C7. reflexivity.
        -- rewrite I4. split; [intros [X _]; discriminate | intros [_ X]; exfalso; apply X; left; reflexivity].
      * injection S as <-. match type of R with bridge_run _ _ ?b1 _ = _ => set (b2 := b1) in * end.
        assert (G2 : good rnd b2) by (unfold b2; constructor; unfold bparser, bmodem, reading; cbn [br_session br_setup]; try congruence; assumption).
        destruct (IH b2 b' l0 l1) as (I1 & I2 & I3 & I4 & I5); try assumption.
        cbv zeta in *. cbn [togo Nat.sub handled b2 br_setup br_outcomes] in *. rewrite !U. cbn [upto] in *.
        refine (conj I1 (conj I2 (conj I3 (conj _ I5)))). rewrite I4. split; intros [X _]; discriminate.
      * injection S as <-. match type of R with bridge_run _ _ ?b1 _ = _ => set (b2 := b1) in * end.
        assert (G2 : good rnd b2) by (unfold b2; constructor; unfold bparser, bmodem, reading; cbn [br_session br_setup]; try congruence; assumption).
        destruct (IH b2 b' l0 l1) as (I1 & I2 & I3 & I4 & I5); try assumption.
        cbv zeta in *. cbn [togo Nat.sub handled b2 br_setup br_outcomes] in *. rewrite !U. cbn [upto] in *.
        refine (conj I1 (conj I2 (conj I3 (conj _ I5)))). rewrite I4. split; intros [X _]; discriminate.
      * discriminate.
Qed.
Lemma start_good rnd : good rnd bridge_start.
Proof. constructor; try reflexivity. constructor. Qed.
Lemma wire_empty fs : flat_map bridge_frame fs = [] -> fs = [].
Proof.
  rewrite <- bridge_wire. intro E. apply LModem.wire_nil in E. destruct fs; [reflexivity | discriminate].
Qed.
Lemma setup_monotone n ls : (handled_before (S n) ls <= handled_before (S (S n)) ls)%nat.
Proof.
  revert n. induction ls as [|[e| |] ls IH]; intro n; cbn [handled_before]; [lia | apply IH | specialize (IH n); lia | destruct n; [lia | apply IH]].
Qed.
Lemma bridge_any_moment lib rnd ls b fs rest : 0 <= rnd <= 255 -> Forall bridge_ok fs -> ~ device_fails ls ->
  bytes_read ls ++ rest = flat_map bridge_frame fs -> bridge_run lib rnd bridge_start ls = Some b ->
  let seen := firstn (handled ls) fs in
  let n1 := handled_before 1 ls in
  let n3 := handled_before 3 ls in
  length seen = handled ls
  /\ kept b = map MRaw (payloads alp (firstn n1 seen))
  /\ br_outcomes b = map (fun _ => Failed AttributeError) (payloads alp (skipn n1 (firstn n3 seen)))
                     ++ map Published (payloads alp (skipn n3 seen))
  /\ reading b = true
  /\ se_sent (br_session b) = match br_setup b with ModemMade => [] | _ => frame 0 1 (connect_request rnd) end
  /\ (br_setup b = ModemMade <-> ~ In BMain ls).
Proof.
  intros Hr F NF E R.
  destruct (run_inv lib rnd rest Hr ls bridge_start b [] fs) as (G & K & O & M & l0 & l1 & J1 & J2 & _);
    try assumption; [apply start_good | constructor | reflexivity | |].
  { intros X. rewrite E in X. apply wire_empty. exact X. }
  cbv zeta in *. cbn [app bridge_start br_setup togo Nat.sub upto kept session_inbox inbox br_session br_outcomes] in *.
  refine (conj J2 (conj K (conj O (conj (g_alive _ _ G) (conj _ _))))).
  - rewrite (g_sent _ _ G). destruct (br_setup b); reflexivity.
  - rewrite M. tauto.
Qed.

(** ** Any bytes *)
Definition raw_only (ms : list (Z * Msg)) : Prop := Forall (fun tx => fst tx <= 3 -> exists l, snd tx = MRaw l) ms.
Lemma carries_more t payload rest m k y : carries true t payload rest m k -> carries true t payload (rest ++ y) m k.
Proof.
  intros C. inversion C; subst; try (constructor; assumption || reflexivity); try discriminate.
  eapply carries_rebooted. rewrite app_assoc, H. reflexivity.
Qed.
Lemma decodes_more lib buf ms es cs pd fin y ms2 : runs lib true buf ms es cs pd false fin -> Forall is_byte buf ->
  decodes true (fin ++ y) ms2 -> decodes true (buf ++ y) (ms ++ ms2).
Proof.
  intros R. remember false as cr eqn:Ec.
  induction R as [|buf o e N E H|buf o e N E H1 H2|buf o t m n ms es cs pd cr fin N E R IH|buf o e ms es cs pd cr fin N E H1 H2 R IH];
  intros F D; subst; try discriminate.
  - exact D.
  - exact D.
  - destruct (attempt_ok _ _ _ _ _ _ F N E) as (c & payload & rest & k & -> & -> & -> & Bc & Bt & P & Fr & C & L).
    specialize (IH eq_refl (skipn_bytes _ _ F) D). replace ((56 + 8 * k) / 8)%nat with (7 + k)%nat in IH
      by (replace (56 + 8 * k)%nat with ((7 + k) * 8)%nat by lia; symmetry; apply Nat.div_mul; lia).
    replace (skipn (7 + k) (frame c t payload ++ rest)) with (skipn k (payload ++ rest)) in IH
      by (unfold frame; destruct (calculate_crc payload); reflexivity).
    rewrite <- app_assoc. change (frame c t payload ++ rest ++ y) with ([] ++ frame c t payload ++ rest ++ y).
    change (((t, m) :: ms) ++ ms2) with ((t, m) :: (ms ++ ms2)).
    econstructor; try eassumption; [apply carries_more; exact C|].
    rewrite app_assoc, skipn_app. replace (k - length (payload ++ rest))%nat with 0%nat by lia. exact IH.
  - specialize (IH eq_refl (skip_bad_bytes _ F) D). destruct buf as [|b r]; [congruence|]. rewrite skip_bad_buf in IH.
    destruct (drop_c0_suffix r) as (pre & Er & _). rewrite Er, <- app_comm_cons, <- app_assoc.
    change (b :: pre ++ drop_c0 r ++ y) with ((b :: pre) ++ drop_c0 r ++ y). apply LLink.decodes_app. exact IH.
Qed.
Lemma decodes_raw s ms : decodes true s ms -> raw_only ms.
Proof.
  induction 1 as [|pre c t payload rest m k ms Bc Bt P C D IH]; [constructor|]. constructor; [|exact IH].
  cbn [fst snd]. intros L. inversion C; subst; try lia; try discriminate. eauto.
Qed.
Lemma alp_payloads_app a b : alp_payloads (a ++ b) = alp_payloads a ++ alp_payloads b.
Proof. apply flat_map_app. Qed.
Lemma handle_msg m y : m_skip m = true -> m_has_cb m = true -> (fst y <= 3 -> exists l, snd y = MRaw l) ->
  let m' := dispatch m y in
  m_skip m' = true /\ m_has_cb m' = true /\ m_connected m' = m_connected m
  /\ m_cb_calls m' = m_cb_calls m ++ (if m_connected m then map MRaw (alp_payloads [y]) else [])
  /\ m_unsol m' = m_unsol m ++ (if m_connected m then [] else map MRaw (alp_payloads [y])).
Proof.
  destruct y as [t x]. cbn [fst snd]. intros S B X.
  assert (NR : is_response m t x = false).
  { destruct (is_response m t x) eqn:R; [|reflexivity]. apply is_response_iff in R. destruct R as [_ [R _]]. congruence. }
  unfold dispatch. rewrite NR. unfold dispatch_other. rewrite B. cbn [andb]. unfold alp_payloads, alp. cbn [flat_map fst snd].
  destruct (Z.leb_spec t 3) as [L|L].
  - destruct (X L) as (l & ->). assert (t =? 5 = false) as E5 by lia. assert (t =? 4 = false) as E4 by lia. rewrite E5, E4.
    destruct (m_connected m) eqn:Q; cbn; rewrite ?app_nil_r; repeat split; assumption.
  - rewrite andb_false_r. destruct (t =? 5), (t =? 4), (m_has_rbcb m), (m_connected m) eqn:Q; cbn; rewrite ?app_nil_r; repeat split; assumption.
Qed.
Definition lost_ms (ms : list (Z * Msg)) : list Outcome := map (fun _ => Failed AttributeError) (alp_payloads ms).
Definition pub_ms (ms : list (Z * Msg)) : list Outcome := map Published (alp_payloads ms).
Lemma handle_rest m y : m_skip m = true -> m_has_rbcb m = false ->
  let m' := dispatch m y in
  m_has_rbcb m' = false /\ m_rebooted m' = m_rebooted m ++ of_kind 5 [y] /\ m_rb_calls m' = m_rb_calls m
  /\ m_logged m' = m_logged m ++ of_kind 4 [y].
Proof.
  destruct y as [t x]. intros S B.
  assert (NR : is_response m t x = false).
  { destruct (is_response m t x) eqn:R; [|reflexivity]. apply is_response_iff in R. destruct R as [_ [R _]]. congruence. }
  unfold dispatch. rewrite NR. unfold dispatch_other, of_kind. rewrite B. cbn [filter fst].
  destruct (Z.eqb_spec t 5) as [->|N5]; [rewrite andb_false_r; cbn; rewrite ?app_nil_r; auto|].
  destruct (Z.eqb_spec t 4) as [->|N4]; [rewrite andb_false_r; cbn; rewrite ?app_nil_r; auto|].
  destruct (m_has_cb m && m_connected m && (t <=? 3)); [cbn; rewrite ?app_nil_r; auto|].
  destruct (t <=? 3); cbn; rewrite ?app_nil_r; auto.
Qed.
Definition rest_of (m m' : Modem) (hs : list (Z * Msg)) : Prop :=
  m_rebooted m' = m_rebooted m ++ of_kind 5 hs /\ m_rb_calls m' = m_rb_calls m /\ m_logged m' = m_logged m ++ of_kind 4 hs.
Lemma of_kind_cons t y l : of_kind t (y :: l) = of_kind t [y] ++ of_kind t l.
Proof. unfold of_kind. cbn [filter]. destruct (fst y =? t); reflexivity. Qed.
Lemma run_any lib rnd : 0 <= rnd <= 255 -> forall ls b b',
  good rnd b -> only_bytes ls -> ~ device_fails ls -> raw_only (br_pending b) -> m_has_rbcb (bmodem b) = false -> bridge_run lib rnd b ls = Some b' ->
  let k := togo (br_setup b) in
  let c := upto (k - 2) ls in
  let t := upto k ls in
  good rnd b' /\ exists ms hs, decodes true (sp_buf (bparser b) ++ bytes_read ls) ms
  /\ br_pending b ++ ms = hs ++ br_pending b' /\ length hs = handled ls
  /\ kept b' = kept b ++ map MRaw (alp_payloads (firstn c hs))
  /\ br_outcomes b' = br_outcomes b ++ lost_ms (skipn c (firstn t hs)) ++ pub_ms (skipn t hs)
  /\ rest_of (bmodem b) (bmodem b') hs.
Proof.
  intros Hr. induction ls as [|l ls IH]; intros b b' G OB NF RO Rb R; cbn [bridge_run] in R.
  - injection R as <-. split; [exact G|]. exists [], []. cbv zeta. rewrite !skipn_nil, !firstn_nil, skipn_nil.
    unfold lost_ms, pub_ms. cbn. rewrite !app_nil_r. split; [constructor|]. repeat (split; [reflexivity|]). unfold rest_of. cbn. rewrite !app_nil_r. auto.
  - destruct (bridge_step lib rnd b l) as [b1|] eqn:S; [|discriminate].
    assert (NF' : ~ device_fails ls) by (intro X; apply NF; right; exact X).
    assert (OB' : only_bytes ls) by (intros e X; apply OB; right; exact X).
    destruct G as [Ga Gs Gm Gc Gb Gu Gk Gt]. unfold reading, alive, bparser, bmodem in *.
    destruct l as [e| |].
    + unfold bridge_step in S. rewrite Ga in S. destruct (br_pending b) as [|] eqn:Pe; [|discriminate].
      assert (U : forall k, upto k (BDevice e :: ls) = upto k ls) by (intros [|?]; reflexivity).
      destruct e as [chunk|]; [|exfalso; apply NF; left; reflexivity].
      destruct chunk as [|x chunk].
      * injection S as <-.
        destruct (IH b b') as (I1 & ms & hs & I2 & I3 & I4 & I5 & I6 & I7); try assumption; [constructor; assumption | rewrite Pe; constructor|].
        cbv zeta in *. rewrite !U. split; [exact I1|]. exists ms, hs. rewrite Pe in I3. cbn [bytes_read flat_map app handled]. auto 10.
      * set (ch := x :: chunk) in *. cbv iota in S.
        assert (Fc : Forall is_byte ch) by (apply (OB (DBytes ch)); left; reflexivity).
        change (sparse lib (r_parser (se_reader (br_session b))) (x :: chunk)) with (sparse lib (r_parser (se_reader (br_session b))) ch) in S.
        destruct (sparse lib (r_parser (se_reader (br_session b))) ch) as [p' r] eqn:Sp.
        destruct (skip_never_raises _ _ _ _ _ Gb Fc Gs Sp) as (r' & ->).
        pose proof (sparse_inv _ _ _ _ _ Gb Fc Sp) as (ms & es & cs & pd & cr & fin & Rn & Ep & Er).
        rewrite Gs in Rn. destruct cr; [discriminate|]. injection Er as ->. cbn [pr_msgs] in S. injection S as <-.
        assert (Fbc : Forall is_byte (sp_buf (r_parser (se_reader (br_session b))) ++ ch)) by (apply Forall_app; auto).
        match type of R with bridge_run _ _ ?b1 _ = _ => set (b2 := b1) in * end.
        assert (G2 : good rnd b2).
        { unfold b2. rewrite Ep. constructor; unfold bparser, bmodem, reading, alive;
            cbn [br_session br_setup with_reader se_reader r_alive r_parser r_modem se_sent set_buf sp_skip sp_buf sp_up]; try assumption.
          - reflexivity.
          - rewrite counters_skip. exact Gs.
          - exact (runs_bytes _ _ _ _ _ _ _ _ _ Rn Fbc).
          - intros X. rewrite bumps_up. auto. }
        destruct (IH b2 b') as (I1 & ms2 & hs & I2 & I3 & I4 & I5 & I6 & I7); try assumption.
        { unfold b2. cbn [br_pending]. eapply decodes_raw. eapply runs_decodes; eassumption. }
        cbv zeta in *. rewrite !U. split; [exact I1|]. exists (ms ++ ms2), hs.
        refine (conj _ (conj I3 (conj I4 (conj I5 (conj I6 I7))))). cbn [bytes_read flat_map]. fold (bytes_read ls). rewrite app_assoc.
        eapply decodes_more; [exact Rn | exact Fbc|]. unfold b2 in I2. rewrite Ep in I2. exact I2.
    + unfold bridge_step in S. destruct (br_pending b) as [|y pend] eqn:Pe; [discriminate|].
      inversion RO as [|? ? Ry RO']; subst.
      cbv zeta in S. remember (dispatch (r_modem (se_reader (br_session b))) y) as m2 eqn:E2. injection S as <-.
      pose proof (handle_msg (r_modem (se_reader (br_session b))) y Gm Gc Ry) as Ho. cbv zeta in Ho. rewrite <- E2 in Ho.
      pose proof (handle_rest (r_modem (se_reader (br_session b))) y Gm Rb) as Hq. cbv zeta in Hq. rewrite <- E2 in Hq. clear E2. destruct Hq as (Q0 & Q1 & Q2 & Q3).
      destruct Ho as (H1 & H2 & H3 & H4 & H5).
      match type of R with bridge_run _ _ ?b1 _ = _ => set (b2 := b1) in * end.
      assert (G2 : good rnd b2).
      { unfold b2. constructor; unfold bparser, bmodem, reading, alive;
          cbn [br_session br_setup with_reader se_reader r_alive r_parser r_modem se_sent set_buf sp_skip sp_buf sp_up]; try assumption.
        exact (eq_trans H3 Gk). }
      destruct (IH b2 b') as (I1 & ms & hs & I2 & I3 & I4 & I5 & I6 & I7); try assumption.
      unfold kept, session_inbox, inbox in *. cbv zeta in *.
      cbn [b2 br_setup br_outcomes br_pending br_session with_reader se_reader r_modem r_parser] in I2, I3, I4, I5, I6.
      split; [exact I1|]. exists ms, (y :: hs). refine (conj I2 (conj _ (conj _ (conj _ (conj _ _))))).
      * cbn [app]. f_equal. exact I3.
      * cbn [length handled]. f_equal. exact I4.
      * rewrite I5, H5, Gk. destruct (br_setup b) eqn:St; cbn [togo Nat.sub upto handled_before firstn]; rewrite <- ?app_assoc, ?app_nil_r; try reflexivity.
        f_equal. rewrite (alp_payloads_app [y] _ : alp_payloads (y :: firstn (handled_before 1 ls) hs) = _). rewrite map_app. reflexivity.
      * rewrite I6, H4, Gk. rewrite skipn_app, skipn_all, Nat.sub_diag. cbn [app skipn].
        assert (Pf : forall l, alp_payloads (y :: l) = alp_payloads [y] ++ alp_payloads l) by (intro; apply (alp_payloads_app [y])).
        assert (Oc : forall st, map (on_command_received st) (map MRaw (alp_payloads [y])) = match st with TopicKnown => pub_ms [y] | _ => lost_ms [y] end).
        { intros st. unfold pub_ms, lost_ms. rewrite map_map. destruct st; reflexivity. }
        assert (Lf : forall l, lost_ms (y :: l) = lost_ms [y] ++ lost_ms l) by (intro; unfold lost_ms; rewrite Pf, map_app; reflexivity).
        assert (Pu : forall l, pub_ms (y :: l) = pub_ms [y] ++ pub_ms l) by (intro; unfold pub_ms; rewrite Pf, map_app; reflexivity).
        destruct (br_setup b) eqn:St; cbn [togo Nat.sub upto handled_before firstn skipn]; try (rewrite Lf; rewrite Oc); try (rewrite Pu; rewrite Oc); rewrite <- ?app_assoc; reflexivity.
      * unfold rest_of, bmodem in I7 |- *. cbn [b2 br_session with_reader se_reader r_modem] in I7. destruct I7 as (J1 & J2 & J3).
        rewrite J1, J2, J3, Q1, Q2, Q3, (of_kind_cons 5 y hs), (of_kind_cons 4 y hs), <- !app_assoc. auto.
    + unfold bridge_step in S.
      assert (U : forall k, upto (Datatypes.S k) (BMain :: ls) = upto k ls) by (intros [|?]; reflexivity).
      assert (exists s' st, b1 = mkBridge s' (br_pending b) st (br_outcomes b) /\ good rnd b1
        /\ togo (br_setup b) = Datatypes.S (togo st) /\ sp_buf (r_parser (se_reader s')) = sp_buf (r_parser (se_reader (br_session b)))
        /\ m_unsol (r_modem (se_reader s')) = m_unsol (r_modem (se_reader (br_session b)))
        /\ m_has_rbcb (r_modem (se_reader s')) = false /\ rest_of (r_modem (se_reader (br_session b))) (r_modem (se_reader s')) []) as (s' & st & -> & G2 & Tg & Eb & Eu & Eh & Er).
      { destruct (br_setup b) eqn:St.
        - destruct (connect_bridge rnd (br_session b) Hr) as (s' & Ec & C1 & C2 & C3 & C4 & C5 & C6 & C7 & C8 & C9 & C10).
          { exact Gk. } { exact Gm. } { rewrite Gu by reflexivity. unfold is_byte. lia. }
          rewrite Ec in S. injection S as <-. exists s', ModemConnected. refine (conj eq_refl (conj _ (conj eq_refl (conj C3 (conj C7 (conj (eq_trans C9 Rb) C10)))))).
          constructor; unfold bparser, bmodem, reading; cbn [br_session br_setup]; try congruence.
          + exact (eq_trans C1 Ga). + rewrite C8, Gt, Gu by reflexivity. reflexivity.
        - injection S as <-. exists (br_session b), ClientMade. refine (conj eq_refl (conj _ (conj eq_refl (conj eq_refl (conj eq_refl (conj Rb _)))))); [|unfold rest_of; cbn; rewrite !app_nil_r; auto].
          constructor; unfold bparser, bmodem, reading; cbn [br_session br_setup]; try congruence; assumption.
        - injection S as <-. exists (br_session b), TopicKnown. refine (conj eq_refl (conj _ (conj eq_refl (conj eq_refl (conj eq_refl (conj Rb _)))))); [|unfold rest_of; cbn; rewrite !app_nil_r; auto].
          constructor; unfold bparser, bmodem, reading; cbn [br_session br_setup]; try congruence; assumption.
        - discriminate. }
      match type of R with bridge_run _ _ ?b1 _ = _ => set (b2 := b1) in * end.
      destruct (IH b2 b') as (I1 & ms & hs & I2 & I3 & I4 & I5 & I6 & I7); try assumption.
      cbv zeta in *. unfold kept, session_inbox, inbox in *. cbn [b2 br_setup br_outcomes br_pending br_session] in I2, I3, I4, I5, I6.
      rewrite Eb in I2. rewrite Eu in I5. split; [exact I1|]. exists ms, hs. refine (conj I2 (conj I3 (conj I4 _))).
      assert (I7' : rest_of (bmodem b) (bmodem b') hs).
      { unfold rest_of, bmodem in I7, Er |- *. cbn [b2 br_session of_kind filter map] in I7, Er. destruct I7 as (J1 & J2 & J3), Er as (E1 & E2 & E3).
        rewrite E1, app_nil_r in J1. rewrite E2 in J2. rewrite E3, app_nil_r in J3. auto. }
      rewrite Tg, U. destruct st; cbn [togo Nat.sub] in *; rewrite ?U; auto.
Qed.
Lemma bridge_any_bytes lib rnd ls b : 0 <= rnd <= 255 -> only_bytes ls -> ~ device_fails ls ->
  bridge_run lib rnd bridge_start ls = Some b ->
  let n1 := handled_before 1 ls in
  let n3 := handled_before 3 ls in
  reading b = true /\ exists ms, decodes true (bytes_read ls) (ms ++ br_pending b) /\ length ms = handled ls
  /\ kept b = map MRaw (alp_payloads (firstn n1 ms))
  /\ br_outcomes b = map (fun _ => Failed AttributeError) (alp_payloads (skipn n1 (firstn n3 ms)))
                     ++ map Published (alp_payloads (skipn n3 ms))
  /\ session_inbox PReboots (br_session b) = of_kind 5 ms /\ session_inbox PRebootCallback (br_session b) = []
  /\ session_inbox PLog (br_session b) = of_kind 4 ms.
Proof.
  intros Hr OB NF R. destruct (run_any lib rnd Hr ls bridge_start b (start_good rnd) OB NF) as (G & ms & hs & D & E & L & K & O & Q1 & Q2 & Q3);
    [constructor | reflexivity | exact R |].
  cbv zeta in *. cbn [app bridge_start br_setup togo Nat.sub upto kept session_inbox inbox br_session br_outcomes br_pending] in *.
  split; [exact (g_alive _ _ G)|]. exists hs. rewrite <- E. cbn in D. auto 10.
Qed.
Lemma run_app lib rnd a : forall b c, bridge_run lib rnd b (a ++ c) =
  match bridge_run lib rnd b a with Some b' => bridge_run lib rnd b' c | None => None end.
Proof.
  induction a as [|l a IH]; intros b c; cbn [app bridge_run]; [reflexivity|]. destruct (bridge_step lib rnd b l); auto.
Qed.
Lemma bridge_all lib rnd ls b fs : 0 <= rnd <= 255 -> Forall bridge_ok fs -> ~ device_fails ls ->
  bytes_read ls = flat_map bridge_frame fs -> bridge_run lib rnd bridge_start (set_up ++ ls) = Some b -> br_pending b = [] ->
  published b = payloads alp fs /\ kept b = [] /\ (forall e, ~ In (Failed e) (br_outcomes b)).
Proof.
  intros Hr F NF E R P.
  assert (NF' : ~ device_fails (set_up ++ ls)).
  { intros X. apply in_app_iff in X. destruct X as [X|X]; [|auto]. cbn in X. destruct X as [X|[X|[X|[]]]]; discriminate. }
  destruct (run_inv lib rnd [] Hr (set_up ++ ls) bridge_start b [] fs) as (G & K & O & M & l0 & l1 & J1 & J2 & J3 & J4 & J5);
    try assumption; try (constructor; fail); try reflexivity; [apply start_good | cbn; rewrite app_nil_r; exact E | |].
  { intros X. rewrite app_nil_r in X. apply wire_empty. rewrite <- E. exact X. }
  cbv zeta in *. rewrite (J5 eq_refl), app_nil_r in J1.
  assert (l0 = []) as ->.
  { destruct l0 as [|f l0]; [reflexivity|]. rewrite P in J3. discriminate. }
  rewrite app_nil_r in J1. cbn [app] in J1.
  cbn [app bridge_start br_setup togo Nat.sub upto kept session_inbox inbox br_session br_outcomes handled_before set_up skipn firstn] in *.
  change (firstn (handled (BMain :: BMain :: BMain :: ls)) fs) with (firstn (handled (BMain :: BMain :: BMain :: ls)) fs) in *.
  rewrite <- J1 in O. unfold lost_of in O. cbn [payloads filter map app] in O. unfold published. rewrite O. unfold pub_of.
  refine (conj _ (conj K _)).
  - induction (payloads alp fs) as [|x l IH]; [reflexivity|]. cbn [map flat_map app]. f_equal. exact IH.
  - intros e X. apply in_map_iff in X. destruct X as (y & X & _). discriminate.
Qed.
(** every step that should be possible is *)
Lemma bridge_never_stuck lib rnd ls b : 0 <= rnd <= 255 -> only_bytes ls -> ~ device_fails ls ->
  bridge_run lib rnd bridge_start ls = Some b ->
  (br_pending b = [] -> forall chunk, Forall is_byte chunk -> exists b', bridge_step lib rnd b (BDevice (DBytes chunk)) = Some b')
  /\ (br_pending b <> [] -> exists b', bridge_step lib rnd b BHandle = Some b')
  /\ (br_setup b <> TopicKnown -> exists b', bridge_step lib rnd b BMain = Some b').
Proof.
  intros Hr OB NF R. destruct (run_any lib rnd Hr ls bridge_start b (start_good rnd) OB NF) as (G & _); [constructor | reflexivity | exact R|].
  destruct G as [Ga Gs Gm Gc Gb Gu Gk Gt]. unfold reading, alive, bparser, bmodem in *. refine (conj _ (conj _ _)).
  - intros P chunk F. unfold bridge_step. rewrite Ga, P. destruct chunk as [|x chunk]; [eauto|].
    destruct (sparse lib (r_parser (se_reader (br_session b))) (x :: chunk)) as [p [r|e]]; eauto.
  - intros P. unfold bridge_step. destruct (br_pending b); [congruence | eauto].
  - intros P. unfold bridge_step. destruct (br_setup b) eqn:St; eauto; [|congruence].
    destruct (connect_bridge rnd (br_session b) Hr) as (s' & Ec & _).
    { exact Gk. } { exact Gm. } { rewrite Gu by reflexivity. unfold is_byte. lia. }
    rewrite Ec. eauto.
Qed.
Lemma bridge_dead lib rnd ls : forall b b', reading b = false -> br_pending b = [] -> bridge_run lib rnd b ls = Some b' ->
  br_outcomes b' = br_outcomes b /\ kept b' = kept b /\ reading b' = false /\ br_pending b' = []
  /\ forall l, In l ls -> l = BMain.
Proof.
  induction ls as [|l ls IH]; intros b b' A P R; cbn [bridge_run] in R.
  - injection R as <-. repeat split; try assumption. intros l [].
  - unfold reading, alive in A. destruct l as [e| |]; cbn [bridge_step] in R; rewrite ?A, ?P in R; try discriminate.
    assert (K : forall s st, r_alive (se_reader s) = false -> m_unsol (r_modem (se_reader s)) = m_unsol (r_modem (se_reader (br_session b))) ->
      bridge_run lib rnd (mkBridge s [] st (br_outcomes b)) ls = Some b' ->
      br_outcomes b' = br_outcomes b /\ kept b' = kept b /\ reading b' = false /\ br_pending b' = [] /\ forall l, In l (BMain :: ls) -> l = BMain).
    { intros s st As Us Rs. destruct (IH (mkBridge s [] st (br_outcomes b)) b' As eq_refl Rs) as (I1 & I2 & I3 & I4 & I5).
      refine (conj I1 (conj _ (conj I3 (conj I4 _)))).
      - rewrite I2. exact Us.
      - intros l [<-|X]; auto. }
    destruct (br_setup b) eqn:St; try discriminate; try (eapply K; [exact A | reflexivity | exact R]).
    destruct (connect_begin rnd true (br_session b)) as [s' pr] eqn:Ec. destruct pr; try discriminate.
    pose proof (proj1 (begin_keeps rnd true (br_session b))) as Kp. rewrite Ec in Kp. cbn [fst] in Kp.
    eapply K; [| |exact R].
    + rewrite <- A. apply Kp.
    + apply Kp.
Qed.
Lemma no_reports wakes : forall s, bridge_count s = 0 -> run_reports s wakes = [].
Proof.
  induction wakes as [|now r IH]; intros s C; cbn [run_reports]; [reflexivity|]. unfold report_stats.
  rewrite C. cbn [Z.ltb Z.compare]. destruct (next_report s <? now); cbn [app]; apply IH; [reflexivity | exact C].
Qed.
Lemma stats_kept es : forall s log s2, 0 <= bridge_count s -> stats_log s es = (log, s2) ->
  total log + bridge_count s2 = bridge_count s + counted_in es /\ 0 <= bridge_count s2
  /\ Forall (fun x => 0 < snd x /\ next_report s < fst x) log
  /\ forall l1 a b l2, log = l1 ++ a :: b :: l2 -> fst a + 15 < fst b.
Proof.
  induction es as [|[|now] es IH]; intros s log s2 N E; cbn [stats_log] in E.
  - injection E as <- <-. cbn. split; [lia|]. split; [exact N|]. split; [constructor|]. intros [|? ?]; discriminate.
  - destruct (IH (keep_stats s) log s2 ltac:(cbn; lia) E) as (T & Nn & F & A). cbn [keep_stats bridge_count next_report] in *.
    refine (conj _ (conj Nn (conj F A))). unfold counted_in in *. cbn [filter]. unfold zlen in *. cbn [length]. lia.
  - unfold report_stats in E. destruct (next_report s <? now) eqn:W.
    + set (s1 := mkStats _ _) in E. destruct (stats_log s1 es) as [log' s2'] eqn:R. injection E as <- <-.
      assert (N1 : 0 <= bridge_count s1) by (unfold s1; cbn [bridge_count]; destruct (0 <? bridge_count s); lia).
      destruct (IH s1 log' s2' N1 R) as (T & Nn & F & A). unfold s1 in T, F. cbn [bridge_count next_report] in T, F.
      assert (F' : Forall (fun x : Z * Z => 0 < snd x /\ next_report s < fst x) log').
      { eapply Forall_impl; [|exact F]. cbv beta. intros x H. lia. }
      assert (Ct : counted_in (Woken now :: es) = counted_in es) by reflexivity. rewrite Ct.
      destruct (0 <? bridge_count s) eqn:C; cbn [map app].
      * refine (conj _ (conj Nn (conj _ _))).
        -- cbn [total fold_right snd]. fold (total log'). lia.
        -- constructor; [cbn [fst snd]; lia | exact F'].
        -- intros [|x l1] a b l2 E; cbn [app] in E; injection E as Ea E.
           ++ subst a. rewrite E in F. inversion F as [|? ? Fb _]; subst. cbn [fst]. lia.
           ++ exact (A l1 a b l2 E).
      * refine (conj _ (conj Nn (conj F' A))). lia.
    + destruct (stats_log s es) as [log' s2'] eqn:R. injection E as <- <-. cbn [map app]. exact (IH s log' s2' N R).
Qed.
Lemma stats_would_work es log s2 : stats_log no_stats es = (log, s2) ->
  total log + bridge_count s2 = counted_in es /\ 0 <= bridge_count s2 /\ Forall (fun x => 0 < snd x) log
  /\ forall l1 a b l2, log = l1 ++ a :: b :: l2 -> fst a + 15 < fst b.
Proof.
  intros E. destruct (stats_kept es no_stats log s2 ltac:(cbn; lia) E) as (T & N & F & A).
  refine (conj _ (conj N (conj _ A))); [exact T|]. eapply Forall_impl; [|exact F]. intros x H. apply H.
Qed.
Lemma lost_after_connect : ~ (forall lib rnd ls b fs, 0 <= rnd <= 255 -> Forall bridge_ok fs -> ~ device_fails ls ->
  bytes_read ls = flat_map bridge_frame fs -> bridge_run lib rnd bridge_start (BMain :: ls) = Some b -> br_pending b = [] ->
  published b = payloads alp fs).
Proof.
  intros H.
  assert (X : exists b, bridge_run true 0 bridge_start [BMain; BDevice (DBytes (frame 0 1 [])); BHandle; BMain; BMain] = Some b
    /\ br_pending b = [] /\ published b = []).
  { eexists. split; [vm_compute; reflexivity|]. split; reflexivity. }
  destruct X as (b & R & P & E).
  specialize (H true 0 [BDevice (DBytes (frame 0 1 [])); BHandle; BMain; BMain] b [(0, 1, [])] ltac:(lia)).
  rewrite E in H. assert (X : @nil (list Z) = [[]]); [|discriminate].
  refine (H _ _ eq_refl R P).
  - constructor; [|constructor]. unfold bridge_ok, is_payload, is_byte, zlen. cbn. repeat split; try lia. constructor.
  - intros [X|[X|[X|[X|[]]]]]; discriminate.
Qed.
Lemma bridge_fails lib rnd b b' : bridge_step lib rnd b (BDevice DException) = Some b' ->
  reading b' = false /\ br_pending b' = [] /\ br_outcomes b' = br_outcomes b /\ kept b' = kept b.
Proof.
  unfold bridge_step. destruct (r_alive _); [|discriminate]. destruct (br_pending b); [|discriminate].
  intros E. injection E as <-. repeat split.
Qed.
