(** C105: serialised calls with several readers. *)
From Coq Require Import Lia Arith.
From Verif Require Import Bits MThreads LThreads SCrowd LModem LSched LSync LCrowd.
Open Scope Z_scope.

(** the call of thread [i] that began last *)
Definition began (pre : list CrowdLabel) (i : nat) (tag : option Z) (sync : bool) (during : list CrowdLabel) : Prop :=
  exists before, pre = before ++ NCall i tag sync :: during /\ no_new_call during.
Lemma began_more pre i tag sync du l : began pre i tag sync du -> (forall i t s, l <> NCall i t s) -> began (pre ++ [l]) i tag sync (du ++ [l]).
Proof.
  intros (bf & -> & N) L. exists bf. split; [rewrite <- app_assoc; reflexivity|]. intros i' t s H. apply in_app_or in H.
  destruct H as [H|[H|[]]]; [exact (N i' t s H) | exact (L i' t s H)].
Qed.
Lemma own_more pre l e : own_answers pre e -> own_answers (pre ++ [l]) e.
Proof.
  destruct e as [[i tag] [|obj v]]; [intros []|]. cbn [own_answers]. intros [(A & B & s & I) | (bf & du & la & sel & ot & E & R)].
  - left. split; [exact A|]. split; [exact B|]. exists s. apply in_or_app. auto.
  - right. exists bf, du, (la ++ [l]), sel, ot. split; [|exact R]. rewrite E, <- !app_assoc. cbn. rewrite <- app_assoc. reflexivity.
Qed.
(** answers in the hands of the readers *)
Definition hand (tag : option Z) (r : RPC) : list Msg :=
  match r with
  | RTest t x => if match_tag tag t x then [x] else []
  | RLoad x | RAppend _ x => [x]
  | RIdle | RDone _ => []
  end.
Definition listed (m : Modem) : list Msg := nth (m_resp m) (m_heap m) [].
Definition tidy (m : Modem) (r : RPC) : Prop :=
  match r with RAppend q _ => q = m_resp m | RDone x => In x (listed m) | _ => True end.
Definition collecting (pre : list CrowdLabel) (m : Modem) (rs : list RPC) (i : nat) (tag : option Z) : Prop :=
  exists during sel, began pre i tag true during /\ m_tag m = tag /\ answers_in tag (taken during) sel
  /\ Permutation (listed m ++ flat_map (hand tag) rs) sel /\ Forall (tidy m) rs
  /\ (m_completed m = true -> some_completed (listed m)).
Definition fresh (pre : list CrowdLabel) (rs : list RPC) (i : nat) (tag : option Z) (sync : bool) : Prop :=
  exists during, began pre i tag sync during /\ taken during = [] /\ Forall (eq RIdle) rs.
Definition stage (pre : list CrowdLabel) (m : Modem) (rs : list RPC) (i : nat) (p : MPC) : Prop :=
  match p with
  | Running AIdle => True
  | Running (AResetList tag sync) => fresh pre rs i tag sync
  | Running (AResetTag tag sync) => fresh pre rs i tag sync /\ listed m = []
  | Running (AResetCompleted tag sync) => fresh pre rs i tag sync /\ listed m = [] /\ m_tag m = None
  | Asserting tag => fresh pre rs i tag true /\ listed m = [] /\ m_tag m = None /\ m_completed m = false
  | Running (ASetTag tag) => fresh pre rs i tag true /\ listed m = [] /\ m_completed m = false
  | Running (AWrite tag true) | Running (AWait tag) | Running (ATest tag) => collecting pre m rs i tag
  | Running (AWrite tag false) => exists during, began pre i tag false during
  | Running (AReturn tag) => collecting pre m rs i tag /\ m_completed m = true
  end.
Definition Turn (pre : list CrowdLabel) (w : Crowd) : Prop :=
  m_skip (cr_m w) = false /\ (m_resp (cr_m w) < length (m_heap (cr_m w)))%nat
  /\ (exists i, (forall j p, j <> i -> nth_error (cr_t w) j = Some p -> p = Running AIdle)
        /\ (forall p, nth_error (cr_t w) i = Some p -> stage pre (cr_m w) (cr_r w) i p))
  /\ Forall (own_answers pre) (cr_log w).

Lemma response_match m t x : m_skip m = false -> is_response m t x = match_tag (m_tag m) t x.
Proof. intro S. destruct x as [z|l|c]; cbn; rewrite ?S; reflexivity. Qed.
(** readers change only these things *)
Lemma stage_reader pre m rs i p j r r' m' l :
  stage pre m rs i p -> nth_error rs j = Some r -> m_skip m = false -> (m_resp m < length (m_heap m))%nat ->
  (exists t x, l = NArrive j t x) \/ l = NReader j ->
  ((exists t x, l = NArrive j t x) -> setting_up p = false) ->
  step (mkWorld m r AIdle []) (erase (for_one l)) = Some (mkWorld m' r' AIdle []) ->
  stage (pre ++ [l]) m' (set_nth j r' rs) i p.
Proof.
  intros G N Sk B K A S.
  assert (NC : forall i t s, l <> NCall i t s) by (intros; destruct K as [(t0 & x0 & ->)| ->]; discriminate).
  (* no reader may be busy during the set-up *)
  assert (Q : forall tag sync, fresh pre rs i tag sync -> setting_up p = true -> False).
  { intros tag sync (du & _ & _ & F) U. rewrite Forall_forall in F. assert (r = RIdle) by (symmetry; apply F; eapply nth_error_In; exact N). subst r.
    destruct K as [K|K]; [rewrite (A K) in U; discriminate|]. subst l. discriminate S. }
  assert (C : forall tag, collecting pre m rs i tag -> collecting (pre ++ [l]) m' (set_nth j r' rs) i tag
                          /\ (m_completed m = true -> m_completed m' = true)).
  { intros tag (du & sel & Bg & T & An & P & F & Co).
    assert (Fr : tidy m r) by (rewrite Forall_forall in F; apply F; eapply nth_error_In; exact N).
    assert (Hs : exists a b, flat_map (hand tag) rs = a ++ hand tag r ++ b /\ flat_map (hand tag) (set_nth j r' rs) = a ++ hand tag r' ++ b).
    { exists (flat_map (hand tag) (firstn j rs)), (flat_map (hand tag) (skipn (Datatypes.S j) rs)). split.
      - rewrite (split_nth _ _ _ N) at 1. rewrite flat_map_app. reflexivity.
      - unfold set_nth. rewrite flat_map_app. reflexivity. }
    destruct Hs as (a & b & H1 & H2). rewrite H1 in P. unfold collecting. rewrite H2.
    destruct K as [(t & x & ->)| ->]; cbn [for_one erase] in S; unfold step in S; cbn [w_m w_r w_a w_rets] in S.
    - destruct r; try discriminate. injection S as <- <-. split; [|auto]. exists (du ++ [NArrive j t x]), (sel ++ if match_tag tag t x then [x] else []).
      split; [apply began_more; assumption|]. split; [exact T|]. split; [rewrite taken_app; apply answers_snoc; exact An|].
      split; [|split; [apply forall_set; [exact F | exact I] | exact Co]]. cbn [hand app] in *. rewrite <- P.
      rewrite <- !app_assoc. do 2 apply Permutation_app_head. apply Permutation_app_comm.
    - destruct r as [|t x|x|q x|x]; [discriminate| | | |].
      + rewrite (response_match _ _ _ Sk), T in S. cbn [hand] in P. destruct (match_tag tag t x) eqn:Mt; injection S as <- <-.
        * split; [|auto]. exists (du ++ [NReader j]), sel. split; [apply began_more; assumption|]. split; [exact T|].
          split; [rewrite taken_app, app_nil_r; exact An|]. split; [exact P|]. split; [apply forall_set; [exact F | exact I] | exact Co].
        * destruct (dispatch_other_sync m t x) as (E1 & E2 & E3 & E4 & E5). unfold listed. rewrite E2, E3, E5. split; [|auto].
          exists (du ++ [NReader j]), sel. split; [apply began_more; assumption|]. rewrite E4. split; [exact T|].
          split; [rewrite taken_app, app_nil_r; exact An|]. split; [exact P|]. split; [|exact Co].
          apply forall_set; [|exact I]. eapply Forall_impl; [|exact F]. intros [] H; cbn in *; unfold listed; rewrite ?E2, ?E3; exact H.
      + injection S as <- <-. split; [|auto]. exists (du ++ [NReader j]), sel. split; [apply began_more; assumption|]. split; [exact T|].
        split; [rewrite taken_app, app_nil_r; exact An|]. split; [exact P|]. split; [apply forall_set; [exact F | reflexivity] | exact Co].
      + injection S as <- <-. cbn [tidy] in Fr. subst q. split; [|auto].
        assert (Li : listed (set_sync m (heap_append (m_heap m) (m_resp m) x) (m_resp m) (m_tag m) (m_completed m)) = listed m ++ [x]).
        { unfold listed. cbn [set_sync m_resp m_heap]. apply heap_append_same. exact B. }
        exists (du ++ [NReader j]), sel. rewrite Li. split; [apply began_more; assumption|]. split; [exact T|].
        split; [rewrite taken_app, app_nil_r; exact An|]. cbn [hand app] in *. split; [|split].
        * rewrite <- P, <- app_assoc. apply Permutation_app_head. cbn [app]. apply Permutation_middle.
        * apply forall_set; [|cbn [tidy]; rewrite Li; apply in_or_app; right; left; reflexivity].
          eapply Forall_impl; [|exact F]. intros [|t y|y|q y|y] H; cbn [tidy] in *; try exact I; [exact H | rewrite Li; apply in_or_app; left; exact H].
        * intro H. cbn [set_sync m_completed] in H. destruct (Co H) as (c & I1 & I2). exists c. split; [apply in_or_app; left; exact I1 | exact I2].
      + injection S as <- <-. cbn [tidy] in Fr. cbn [hand app] in P.
        assert (E : m_tag (if msg_completed x then set_sync m (m_heap m) (m_resp m) (m_tag m) true else m) = m_tag m
          /\ listed (if msg_completed x then set_sync m (m_heap m) (m_resp m) (m_tag m) true else m) = listed m
          /\ m_resp (if msg_completed x then set_sync m (m_heap m) (m_resp m) (m_tag m) true else m) = m_resp m)
          by (destruct (msg_completed x); auto). destruct E as (E1 & E2 & E3). rewrite E1, E2.
        split; [|intro H; destruct (msg_completed x); [reflexivity | exact H]].
        exists (du ++ [NReader j]), sel. split; [apply began_more; assumption|]. split; [exact T|].
        split; [rewrite taken_app, app_nil_r; exact An|]. split; [exact P|]. split.
        * apply forall_set; [|exact I]. eapply Forall_impl; [|exact F]. intros [|t y|y|q y|y] H; cbn [tidy] in *; try exact I; rewrite ?E2, ?E3; exact H.
        * intro H. destruct (msg_completed x) eqn:Mc; [|exact (Co H)]. destruct x as [z|l|c]; try discriminate. exists c. split; [exact Fr | exact Mc]. }
  destruct p as [[|tag s|tag s|tag s|tag|tag [|]|tag|tag|tag]|tag]; cbn [stage] in *.
  - exact I.
  - exfalso. eapply Q; [exact G | reflexivity].
  - exfalso. destruct G as [G _]. eapply Q; [exact G | reflexivity].
  - exfalso. destruct G as [G _]. eapply Q; [exact G | reflexivity].
  - exfalso. destruct G as [G _]. eapply Q; [exact G | reflexivity].
  - apply C. exact G.
  - destruct G as [du G]. exists (du ++ [l]). apply began_more; assumption.
  - apply C. exact G.
  - apply C. exact G.
  - destruct G as [G H]. split; [apply C; exact G | apply (C tag G); exact H].
  - exfalso. destruct G as [G _]. eapply Q; [exact G | reflexivity].
Qed.
Lemma fresh_more pre rs i tag sync l : fresh pre rs i tag sync -> (forall i t s, l <> NCall i t s) -> taken [l] = [] -> fresh (pre ++ [l]) rs i tag sync.
Proof.
  intros (du & Bg & T & F) N L. exists (du ++ [l]). split; [apply began_more; assumption|]. split; [rewrite taken_app, T; exact L | exact F].
Qed.
Lemma collecting_more pre m rs i tag l : collecting pre m rs i tag -> (forall i t s, l <> NCall i t s) -> taken [l] = [] -> collecting (pre ++ [l]) m rs i tag.
Proof.
  intros (du & sel & Bg & R) N L. exists (du ++ [l]), sel. split; [apply began_more; assumption|]. rewrite taken_app, L, app_nil_r. exact R.
Qed.
Lemma idle_hand tag rs : Forall (eq RIdle) rs -> flat_map (hand tag) rs = [] /\ forall m, Forall (tidy m) rs.
Proof. induction 1 as [|r rs <- _ [IH1 IH2]]; [split; [reflexivity | constructor]|]. split; [exact IH1 | constructor; [exact I | apply IH2]]. Qed.
Lemma start_collecting pre m rs i tag : fresh pre rs i tag true -> listed m = [] -> m_completed m = false -> m_tag m = tag -> collecting pre m rs i tag.
Proof.
  intros (du & Bg & T & F) L C Tg. destruct (idle_hand tag rs F) as [H1 H2]. exists du, []. split; [exact Bg|]. split; [exact Tg|].
  rewrite T, L, H1. split; [constructor|]. split; [constructor|]. split; [apply H2 | congruence].
Qed.
Lemma collected_answers pre m rs i tag obj : collecting pre m rs i tag -> m_completed m = true -> own_answers pre (i, tag, Returned obj (listed m)).
Proof.
  intros (du & sel & (bf & -> & N) & T & An & P & F & Co) C. cbn [own_answers]. right. exists bf, du, [], sel, (flat_map (hand tag) rs).
  rewrite app_nil_r. auto 10.
Qed.
Lemma called_empty pre i tag sync du : began pre i tag sync du -> own_answers pre (i, tag, Returned None []).
Proof. intros (bf & -> & N). cbn [own_answers]. left. split; [reflexivity|]. split; [reflexivity|]. exists sync. apply in_or_app. right. left. reflexivity. Qed.

(** a step of the thread that is in a call *)
Lemma stage_thread pre m rs i p l ts lg v : m_skip m = false -> (m_resp m < length (m_heap m))%nat -> stage pre m rs i p ->
  nth_error ts i = Some p -> l = NThread i \/ l = NTimeout i -> mstep (mkMW m RIdle ts lg) (for_one l) = Some v ->
  m_skip (mw_m v) = false /\ (m_resp (mw_m v) < length (m_heap (mw_m v)))%nat
  /\ exists q ends, mw_t v = set_nth i q ts /\ mw_log v = lg ++ ends /\ stage (pre ++ [l]) (mw_m v) rs i q /\ Forall (own_answers (pre ++ [l])) ends.
Proof.
  intros Sk B G N K M.
  assert (NC : forall i t s, l <> NCall i t s) by (intros; destruct K as [-> | ->]; discriminate).
  assert (Ta : taken [l] = []) by (destruct K as [-> | ->]; reflexivity).
  assert (FM : forall tag s, fresh pre rs i tag s -> fresh (pre ++ [l]) rs i tag s) by (intros; apply fresh_more; assumption).
  assert (CM : forall tag, collecting pre m rs i tag -> collecting (pre ++ [l]) m rs i tag) by (intros; apply collecting_more; assumption).
  destruct K as [-> | ->]; cbn [for_one mstep mw_t mw_m mw_r mw_log] in M; rewrite N in M.
  - destruct p as [[|tag s|tag s|tag s|tag|tag s|tag|tag|tag]|tag]; cbn [stage] in G; try discriminate M.
    + unfold call_step in M. cbn in M. injection M as <-. cbn [mw_m mw_t mw_log m_skip m_resp m_heap set_sync].
      split; [exact Sk|]. split; [rewrite app_length; cbn; lia|]. eexists. eexists. split; [reflexivity|]. split; [reflexivity|]. split; [|constructor].
      cbn [stage]. split; [apply FM; exact G|]. unfold listed. cbn [set_sync m_resp m_heap]. apply nth_new.
    + unfold call_step in M. cbn in M. injection M as <-. cbn [mw_m mw_t mw_log m_skip m_resp m_heap set_sync].
      split; [exact Sk|]. split; [exact B|]. eexists. eexists. split; [reflexivity|]. split; [reflexivity|]. split; [|constructor].
      cbn [stage]. destruct G as [G1 G2]. split; [apply FM; exact G1|]. split; [exact G2 | reflexivity].
    + destruct G as (G1 & G2 & G3). destruct s.
      * injection M as <-. cbn [mw_m mw_t mw_log m_skip m_resp m_heap set_sync]. split; [exact Sk|]. split; [exact B|]. eexists. exists [].
        split; [reflexivity|]. split; [rewrite app_nil_r; reflexivity|]. split; [|constructor]. cbn [stage]. split; [apply FM; exact G1|]. auto.
      * unfold call_step in M. cbn in M. injection M as <-. cbn [mw_m mw_t mw_log m_skip m_resp m_heap set_sync]. split; [exact Sk|]. split; [exact B|].
        eexists. eexists. split; [reflexivity|]. split; [reflexivity|]. split; [|constructor]. cbn [stage]. destruct (FM _ _ G1) as (du & Bg & _). exists du. exact Bg.
    + unfold call_step in M. cbn in M. injection M as <-. cbn [mw_m mw_t mw_log m_skip m_resp m_heap set_sync]. split; [exact Sk|]. split; [exact B|].
      destruct G as (G1 & G2 & G3). eexists. eexists. split; [reflexivity|]. split; [reflexivity|]. split; [|constructor]. cbn [stage].
      apply start_collecting; [apply FM; exact G1 | exact G2 | exact G3 | reflexivity].
    + unfold call_step in M. destruct s; cbn in M; injection M as <-; cbn [mw_m mw_t mw_log]; (split; [exact Sk|]); (split; [exact B|]);
        eexists; eexists; (split; [reflexivity|]); (split; [reflexivity|]).
      * split; [|constructor]. cbn [stage]. apply CM. exact G.
      * split; [exact I|]. destruct G as [du G]. constructor; [|constructor]. eapply called_empty. apply began_more; [exact G | exact NC].
    + unfold call_step in M. cbn in M. destruct (m_completed m); injection M as <-; cbn [mw_m mw_t mw_log]; (split; [exact Sk|]); (split; [exact B|]);
        eexists; eexists; (split; [reflexivity|]); (split; [reflexivity|]); (split; [|constructor]); cbn [stage]; apply CM; exact G.
    + unfold call_step in M. cbn in M. destruct (m_completed m) eqn:Co; injection M as <-; cbn [mw_m mw_t mw_log]; (split; [exact Sk|]); (split; [exact B|]);
        eexists; eexists; (split; [reflexivity|]); (split; [reflexivity|]).
      * split; [|constructor]. cbn [stage]. split; [apply CM; exact G | exact Co].
      * split; [exact I|]. destruct (CM _ G) as (du & sel & Bg & _). constructor; [|constructor]. eapply called_empty. exact Bg.
    + unfold call_step in M. cbn in M. injection M as <-. cbn [mw_m mw_t mw_log]. split; [exact Sk|]. split; [exact B|]. destruct G as [G Co].
      eexists. eexists. split; [reflexivity|]. split; [reflexivity|]. split; [exact I|]. constructor; [|constructor].
      cbn [fst snd]. eapply (collected_answers _ m); [apply CM; exact G | exact Co].
    + destruct G as (G1 & G2 & G3 & G4). rewrite G3 in M. injection M as <-. cbn [mw_m mw_t mw_log]. split; [exact Sk|]. split; [exact B|].
      eexists. exists []. split; [reflexivity|]. split; [rewrite app_nil_r; reflexivity|]. split; [|constructor]. cbn [stage]. split; [apply FM; exact G1 | auto].
  - destruct p as [[|tag s|tag s|tag s|tag|tag s|tag|tag|tag]|tag]; cbn [stage] in G; unfold call_step in M; cbn in M; try discriminate M.
    injection M as <-. cbn [mw_m mw_t mw_log]. split; [exact Sk|]. split; [exact B|].
    eexists. eexists. split; [reflexivity|]. split; [reflexivity|]. split; [|constructor]. cbn [stage]. apply CM. exact G.
Qed.
Lemma turn_step pre w l w1 : Turn pre w -> in_turn w l -> crowd_step w l = Some w1 -> Turn (pre ++ [l]) w1.
Proof.
  intros (Sk & B & (i & O & G) & F) U E.
  assert (F' : Forall (own_answers (pre ++ [l])) (cr_log w)) by (eapply Forall_impl; [|exact F]; intro e; apply own_more).
  pose proof E as E0. apply crowd_cases in E. destruct E as [(j & r & v & N & K & M & ->) | (v & Ta & M & N1 & N2 & ->)].
  - (* a reader *)
    assert (S : exists m' r', step (mkWorld (cr_m w) r AIdle []) (erase (for_one l)) = Some (mkWorld m' r' AIdle [])
                /\ v = mkMW m' r' (cr_t w) (cr_log w)).
    { apply mstep_cases in M. cbn [mw_m mw_r mw_t mw_log] in M. destruct M as [[_ (u & S & ->)] | [(q & a & u & _ & K' & _) | (q & tag & K' & _)]].
      - destruct u as [m' r' a' rets]. assert (a' = AIdle /\ rets = []) as [-> ->].
        { destruct K as [(t & x & ->)| ->]; cbn [for_one erase] in S.
          - unfold step in S. cbn [w_r w_m w_a w_rets] in S. destruct r; try discriminate. injection S as _ _ <- <-. auto.
          - apply reader_static in S. cbn in S. destruct S as (E1 & E2 & _). auto. }
        exists m', r'. split; [exact S | reflexivity].
      - exfalso. destruct K as [(t & x & ->)| ->]; cbn [for_one] in K'; destruct K' as [(? & ? & ?)|[?|?]]; discriminate.
      - exfalso. destruct K as [(t & x & ->)| ->]; discriminate. }
    destruct S as (m' & r' & S & ->). cbn [mw_m mw_r mw_t mw_log].
    assert (St : m_skip m' = false /\ (m_resp m' < length (m_heap m'))%nat).
    { destruct K as [(t & x & ->)| ->]; cbn [for_one erase] in S.
      - unfold step in S. cbn [w_r w_m w_a w_rets] in S. destruct r; try discriminate. injection S as <- _. auto.
      - apply reader_static in S. cbn [w_m] in S. destruct S as (_ & _ & E1 & E2 & E3 & _). rewrite E1, E2, E3. auto. }
    destruct St as [Sk' B']. split; [exact Sk'|]. split; [exact B'|]. split; [|exact F']. exists i. cbn [cr_t cr_m cr_r]. split; [exact O|].
    intros p Np. eapply stage_reader; [exact (G p Np) | exact N | exact Sk | exact B | exact K | | exact S].
    intros (t & x & ->). cbn [in_turn] in U. destruct (setting_up p) eqn:Q; [|reflexivity].
    assert (X : existsb setting_up (cr_t w) = true) by (apply existsb_exists; exists p; split; [eapply nth_error_In; exact Np | exact Q]). congruence.
  - destruct l as [j t x|j|k tag sync|k|k]; [discriminate Ta | exfalso; apply N1; reflexivity | | |].
    + (* a call begins *)
      cbn [in_turn] in U. destruct U as [UF UR]. cbn [for_one mstep mw_t mw_m mw_r mw_log] in M.
      destruct (nth_error (cr_t w) k) as [[a|tg]|] eqn:Nk; try discriminate.
      assert (a = AIdle) as ->. { apply nth_error_In in Nk. rewrite Forall_forall in UF. specialize (UF _ Nk). congruence. }
      unfold call_step in M. cbn in M. injection M as <-. cbn [mw_m mw_t mw_log].
      split; [exact Sk|]. split; [exact B|]. split; [|rewrite app_nil_r; exact F']. exists k. cbn [cr_t cr_m cr_r]. split.
      * intros j p J H. destruct (nth_set _ _ _ _ _ _ Nk H) as [[-> _] | [_ H']]; [congruence|].
        apply nth_error_In in H'. rewrite Forall_forall in UF. symmetry. exact (UF _ H').
      * intros p H. rewrite (nth_set_same _ _ _ _ Nk) in H. injection H as <-. cbn [stage]. exists []. split; [|split; [reflexivity | exact UR]].
        exists pre. rewrite Sk, Bool.andb_true_r. split; [reflexivity | intros ? ? ? []].
    + assert (Nk : exists p, nth_error (cr_t w) k = Some p).
      { cbn [for_one mstep mw_t] in M. destruct (nth_error (cr_t w) k) as [p|]; [eauto | discriminate]. }
      destruct Nk as [p Nk]. assert (k = i) as ->.
      { destruct (Nat.eq_dec k i) as [Q|Q]; [exact Q|]. rewrite (O k p Q Nk) in Nk. cbn [for_one mstep mw_t] in M. rewrite Nk in M. discriminate. }
      destruct (stage_thread pre (cr_m w) (cr_r w) i p (NThread i) (cr_t w) (cr_log w) v Sk B (G p Nk) Nk (or_introl eq_refl) M) as (Sk' & B' & q & ends & E1 & E2 & St & Fe).
      split; [exact Sk'|]. split; [exact B'|]. cbn [cr_t cr_m cr_r cr_log]. rewrite E1, E2. split; [|apply Forall_app; auto].
      exists i. split; [intros j p' J H; destruct (nth_set _ _ _ _ _ _ Nk H) as [[-> _] | [_ H']]; [congruence | exact (O j p' J H')]|].
      intros p' H. rewrite (nth_set_same _ _ _ _ Nk) in H. injection H as <-. exact St.
    + assert (Nk : exists p, nth_error (cr_t w) k = Some p).
      { cbn [for_one mstep mw_t] in M. destruct (nth_error (cr_t w) k) as [p|]; [eauto | discriminate]. }
      destruct Nk as [p Nk]. assert (k = i) as ->.
      { destruct (Nat.eq_dec k i) as [Q|Q]; [exact Q|]. rewrite (O k p Q Nk) in Nk. cbn [for_one mstep mw_t] in M. rewrite Nk in M. discriminate. }
      destruct (stage_thread pre (cr_m w) (cr_r w) i p (NTimeout i) (cr_t w) (cr_log w) v Sk B (G p Nk) Nk (or_intror eq_refl) M) as (Sk' & B' & q & ends & E1 & E2 & St & Fe).
      split; [exact Sk'|]. split; [exact B'|]. cbn [cr_t cr_m cr_r cr_log]. rewrite E1, E2. split; [|apply Forall_app; auto].
      exists i. split; [intros j p' J H; destruct (nth_set _ _ _ _ _ _ Nk H) as [[-> _] | [_ H']]; [congruence | exact (O j p' J H')]|].
      intros p' H. rewrite (nth_set_same _ _ _ _ Nk) in H. injection H as <-. exact St.
Qed.
Lemma turn_expected cb rbcb conn k n ls w : calls_in_turn (new_crowd cb rbcb conn k n) ls w -> Forall (own_answers ls) (cr_log w).
Proof.
  assert (G : forall w0 ls w1, calls_in_turn w0 ls w1 -> forall pre, Turn pre w0 -> Turn (pre ++ ls) w1).
  { induction 1 as [w0|w0 l w2 ls0 w3 U E H IH]; intros pre I0; [rewrite app_nil_r; exact I0|].
    change (l :: ls0) with ([l] ++ ls0). rewrite app_assoc. apply IH. eapply turn_step; eauto. }
  intro H. assert (S0 : Turn [] (new_crowd cb rbcb conn k n)).
  { split; [reflexivity|]. split; [cbn; lia|]. split; [|constructor]. exists 0%nat. split; intros; cbn [new_crowd cr_t new_mworld mw_t] in *.
    - eapply idle_threads. eassumption.
    - assert (p = Running AIdle) as -> by (eapply idle_threads; eassumption). exact I. }
  destruct (G _ _ _ H [] S0) as (_ & _ & _ & F). exact F.
Qed.
