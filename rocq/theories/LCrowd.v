(** C105: several readers and several threads in [execute_command]; any schedule. *)
From Coq Require Import Lia Arith.
From Verif Require Import Bits MThreads LThreads SCrowd LModem LSched LSync.
Open Scope Z_scope.

Lemma crowd_ind (P : list CrowdLabel -> Crowd -> Prop) :
  (forall pre w l w1, P pre w -> crowd_step w l = Some w1 -> P (pre ++ [l]) w1) ->
  forall ls pre w w1, P pre w -> crowd_run w ls = Some w1 -> P (pre ++ ls) w1.
Proof.
  intros S. induction ls as [|l ls IH]; intros pre w w1 H E; [injection E as <-; rewrite app_nil_r; exact H|].
  cbn [crowd_run] in E. destruct (crowd_step w l) as [w2|] eqn:M; [|discriminate].
  change (l :: ls) with ([l] ++ ls). rewrite app_assoc. eapply IH; [|exact E]. eapply S; eauto.
Qed.
(** every step is one of [MSync] with one of the readers *)
Lemma crowd_cases w l w1 : crowd_step w l = Some w1 ->
  (exists j r v, nth_error (cr_r w) j = Some r /\ ((exists t x, l = NArrive j t x) \/ l = NReader j)
     /\ mstep (mkMW (cr_m w) r (cr_t w) (cr_log w)) (for_one l) = Some v
     /\ w1 = mkCrowd (mw_m v) (set_nth j (mw_r v) (cr_r w)) (mw_t v) (mw_log v))
  \/ (exists v, taken [l] = [] /\ mstep (mkMW (cr_m w) RIdle (cr_t w) (cr_log w)) (for_one l) = Some v
     /\ (for_one l <> MReader) /\ (forall t x, for_one l <> MArrive t x)
     /\ w1 = mkCrowd (mw_m v) (cr_r w) (mw_t v) (mw_log v)).
Proof.
  intro E. destruct l as [j t x|j|i tag sync|i|i]; cbn [crowd_step] in E; unfold crowd_reader, crowd_thread in E; cbn [for_one].
  - left. destruct (nth_error (cr_r w) j) as [r|] eqn:N; [|discriminate]. destruct (mstep _ _) as [v|] eqn:M; [|discriminate].
    injection E as <-. exists j, r, v. eauto 10.
  - left. destruct (nth_error (cr_r w) j) as [r|] eqn:N; [|discriminate]. destruct (mstep _ _) as [v|] eqn:M; [|discriminate].
    injection E as <-. exists j, r, v. eauto 10.
  - right. destruct (mstep _ _) as [v|] eqn:M; [|discriminate]. injection E as <-. exists v. repeat split; discriminate.
  - right. destruct (mstep _ _) as [v|] eqn:M; [|discriminate]. injection E as <-. exists v. repeat split; discriminate.
  - right. destruct (mstep _ _) as [v|] eqn:M; [|discriminate]. injection E as <-. exists v. repeat split; discriminate.
Qed.
Lemma thread_reader w l v : mstep w l = Some v -> l <> MReader -> (forall t x, l <> MArrive t x) -> mw_r v = mw_r w.
Proof.
  intros E N1 N2. apply mstep_cases in E. destruct E as [[K _] | [(i & a & u & _ & K & S & C) | (i & tag & _ & _ & C)]].
  - destruct K as [(t & x & ->)| ->]; [exfalso; eapply N2; reflexivity | contradiction].
  - assert (R : w_r u = mw_r w).
    { eapply thread_static; [exact S | |]; destruct K as [(tag & sync & ->) | [-> | ->]]; discriminate. }
    destruct C as [(_ & ->) | (tag & _ & _ & _ & _ & ->)]; exact R.
  - destruct C as [(_ & ->) | (_ & ->)]; reflexivity.
Qed.
Lemma forall_firstn {A} (P : A -> Prop) n : forall l, Forall P l -> Forall P (firstn n l) /\ Forall P (skipn n l).
Proof. intros l F. rewrite <- (firstn_skipn n l) in F. apply Forall_app in F. exact F. Qed.
Lemma forall_set {A} (P : A -> Prop) x l i : Forall P l -> P x -> Forall P (set_nth i x l).
Proof.
  intros F H. unfold set_nth. apply Forall_app. split; [apply forall_firstn; exact F|]. constructor; [exact H | apply (forall_firstn P (S i)); exact F].
Qed.
Lemma split_nth {A} : forall (l : list A) i x, nth_error l i = Some x -> l = firstn i l ++ x :: skipn (S i) l.
Proof. induction l as [|y l IH]; intros [|i] x N; try discriminate; cbn [nth_error] in N; [injection N as ->; reflexivity|]. cbn [firstn skipn app]. f_equal. apply IH. exact N. Qed.
Lemma taken_arrived ls : arrived (map for_one ls) = taken ls.
Proof. induction ls as [|[] ls IH]; cbn; rewrite ?IH; reflexivity. Qed.
Lemma taken_app a b : taken (a ++ b) = taken a ++ taken b. Proof. apply flat_map_app. Qed.

(** * Returned messages *)
Definition CKnown (pre : list CrowdLabel) (w : Crowd) : Prop :=
  KInv (map for_one pre) (mkMW (cr_m w) RIdle (cr_t w) (cr_log w))
  /\ Forall (reader_known (map erase (map for_one pre))) (cr_r w).
Lemma kinv_reader pre m r r' ts lg : KInv pre (mkMW m r ts lg) -> reader_known (map erase pre) r' -> KInv pre (mkMW m r' ts lg).
Proof. intros ((T & A & R & H & F) & B & C) K. repeat split; assumption. Qed.
Lemma known_step pre w l w1 : CKnown pre w -> crowd_step w l = Some w1 -> CKnown (pre ++ [l]) w1.
Proof.
  intros (K & F) E. apply crowd_cases in E. unfold CKnown. rewrite !map_app. cbn [map].
  assert (F' : Forall (reader_known (map erase (map for_one pre) ++ [erase (for_one l)])) (cr_r w)).
  { eapply Forall_impl; [|exact F]. intros r. apply reader_known_more. }
  destruct E as [(j & r & v & N & _ & M & ->) | (v & _ & M & N1 & N2 & ->)]; cbn [cr_m cr_r cr_t cr_log].
  - assert (K' : KInv (map for_one pre) (mkMW (cr_m w) r (cr_t w) (cr_log w))).
    { eapply kinv_reader; [exact K|]. rewrite Forall_forall in F. apply F. eapply nth_error_In. exact N. }
    pose proof (kinv_step _ _ _ _ K' M) as K2. destruct v as [m r' ts lg]. cbn [mw_m mw_r mw_t mw_log]. split.
    + eapply kinv_reader; [exact K2 | exact I].
    + apply forall_set; [exact F'|]. destruct K2 as ((_ & _ & R & _) & _). cbn [mw_r w_r] in R. rewrite map_app in R. exact R.
  - pose proof (kinv_step _ _ _ _ K M) as K2. destruct v as [m r' ts lg]. cbn [mw_m mw_r mw_t mw_log]. split; [|exact F'].
    eapply kinv_reader; [exact K2 | exact I].
Qed.
Lemma idle_all {A} (x : A) (P : A -> Prop) n : P x -> Forall P (repeat x n).
Proof. intro H. induction n; cbn; constructor; auto. Qed.
Lemma crowd_returned cb rbcb conn k n ls w i tag obj value x : crowd_run (new_crowd cb rbcb conn k n) ls = Some w ->
  In (i, tag, Returned obj value) (cr_log w) -> In x value -> crowd_known ls x.
Proof.
  intros E I1 I2. assert (K : CKnown ([] ++ ls) w).
  { apply (crowd_ind CKnown) with (w := new_crowd cb rbcb conn k n); [exact known_step | | exact E].
    split; [|apply idle_all; exact I]. split; [repeat split; cbn; auto; repeat constructor|]. split; [|constructor].
    intros j p H. apply idle_threads in H. subst. exact I. }
  destruct K as ((_ & _ & F) & _). rewrite Forall_forall in F. specialize (F _ I1). cbn in F. rewrite Forall_forall in F. specialize (F _ I2).
  apply mknown_erase in F. destruct F as (c & -> & (t & A & L) & T). exists c. split; [reflexivity|]. split.
  - exists t. split; [|exact L]. apply in_map_iff in A. destruct A as (l & El & A). destruct l; try discriminate. injection El as -> ->.
    unfold taken. apply in_flat_map. eexists. split; [exact A | left; reflexivity].
  - destruct T as [T|(q & T)]; [left; exact T|]. right. exists q. apply in_map_iff in T. destruct T as (l & El & T). destruct l; try discriminate.
    injection El as -> -> ->. exact T.
Qed.

(** * No message is lost or duplicated *)
Lemma alp_all l : alp_messages (arrived (map (MArrive 1) l)) = l.
Proof. induction l as [|x l IH]; [reflexivity|]. cbn [map arrived]. unfold alp_messages in *. cbn [filter fst Z.leb Z.compare Pos.compare Pos.compare_cont map snd]. f_equal. exact IH. Qed.
(** one step, by [pinv_step] with a made-up past *)
Lemma one_step w l w1 : mstep w l = Some w1 -> (m_resp (mw_m w) < length (m_heap (mw_m w)))%nat ->
  (forall r x, mw_r w = RAppend r x -> (r < length (m_heap (mw_m w)))%nat) ->
  (m_resp (mw_m w1) < length (m_heap (mw_m w1)))%nat
  /\ (forall r x, mw_r w1 = RAppend r x -> (r < length (m_heap (mw_m w1)))%nat)
  /\ Permutation (whereabouts w1) (whereabouts w ++ alp_messages (arrived [l])).
Proof.
  intros E B R. assert (P : PInv (map (MArrive 1) (whereabouts w)) w).
  { split; [exact B|]. split; [exact R|]. rewrite alp_all. apply Permutation_refl. }
  pose proof (pinv_step _ _ _ _ P E) as (B1 & R1 & P1). rewrite arrived_app, alp_messages_app, alp_all in P1. auto.
Qed.
Lemma heap_longer w l v : mstep w l = Some v -> (length (m_heap (mw_m w)) <= length (m_heap (mw_m v)))%nat.
Proof.
  intro E. apply mstep_cases in E. destruct E as [[K (u & S & ->)] | [(i & a & u & _ & K & S & C) | (i & tag & _ & _ & C)]].
  - cbn [mw_m]. destruct K as [(t & x & ->) | ->]; cbn [erase] in S.
    + unfold step in S. cbn [w_r w_m w_a w_rets] in S. destruct (mw_r w); try discriminate. injection S as <-. cbn. lia.
    + apply reader_static in S. cbn [w_m] in S. destruct S as (_ & _ & _ & _ & L & _). lia.
  - assert (L : (length (m_heap (mw_m w)) <= length (m_heap (w_m u)))%nat).
    { eapply thread_static; [exact S | |]; destruct K as [(tag & sync & ->) | [-> | ->]]; discriminate. }
    destruct C as [(_ & ->) | (tag & _ & _ & _ & _ & ->)]; exact L.
  - destruct C as [(_ & ->) | (_ & ->)]; cbn; lia.
Qed.
Definition within (m : Modem) (r : RPC) : Prop := match r with RAppend q _ => (q < length (m_heap m))%nat | _ => True end.
Definition CPlace (pre : list CrowdLabel) (w : Crowd) : Prop :=
  (m_resp (cr_m w) < length (m_heap (cr_m w)))%nat /\ Forall (within (cr_m w)) (cr_r w)
  /\ Permutation (everywhere w) (alp_messages (taken pre)).
Lemma held_set r' rs j r : nth_error rs j = Some r -> exists a b, flat_map held rs = a ++ held r ++ b
  /\ flat_map held (set_nth j r' rs) = a ++ held r' ++ b.
Proof.
  intro N. exists (flat_map held (firstn j rs)), (flat_map held (skipn (S j) rs)). split.
  - rewrite (split_nth _ _ _ N) at 1. rewrite flat_map_app. reflexivity.
  - unfold set_nth. rewrite flat_map_app. reflexivity.
Qed.
Lemma place_step pre w l w1 : CPlace pre w -> crowd_step w l = Some w1 -> CPlace (pre ++ [l]) w1.
Proof.
  intros (B & F & P) E. apply crowd_cases in E. unfold CPlace. rewrite taken_app, alp_messages_app.
  destruct E as [(j & r & v & N & K & M & ->) | (v & Ta & M & N1 & N2 & ->)]; cbn [cr_m cr_r cr_t cr_log].
  - pose proof (heap_longer _ _ _ M) as Lh. cbn [mw_m] in Lh.
    assert (Wr : within (cr_m w) r) by (rewrite Forall_forall in F; apply F; eapply nth_error_In; exact N).
    destruct (one_step _ _ _ M B) as (B1 & R1 & P1); [cbn [mw_r mw_m]; intros q x ->; exact Wr|].
    split; [exact B1|]. split.
    + apply forall_set.
      * eapply Forall_impl; [|exact F]. intros [] H; cbn in *; try exact H. lia.
      * unfold within. destruct (mw_r v) eqn:Q; try exact I. eapply R1. reflexivity.
    + destruct (held_set (mw_r v) _ _ _ N) as (a & b & E1 & E2). unfold everywhere in *. cbn [cr_m cr_r]. rewrite E2. rewrite E1 in P.
      assert (Ea : arrived [for_one l] = taken [l]) by (rewrite <- taken_arrived; reflexivity). rewrite Ea in P1.
      unfold whereabouts in P1. cbn [mw_m mw_r] in P1.
      set (X := concat (m_heap (mw_m v))) in *. set (Y := m_cb_calls (mw_m v)) in *. set (Z0 := m_unsol (mw_m v)) in *.
      set (X' := concat (m_heap (cr_m w))) in *. set (Y' := m_cb_calls (cr_m w)) in *. set (Z' := m_unsol (cr_m w)) in *.
      clearbody X Y Z0 X' Y' Z'. clear - P P1.
      transitivity ((X ++ Y ++ Z0 ++ held (mw_r v)) ++ (a ++ b)).
      { rewrite <- !app_assoc. do 3 apply Permutation_app_head. rewrite !app_assoc. apply Permutation_app_tail. apply Permutation_app_comm. }
      rewrite P1. transitivity ((X' ++ Y' ++ Z' ++ a ++ held r ++ b) ++ alp_messages (taken [l])); [|apply Permutation_app_tail; exact P].
      rewrite <- !app_assoc. do 3 apply Permutation_app_head.
      transitivity (held r ++ a ++ alp_messages (taken [l]) ++ b); [apply Permutation_app_head; apply Permutation_app_swap_app|].
      transitivity (a ++ held r ++ alp_messages (taken [l]) ++ b); [apply Permutation_app_swap_app|].
      do 2 apply Permutation_app_head. apply Permutation_app_comm.
  - pose proof (heap_longer _ _ _ M) as Lh. cbn [mw_m] in Lh.
    destruct (one_step _ _ _ M B) as (B1 & _ & P1); [discriminate|]. pose proof (thread_reader _ _ _ M N1 N2) as Er. cbn [mw_r] in Er.
    split; [exact B1|]. split; [eapply Forall_impl; [|exact F]; intros [] H; cbn in *; try exact H; lia|].
    rewrite Ta. change (alp_messages []) with (@nil Msg). rewrite app_nil_r.
    assert (Ea : arrived [for_one l] = []) by (rewrite <- Ta, <- taken_arrived; reflexivity). rewrite Ea in P1. change (alp_messages []) with (@nil Msg) in P1.
    unfold whereabouts in P1. rewrite Er in P1. cbn [held mw_m mw_r] in P1. rewrite !app_nil_r in P1.
    etransitivity; [|exact P]. unfold everywhere. cbn [cr_m cr_r]. rewrite !app_assoc. apply Permutation_app_tail. rewrite <- !app_assoc. exact P1.
Qed.
Lemma crowd_nothing_lost cb rbcb conn k n ls w : crowd_run (new_crowd cb rbcb conn k n) ls = Some w ->
  Permutation (everywhere w) (alp_messages (taken ls)).
Proof.
  intro E. assert (K : CPlace ([] ++ ls) w).
  { apply (crowd_ind CPlace) with (w := new_crowd cb rbcb conn k n); [exact place_step | | exact E].
    split; [cbn; lia|]. split; [apply idle_all; exact I|]. unfold everywhere. cbn [new_crowd cr_m cr_r].
    assert (H : flat_map held (repeat RIdle k) = []) by (clear; induction k; [reflexivity | exact IHk]). rewrite H. constructor. }
  apply K.
Qed.

(** * A call raises only because of another thread *)
Definition CRaise (pre : list CrowdLabel) (w : Crowd) : Prop := EInv (map for_one pre) (mkMW (cr_m w) RIdle (cr_t w) (cr_log w)).
Lemma raise_step pre w l w1 : CRaise pre w -> crowd_step w l = Some w1 -> CRaise (pre ++ [l]) w1.
Proof.
  intros K E. apply crowd_cases in E. unfold CRaise in *. rewrite map_app. cbn [map].
  destruct E as [(j & r & v & N & _ & M & ->) | (v & _ & M & N1 & N2 & ->)]; cbn [cr_m cr_r cr_t cr_log].
  - apply (einv_step (map for_one pre) (mkMW (cr_m w) r (cr_t w) (cr_log w)) _ v K M).
  - exact (einv_step _ _ _ _ K M).
Qed.
Lemma crowd_raises cb rbcb conn k n ls w i tag : crowd_run (new_crowd cb rbcb conn k n) ls = Some w ->
  In (i, tag, Raised) (cr_log w) -> exists j tag', j <> i /\ In (NCall j tag' true) ls.
Proof.
  intros E I0. assert (K : CRaise ([] ++ ls) w).
  { apply (crowd_ind CRaise) with (w := new_crowd cb rbcb conn k n); [exact raise_step | | exact E].
    split; [|intros ? ? []]. intros j p H. apply idle_threads in H. subst. split; discriminate. }
  destruct (proj2 K i tag I0) as (j & t & D & In0). exists j, t. split; [exact D|]. apply in_map_iff in In0. destruct In0 as (l & El & In0).
  destruct l; try discriminate. injection El as -> -> ->. exact In0.
Qed.

(** * One reader *)
Lemma crowd_one cb rbcb conn n ls : Forall by_first ls ->
  crowd_run (new_crowd cb rbcb conn 1 n) ls
  = match mrun (new_mworld cb rbcb conn n) (map for_one ls) with
    | Some v => Some (mkCrowd (mw_m v) [mw_r v] (mw_t v) (mw_log v))
    | None => None
    end.
Proof.
  intro F. change (new_crowd cb rbcb conn 1 n) with (let w := new_mworld cb rbcb conn n in mkCrowd (mw_m w) [mw_r w] (mw_t w) (mw_log w)).
  generalize (new_mworld cb rbcb conn n). induction F as [|l ls H _ IH]; intro w; [reflexivity|]. cbn zeta in *. destruct w as [m r ts lg].
  cbn [crowd_run map mrun mw_m mw_r mw_t mw_log].
  assert (S : crowd_step (mkCrowd m [r] ts lg) l = match mstep (mkMW m r ts lg) (for_one l) with
     | Some v => Some (mkCrowd (mw_m v) [mw_r v] (mw_t v) (mw_log v)) | None => None end).
  { assert (T : forall l', l' <> MReader -> (forall t x, l' <> MArrive t x) ->
      crowd_thread (mkCrowd m [r] ts lg) l' = match mstep (mkMW m r ts lg) l' with
        | Some v => Some (mkCrowd (mw_m v) [mw_r v] (mw_t v) (mw_log v)) | None => None end).
    { intros l' N1 N2. unfold crowd_thread. cbn [cr_m cr_t cr_log cr_r].
      destruct l' as [t x| |i tag sync|i|i]; [exfalso; eapply N2; reflexivity | contradiction | | |];
        cbn [mstep mw_t mw_m mw_r mw_log]; destruct (nth_error ts i) as [[a|tg]|]; try reflexivity; unfold call_step; cbn [mw_m mw_r mw_t mw_log].
      - destruct a; reflexivity.
      - destruct a as [|tag s|tag s|tag [|]|tag|tag s|tag|tag|tag]; cbn; try reflexivity; try (destruct s; reflexivity); destruct (m_completed m); reflexivity.
      - destruct (m_tag m); reflexivity.
      - destruct a; reflexivity. }
    destruct l as [j t x|j|i tag sync|i|i]; cbn [crowd_step for_one by_first] in *; try (apply T; discriminate);
      subst j; reflexivity. }
  rewrite S. destruct (mstep (mkMW m r ts lg) (for_one l)) as [v|]; [apply IH | reflexivity].
Qed.
