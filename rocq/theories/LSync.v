(** Several threads in [execute_command]. *)
From Coq Require Import Permutation.
From Verif Require Import Bits MThreads LThreads SSync SModem LModem LSched.

Definition erase (l : MLabel) : Label :=
  match l with
  | MArrive t x => LMsg t x
  | MReader => LReader
  | MCall _ tag sync => LExec tag sync
  | MThread _ => LApp
  | MTimeout _ => LGiveUp
  end.
Definition view (p : MPC) : APC := match p with Running a => a | Asserting tag => ASetTag tag end.

Lemma nth_set {A} (l : list A) i x y j z : nth_error l i = Some y -> nth_error (set_nth i x l) j = Some z ->
  (j = i /\ z = x) \/ (j <> i /\ nth_error l j = Some z).
Proof.
  intros E H. destruct (Nat.eq_dec j i) as [->|N].
  - left. rewrite (nth_set_same l i x y E) in H. injection H as ->. auto.
  - right. split; [exact N|]. rewrite (nth_set_other l i j x y E) in H by congruence. exact H.
Qed.
Lemma mrun_ind (P : list MLabel -> MWorld -> Prop) :
  (forall pre w l w1, P pre w -> mstep w l = Some w1 -> P (pre ++ [l]) w1) ->
  forall ls pre w w1, P pre w -> mrun w ls = Some w1 -> P (pre ++ ls) w1.
Proof.
  intros S. induction ls as [|l ls IH]; intros pre w w1 H E; [injection E as <-; rewrite app_nil_r; exact H|].
  cbn [mrun] in E. destruct (mstep w l) as [w2|] eqn:M; [|discriminate].
  change (l :: ls) with ([l] ++ ls). rewrite app_assoc. eapply IH; [|exact E]. eapply S; eauto.
Qed.

(** every step is a step of [MModem] by the reader or by one thread, except for
    the assertion *)
Lemma mstep_cases w l w1 : mstep w l = Some w1 ->
  ((exists t x, l = MArrive t x) \/ l = MReader)
  /\ (exists v, step (mkWorld (mw_m w) (mw_r w) AIdle []) (erase l) = Some v
      /\ w1 = mkMW (w_m v) (w_r v) (mw_t w) (mw_log w))
  \/ (exists i a v, nth_error (mw_t w) i = Some (Running a)
      /\ ((exists tag sync, l = MCall i tag sync) \/ l = MThread i \/ l = MTimeout i)
      /\ step (mkWorld (mw_m w) (mw_r w) a []) (erase l) = Some v
      /\ ((forall tag, a = AResetCompleted tag true -> l <> MThread i)
          /\ w1 = mkMW (w_m v) (w_r v) (set_nth i (Running (w_a v)) (mw_t w))
               (mw_log w ++ map (fun r => (i, fst (fst r), Returned (snd (fst r)) (snd r))) (w_rets v))
          \/ exists tag, l = MThread i /\ a = AResetCompleted tag true /\ w_a v = ASetTag tag /\ w_rets v = []
             /\ w1 = mkMW (w_m v) (w_r v) (set_nth i (Asserting tag) (mw_t w)) (mw_log w)))
  \/ (exists i tag, l = MThread i /\ nth_error (mw_t w) i = Some (Asserting tag)
      /\ ((m_tag (mw_m w) = None
           /\ w1 = mkMW (mw_m w) (mw_r w) (set_nth i (Running (ASetTag tag)) (mw_t w)) (mw_log w))
          \/ (m_tag (mw_m w) <> None
           /\ w1 = mkMW (mw_m w) (mw_r w) (set_nth i (Running AIdle) (mw_t w)) (mw_log w ++ [(i, tag, Raised)])))).
Proof.
  intro E. destruct l as [t x| |i tag sync|i|i]; cbn [mstep] in E.
  - left. split; [left; eauto|]. unfold reader_step in E. cbn [erase].
    destruct (step _ _) as [v|] eqn:S; [|discriminate]. injection E as <-. exists v. auto.
  - left. split; [auto|]. unfold reader_step in E. cbn [erase].
    destruct (step _ _) as [v|] eqn:S; [|discriminate]. injection E as <-. exists v. auto.
  - right. left. destruct (nth_error (mw_t w) i) as [[a|]|] eqn:N; try discriminate. unfold call_step in E. cbn [erase].
    destruct (step _ _) as [v|] eqn:S; [|discriminate]. injection E as <-. exists i, a, v. split; [exact N|].
    split; [left; eauto|]. split; [exact S|]. left. split; [discriminate | reflexivity].
  - destruct (nth_error (mw_t w) i) as [[a|tag]|] eqn:N; try discriminate.
    + right. left. exists i, a.
      assert (C : (forall tag, a = AResetCompleted tag true -> False) \/ exists tag, a = AResetCompleted tag true).
      { destruct a as [|t s|t s|t [|]|t|t s|t|t|t]; try (left; intros; discriminate). right. eauto. }
      destruct C as [C | (tag & ->)].
      * assert (E' : call_step w i a LApp = Some w1).
        { destruct a as [|t s|t s|t [|]|t|t s|t|t|t]; try exact E. exfalso. eapply C. reflexivity. }
        unfold call_step in E'. cbn [erase]. destruct (step _ _) as [v|] eqn:S; [|discriminate]. injection E' as <-.
        exists v. split; [exact N|]. split; [auto|]. split; [reflexivity|]. left. split; [|reflexivity].
        intros tag Q. exfalso. eapply C. exact Q.
      * injection E as <-. eexists. split; [exact N|]. split; [auto|]. split; [cbn; reflexivity|]. right.
        exists tag. repeat split.
    + right. right. exists i, tag. split; [reflexivity|]. split; [exact N|].
      destruct (m_tag (mw_m w)); injection E as <-; [right; split; [discriminate | reflexivity] | left; auto].
  - right. left. destruct (nth_error (mw_t w) i) as [[a|]|] eqn:N; try discriminate. unfold call_step in E. cbn [erase].
    destruct (step _ _) as [v|] eqn:S; [|discriminate]. injection E as <-. exists i, a, v. split; [exact N|].
    split; [auto|]. split; [exact S|]. left. split; [discriminate | reflexivity].
Qed.

(** ** Any schedule: returned messages are known *)
Definition log_known (ls : list Label) (e : nat * option Z * Outcome) : Prop :=
  match snd e with Raised => True | Returned _ v => Forall (known ls) v end.
Definition KInv (pre : list MLabel) (w : MWorld) : Prop :=
  let ls := map erase pre in
  AInv ls (mkWorld (mw_m w) (mw_r w) AIdle [])
  /\ (forall j p, nth_error (mw_t w) j = Some p -> app_known ls (view p))
  /\ Forall (log_known ls) (mw_log w).
Lemma ainv_idle ls m r a rets : AInv ls (mkWorld m r a rets) -> AInv ls (mkWorld m r AIdle []).
Proof. intros (T & A & R & H & F). repeat split; auto. constructor. Qed.
Lemma kinv_step pre w l w1 : KInv pre w -> mstep w l = Some w1 -> KInv (pre ++ [l]) w1.
Proof.
  intros (A & T & L) E. unfold KInv. rewrite map_app. cbn [map].
  assert (T' : forall j p, nth_error (mw_t w) j = Some p -> app_known (map erase pre ++ [erase l]) (view p)).
  { intros j p H. apply app_known_more. exact (T j p H). }
  assert (L' : Forall (log_known (map erase pre ++ [erase l])) (mw_log w)).
  { eapply Forall_impl; [|exact L]. intros [[i tag] [|obj v]]; [trivial|]. unfold log_known. cbn [snd]. intro F.
    eapply Forall_impl; [|exact F]. intros x. apply known_more. }
  apply mstep_cases in E. destruct E as [[_ (v & S & ->)] | [(i & a & v & N & _ & S & C) | (i & tag & -> & N & C)]]; cbn [mw_m mw_r mw_t mw_log].
  - split; [|auto]. pose proof (ainv_step _ _ _ _ A S) as A'. destruct v as [m r a' rets]. eapply ainv_idle. exact A'.
  - assert (A0 : AInv (map erase pre) (mkWorld (mw_m w) (mw_r w) a [])).
    { destruct A as (B1 & _ & B2 & B3 & B4). specialize (T i _ N). repeat split; assumption. }
    pose proof (ainv_step _ _ _ _ A0 S) as A'. destruct v as [m r a' rets]. cbn [w_m w_r w_a w_rets] in *.
    destruct C as [(_ & ->) | (tag & _ & _ & Ea & Er & ->)]; cbn [mw_m mw_r mw_t mw_log].
    + split; [eapply ainv_idle; exact A'|]. split.
      * intros j p H. destruct (nth_set _ _ _ _ _ _ N H) as [[_ ->] | [_ H']]; [|exact (T' j p H')]. apply A'.
      * apply Forall_app. split; [exact L'|]. destruct A' as (_ & _ & _ & _ & F). cbn [w_rets] in F.
        apply Forall_map. eapply Forall_impl; [|exact F]. intros [[tg o] v] H. exact H.
    + subst. split; [eapply ainv_idle; exact A'|]. split; [|exact L'].
      intros j p H. destruct (nth_set _ _ _ _ _ _ N H) as [[_ ->] | [_ H']]; [|exact (T' j p H')]. apply A'.
  - assert (A' : AInv (map erase pre ++ [erase (MThread i)]) (mkWorld (mw_m w) (mw_r w) AIdle [])).
    { destruct A as (B1 & _ & B2 & B3 & _). split; [apply issued_more; exact B1|]. split; [exact I|].
      split; [apply reader_known_more; exact B2|]. split; [|constructor].
      eapply Forall_impl; [|exact B3]. intros q Hq. eapply Forall_impl; [|exact Hq]. intros x. apply known_more. }
    destruct C as [(_ & ->) | (_ & ->)]; cbn [mw_m mw_r mw_t mw_log]; (split; [exact A'|]); split.
    + intros j p H. destruct (nth_set _ _ _ _ _ _ N H) as [[_ ->] | [_ H']]; [|exact (T' j p H')]. exact (T' _ _ N).
    + exact L'.
    + intros j p H. destruct (nth_set _ _ _ _ _ _ N H) as [[_ ->] | [_ H']]; [exact I | exact (T' j p H')].
    + apply Forall_app. split; [exact L' | constructor; [exact I | constructor]].
Qed.
Lemma idle_threads n j p : nth_error (repeat (Running AIdle) n) j = Some p -> p = Running AIdle.
Proof. intro H. apply nth_error_In in H. apply repeat_spec in H. exact H. Qed.
Lemma mknown_erase ls x : known (map erase ls) x -> mknown ls x.
Proof.
  intros (c & -> & (t & I & L) & T). exists c. split; [reflexivity|]. split.
  - exists t. split; [|exact L]. apply in_map_iff in I. destruct I as (l & E & I). destruct l; try discriminate.
    injection E as -> ->. exact I.
  - destruct T as [T|T]; [left; exact T|]. right. apply in_map_iff in T. destruct T as (l & E & I'). destruct l; try discriminate.
    injection E as -> ->. eauto.
Qed.
Lemma returned_known cb rbcb conn n ls w i tag obj value x : mrun (new_mworld cb rbcb conn n) ls = Some w ->
  In (i, tag, Returned obj value) (mw_log w) -> In x value -> mknown ls x.
Proof.
  intros E I1 I2. apply mknown_erase.
  assert (K : KInv ([] ++ ls) w).
  { apply (mrun_ind KInv) with (w := new_mworld cb rbcb conn n); [exact kinv_step | | exact E].
    split; [repeat split; cbn; auto; repeat constructor|]. split; [|constructor].
    intros j p H. apply idle_threads in H. subst. exact I. }
  destruct K as (_ & _ & F). rewrite Forall_forall in F. specialize (F _ I1). cbn in F. rewrite Forall_forall in F. exact (F _ I2).
Qed.

(** ** Any schedule: no message is lost or duplicated *)
Lemma concat_heap_append h : forall r x, (r < length h)%nat ->
  Permutation (concat (heap_append h r x)) (concat h ++ [x]).
Proof.
  induction h as [|l h IH]; intros r x H; [cbn in H; lia|]. destruct r; cbn [heap_append concat].
  - rewrite <- !app_assoc. apply Permutation_app_head. apply Permutation_app_comm.
  - rewrite <- app_assoc. apply Permutation_app_head. apply IH. cbn in H. lia.
Qed.
Definition PInv (pre : list MLabel) (w : MWorld) : Prop :=
  (m_resp (mw_m w) < length (m_heap (mw_m w)))%nat
  /\ (forall r x, mw_r w = RAppend r x -> (r < length (m_heap (mw_m w)))%nat)
  /\ Permutation (whereabouts w) (alp_messages (arrived pre)).
Lemma arrived_app a b : arrived (a ++ b) = arrived a ++ arrived b.
Proof. induction a as [|[] a IH]; cbn; rewrite ?IH; reflexivity. Qed.
Lemma alp_messages_app a b : alp_messages (a ++ b) = alp_messages a ++ alp_messages b.
Proof. unfold alp_messages. rewrite filter_app, map_app. reflexivity. Qed.
(** a thread changes only the synchronous state, and the heap only by a new
    empty list *)
Lemma thread_static m r a l v : step (mkWorld m r a []) l = Some v -> (forall t x, l <> LMsg t x) -> l <> LReader ->
  w_r v = r /\ m_cb_calls (w_m v) = m_cb_calls m /\ m_unsol (w_m v) = m_unsol m
  /\ concat (m_heap (w_m v)) = concat (m_heap m)
  /\ (length (m_heap m) <= length (m_heap (w_m v)))%nat
  /\ ((m_resp m < length (m_heap m))%nat -> (m_resp (w_m v) < length (m_heap (w_m v)))%nat).
Proof.
  intros E N1 N2. unfold step in E. cbn [w_m w_r w_a w_rets] in E.
  destruct l as [t x| |tag sync| |]; [exfalso; eapply N1; reflexivity | congruence | | |].
  - destruct a; try discriminate. injection E as <-. cbn. auto 10.
  - destruct a as [|tag s|tag s|tag s|tag|tag s|tag|tag|tag]; try discriminate;
      try (injection E as <-; cbn; auto 10; fail);
      try (destruct s; injection E as <-; cbn; auto 10; fail);
      try (destruct (m_completed m); injection E as <-; cbn; auto 10; fail).
    injection E as <-. cbn. rewrite app_length, concat_app. cbn. rewrite !app_nil_r. repeat split; try lia.
  - destruct a; try discriminate. injection E as <-. cbn. auto 10.
Qed.
Ltac perm_end :=
  rewrite <- ?app_assoc; cbn [app];
  repeat first [apply Permutation_app_head | apply Permutation_refl | (etransitivity; [apply Permutation_app_comm|]; rewrite <- ?app_assoc; cbn [app])].
Lemma pinv_step pre w l w1 : PInv pre w -> mstep w l = Some w1 -> PInv (pre ++ [l]) w1.
Proof.
  intros (B & R & P) E. apply mstep_cases in E. unfold PInv. rewrite arrived_app, alp_messages_app.
  destruct E as [[K (v & S & ->)] | [(i & a & v & N & K & S & C) | (i & tag & -> & N & C)]]; cbn [mw_m mw_r mw_t mw_log].
  - destruct w as [m r ts lg]. cbn [mw_m mw_r mw_t mw_log] in *. unfold whereabouts in *. cbn [mw_m mw_r] in *.
    destruct K as [(t & x & ->) | ->]; cbn [erase] in S; unfold step in S; cbn [w_m w_r w_a w_rets] in S.
    + destruct r; try discriminate. injection S as <-. cbn [w_m w_r]. split; [exact B|]. split; [discriminate|].
      cbn [arrived alp_messages filter fst held] in *. rewrite app_nil_r in P. unfold alp_messages at 2. cbn [filter fst].
      rewrite !app_assoc. rewrite <- !app_assoc. destruct (t <=? 3); cbn [map snd].
      * rewrite !app_assoc. apply Permutation_app_tail. rewrite <- app_assoc. exact P.
      * rewrite !app_nil_r. exact P.
    + cbn [arrived]. change (alp_messages []) with (@nil Msg). rewrite app_nil_r.
      destruct r as [|t x|x|r x|x]; [discriminate| | | |].
      * destruct (is_response m t x) eqn:IR; injection S as <-; cbn [w_m w_r held].
        -- split; [exact B|]. split; [discriminate|]. apply is_response_iff in IR. destruct IR as [Lt _].
           cbn [held] in P. replace (t <=? 3) with true in P by (symmetry; apply Z.leb_le; exact Lt). exact P.
        -- destruct (dispatch_other_sync m t x) as (E1 & E2 & E3 & E4 & E5). rewrite E2, E3. split; [exact B|].
           split; [discriminate|]. cbn [held] in P. etransitivity; [|exact P].
           unfold dispatch_other. destruct (t <=? 3) eqn:Q; rewrite ?andb_true_r, ?andb_false_r.
           ++ destruct (m_has_cb m && m_connected m); cbn [set_out m_cb_calls m_unsol].
              ** rewrite !app_nil_r, <- !app_assoc. do 2 apply Permutation_app_head. apply Permutation_app_comm.
              ** assert (t =? 5 = false) as -> by (apply Z.leb_le in Q; apply Z.eqb_neq; lia).
                 assert (t =? 4 = false) as -> by (apply Z.leb_le in Q; apply Z.eqb_neq; lia).
                 cbn [set_out m_cb_calls m_unsol]. rewrite app_nil_r. apply Permutation_refl.
           ++ destruct (t =? 5); [destruct (m_has_rbcb m) | destruct (t =? 4)]; cbn [set_out m_cb_calls m_unsol]; apply Permutation_refl.
      * injection S as <-. cbn [w_m w_r held] in *. split; [exact B|]. split; [|exact P].
        intros r y Q. injection Q as <- <-. exact B.
      * injection S as <-. cbn [w_m w_r held set_sync m_heap m_resp m_cb_calls m_unsol] in *. rewrite heap_append_length.
        split; [exact B|]. split; [discriminate|]. rewrite app_nil_r.
        etransitivity; [|exact P]. etransitivity; [apply Permutation_app_tail; apply concat_heap_append; eapply R; reflexivity|].
        rewrite <- !app_assoc. apply Permutation_app_head. cbn [app]. rewrite app_assoc. apply Permutation_cons_append.
      * injection S as <-. destruct (msg_completed x); cbn in *; (split; [exact B|]); (split; [discriminate|]); exact P.
  - assert (A0 : arrived [l] = []) by (destruct K as [(tag & sync & ->) | [-> | ->]]; reflexivity).
    rewrite A0. change (alp_messages []) with (@nil Msg). rewrite app_nil_r.
    assert (M : w_r v = mw_r w /\ m_cb_calls (w_m v) = m_cb_calls (mw_m w) /\ m_unsol (w_m v) = m_unsol (mw_m w)
      /\ concat (m_heap (w_m v)) = concat (m_heap (mw_m w)) /\ (length (m_heap (mw_m w)) <= length (m_heap (w_m v)))%nat
      /\ ((m_resp (mw_m w) < length (m_heap (mw_m w)))%nat -> (m_resp (w_m v) < length (m_heap (w_m v)))%nat)).
    { eapply thread_static; [exact S | |]; destruct K as [(tag & sync & ->) | [-> | ->]]; discriminate. }
    destruct M as (M1 & M2 & M3 & M4 & M5 & M6).
    assert (G : forall ts lg, (m_resp (w_m v) < length (m_heap (w_m v)))%nat
       /\ (forall r x, w_r v = RAppend r x -> (r < length (m_heap (w_m v)))%nat)
       /\ Permutation (whereabouts (mkMW (w_m v) (w_r v) ts lg)) (alp_messages (arrived pre))).
    { intros ts lg. split; [auto|]. split.
      - intros r x Q. rewrite M1 in Q. specialize (R r x Q). lia.
      - unfold whereabouts. cbn [mw_m mw_r]. rewrite M1, M2, M3, M4. exact P. }
    destruct C as [(_ & ->) | (tag & _ & _ & _ & _ & ->)]; cbn [mw_m mw_r]; apply G.
  - cbn [arrived]. change (alp_messages []) with (@nil Msg). rewrite app_nil_r.
    destruct C as [(_ & ->) | (_ & ->)]; cbn [mw_m mw_r]; repeat split; assumption.
Qed.
Lemma nothing_lost cb rbcb conn n ls w : mrun (new_mworld cb rbcb conn n) ls = Some w ->
  Permutation (whereabouts w) (alp_messages (arrived ls)).
Proof.
  intro E. assert (K : PInv ([] ++ ls) w).
  { apply (mrun_ind PInv) with (w := new_mworld cb rbcb conn n); [exact pinv_step | | exact E].
    split; [cbn; lia|]. split; [discriminate | constructor]. }
  apply K.
Qed.

(** ** Any schedule: a call raises only because of another thread *)
Definition other (pre : list MLabel) (i : nat) : Prop := exists j tag, j <> i /\ In (MCall j tag true) pre.
Definition is_sync (a : APC) : bool :=
  match a with AResetList _ s | AResetTag _ s | AResetCompleted _ s => s | ASetTag _ => true | _ => false end.
Definition must_be_none (p : MPC) : bool :=
  match p with Running (AResetCompleted _ _) => true | Asserting _ => true | _ => false end.
Definition EInv (pre : list MLabel) (w : MWorld) : Prop :=
  (forall i p, nth_error (mw_t w) i = Some p ->
     (is_sync (view p) = true -> exists tag, In (MCall i tag true) pre)
     /\ (must_be_none p = true -> m_tag (mw_m w) <> None -> other pre i))
  /\ forall i tag, In (i, tag, Raised) (mw_log w) -> other pre i.
Lemma other_more pre l i : other pre i -> other (pre ++ [l]) i.
Proof. intros (j & tag & N & I). exists j, tag. split; [exact N | apply in_or_app; auto]. Qed.
Lemma einv_step pre w l w1 : EInv pre w -> mstep w l = Some w1 -> EInv (pre ++ [l]) w1.
Proof.
  intros (T & L) E.
  assert (T1 : forall i p, nth_error (mw_t w) i = Some p -> is_sync (view p) = true -> exists tag, In (MCall i tag true) (pre ++ [l])).
  { intros i p N S. destruct (proj1 (T i p N) S) as (tag & I). exists tag. apply in_or_app. auto. }
  assert (T2 : forall i p, nth_error (mw_t w) i = Some p -> must_be_none p = true -> m_tag (mw_m w) <> None -> other (pre ++ [l]) i).
  { intros i p N S Q. apply other_more. exact (proj2 (T i p N) S Q). }
  assert (L' : forall i tag, In (i, tag, Raised) (mw_log w) -> other (pre ++ [l]) i).
  { intros i tag I. apply other_more. exact (L i tag I). }
  apply mstep_cases in E.
  destruct E as [[K (v & S & ->)] | [(i & a & v & N & K & S & C) | (i & tag & -> & N & C)]]; unfold EInv; cbn [mw_m mw_r mw_t mw_log].
  - assert (Q : m_tag (w_m v) = m_tag (mw_m w)).
    { destruct K as [(t & x & ->) | ->]; cbn [erase] in S.
      - unfold step in S. cbn [w_r w_m w_a w_rets] in S. destruct (mw_r w); try discriminate. injection S as <-. reflexivity.
      - apply reader_static in S. apply S. }
    rewrite Q. split; [|exact L']. intros i p N. split; [apply (T1 i p N) | apply (T2 i p N)].
  - destruct w as [m r ts lg]. cbn [mw_m mw_r mw_t mw_log] in *.
    (* what happened to the tag *)
    assert (G : (m_tag (w_m v) = m_tag m \/ m_tag (w_m v) = None
                 \/ (is_sync a = true /\ (forall t s, w_a v <> AResetCompleted t s) /\ forall t, a <> AResetCompleted t true))
       /\ (is_sync (w_a v) = true -> is_sync a = true \/ exists tag, l = MCall i tag true)
       /\ (forall t s, w_a v = AResetCompleted t s -> m_tag (w_m v) = None)
       /\ (forall t, a = AResetCompleted t true -> l = MThread i -> m_tag (w_m v) = m_tag m)
       /\ (forall e, In e (w_rets v) -> True)).
    { unfold step in S. cbn [w_m w_r w_a w_rets] in S.
      destruct K as [(tag & sync & ->) | [-> | ->]]; cbn [erase] in S.
      - destruct a; try discriminate. injection S as <-. cbn [w_m w_a is_sync]. split; [auto|]. split.
        + intro Q. apply andb_prop in Q. destruct Q as [-> _]. right. eauto.
        + split; [discriminate|]. split; [discriminate | auto].
      - destruct a as [|tag s|tag s|tag s|tag|tag s|tag|tag|tag]; try discriminate;
          try (injection S as <-; cbn; (split; [auto|]); (split; [auto|]); (split; [discriminate|]); (split; [discriminate | auto]); fail);
          try (destruct s; injection S as <-; cbn; (split; [auto|]); (split; [auto|]); (split; [discriminate|]); (split; [auto | auto]); fail);
          try (destruct (m_completed m); injection S as <-; cbn; (split; [auto|]); (split; [auto|]); (split; [discriminate|]); (split; [discriminate | auto]); fail).
        + injection S as <-. cbn. split; [auto|]. split; [auto|]. split; [auto|]. split; [discriminate | auto].
        + injection S as <-. cbn. split; [right; right; repeat split; discriminate|]. split; [auto|]. split; [discriminate|]. split; [discriminate | auto].
      - destruct a; try discriminate. injection S as <-. cbn. split; [auto|]. split; [auto|]. split; [discriminate|]. split; [discriminate | auto]. }
    destruct G as (G1 & G2 & G3 & G4 & _).
    assert (O : forall j p, j <> i -> nth_error ts j = Some p ->
       (is_sync (view p) = true -> exists tag, In (MCall j tag true) (pre ++ [l]))
       /\ (must_be_none p = true -> m_tag (w_m v) <> None -> other (pre ++ [l]) j)).
    { intros j p J H. split; [exact (T1 j p H)|]. intros B Q. destruct G1 as [G|[G|(G & _)]].
      - apply (T2 j p H B). congruence.
      - congruence.
      - destruct (T1 i _ N G) as (tag & I). exists i, tag. split; [congruence | exact I]. }
    assert (SY : is_sync (w_a v) = true -> exists tag, In (MCall i tag true) (pre ++ [l])).
    { intro Q. destruct (G2 Q) as [H | (tag & ->)]; [exact (T1 i _ N H)|]. exists tag. apply in_or_app. right. left. reflexivity. }
    destruct C as [(C & ->) | (tag & Cl & Ca & Ev & Er & ->)]; cbn [mw_m mw_r mw_t mw_log].
    + split.
      * intros j p H. destruct (nth_set _ _ _ _ _ _ N H) as [[-> ->] | [J H']]; [|exact (O j p J H')]. split; [exact SY|].
        intros B Q. exfalso. cbn [must_be_none] in B. destruct (w_a v) eqn:W; try discriminate. apply Q. eapply G3. reflexivity.
      * intros j tag I. apply in_app_or in I. destruct I as [I|I]; [exact (L' j tag I)|].
        apply in_map_iff in I. destruct I as (e & Q & _). discriminate.
    + split; [|exact L']. intros j p H. destruct (nth_set _ _ _ _ _ _ N H) as [[-> ->] | [J H']]; [|exact (O j p J H')].
      split; [intros _; apply SY; rewrite Ev; reflexivity|]. intros _ Q. rewrite (G4 tag Ca Cl) in Q. subst a.
      exact (T2 i _ N eq_refl Q).
  - destruct C as [(Q & ->) | (Q & ->)]; cbn [mw_m mw_r mw_t mw_log]; split.
    + intros j p H. destruct (nth_set _ _ _ _ _ _ N H) as [[-> ->] | [J H']]; [|split; [exact (T1 j p H') | exact (T2 j p H')]].
      split; [intros _; exact (T1 i _ N eq_refl) | discriminate].
    + exact L'.
    + intros j p H. destruct (nth_set _ _ _ _ _ _ N H) as [[-> ->] | [J H']]; [split; discriminate | split; [exact (T1 j p H') | exact (T2 j p H')]].
    + intros j t I. apply in_app_or in I. destruct I as [I|[I|[]]]; [exact (L' j t I)|]. injection I as <- <-.
      exact (T2 i _ N eq_refl Q).
Qed.
Lemma raises_because cb rbcb conn n ls w i tag : mrun (new_mworld cb rbcb conn n) ls = Some w ->
  In (i, tag, Raised) (mw_log w) -> exists j tag', j <> i /\ In (MCall j tag' true) ls.
Proof.
  intros E I0. assert (K : EInv ([] ++ ls) w).
  { apply (mrun_ind EInv) with (w := new_mworld cb rbcb conn n); [exact einv_step | | exact E].
    split; [|intros ? ? []]. intros j p H. apply idle_threads in H. subst. split; discriminate. }
  exact (proj2 K i tag I0).
Qed.

(** ** Serialised calls *)
Fixpoint last_call (ls : list MLabel) : option nat :=
  match ls with
  | [] => None
  | l :: r => match last_call r with Some i => Some i | None => match l with MCall i _ _ => Some i | _ => None end end
  end.
Lemma last_call_snoc ls l : last_call (ls ++ [l]) = match l with MCall i _ _ => Some i | _ => last_call ls end.
Proof. induction ls as [|a ls IH]; cbn [app last_call]; [destruct l; reflexivity|]. rewrite IH. destruct l; try reflexivity. Qed.
Lemma last_call_none ls : no_exec (map erase ls) -> last_call ls = None /\ no_call ls.
Proof.
  induction ls as [|l ls IH]; intro N; [split; [reflexivity | intros ? ? ? []]|].
  destruct IH as [A B]. { intros t s I. apply (N t s). right. exact I. }
  cbn [last_call]. rewrite A. split.
  - destruct l; try reflexivity. exfalso. eapply N. left. reflexivity.
  - intros i t s [->|I]; [eapply N; left; reflexivity | exact (B i t s I)].
Qed.
Lemma arrived_erase ls : arrivals (map erase ls) = arrived ls.
Proof. induction ls as [|[] ls IH]; cbn; rewrite ?IH; reflexivity. Qed.
Lemma called_by pre tag sync du i : called (map erase pre) tag sync du -> last_call pre = Some i ->
  exists before during, pre = before ++ MCall i tag sync :: during /\ no_call during /\ arrived during = arrivals du.
Proof.
  intros (bf & E & NE) L. apply map_eq_app in E. destruct E as (p1 & p2 & -> & E1 & E2).
  apply map_eq_cons in E2. destruct E2 as (l & p3 & -> & El & E3). subst du.
  destruct (last_call_none _ NE) as [A B].
  assert (Q : forall q, last_call (q ++ l :: p3) = match l with MCall i _ _ => Some i | _ => last_call q end).
  { clear - A. induction q as [|b q IH]; cbn [app last_call]; [rewrite A; destruct l; reflexivity|]. rewrite IH.
    destruct l; try reflexivity. }
  rewrite Q in L. destruct l; try discriminate. injection El as -> ->. injection L as ->.
  exists p1, p3. split; [reflexivity|]. split; [exact B | symmetry; apply arrived_erase].
Qed.
Lemma expected_more pre l e : as_expected pre e -> as_expected (pre ++ [l]) e.
Proof.
  destruct e as [[i tag] [|obj v]]; [intros []|]. cbn [as_expected]. intros [(A & B & s & I) | (bf & du & la & sel & E & R)].
  - left. split; [exact A|]. split; [exact B|]. exists s. apply in_or_app. auto.
  - right. exists bf, du, (la ++ [l]), sel. split; [|exact R]. rewrite E, <- !app_assoc. cbn. rewrite <- app_assoc. reflexivity.
Qed.
Definition seen (m : Modem) (p : option MPC) (a : APC) : Prop :=
  match p with
  | Some (Running b) => b = a
  | Some (Asserting tag) => a = ASetTag tag /\ m_tag m = None
  | None => a = AIdle
  end
  /\ forall t s, a = AResetCompleted t s -> m_tag m = None.
Definition SInv (pre : list MLabel) (w : MWorld) : Prop :=
  exists i a, Inv (map erase pre) (mkWorld (mw_m w) (mw_r w) a [])
  /\ (forall j p, j <> i -> nth_error (mw_t w) j = Some p -> p = Running AIdle)
  /\ seen (mw_m w) (nth_error (mw_t w) i) a
  /\ (a <> AIdle -> last_call pre = Some i)
  /\ Forall (as_expected pre) (mw_log w).
Lemma inv_no_rets pre m r a rets : Inv pre (mkWorld m r a rets) -> Inv pre (mkWorld m r a []).
Proof. intros (S & L & P & F). repeat split; auto. constructor. Qed.
(** what a return step gives *)
Lemma return_step pre m r a v l : Inv pre (mkWorld m r a []) -> step (mkWorld m r a []) l = Some v ->
  forall e, In e (w_rets v) ->
  a <> AIdle /\ w_a v = AIdle
  /\ exists tag sync during, called pre tag sync during /\ fst (fst e) = tag
     /\ ((snd (fst e) = None /\ snd e = [])
         \/ sync = true /\ exists sel, answers_in tag (arrivals during) sel /\ prefix (snd e) sel /\ some_completed (snd e)).
Proof.
  intros (S & L & P & _) E e I. unfold step in E. cbn [w_m w_r w_a w_rets] in *. unfold phase in P. cbn [w_a w_m w_r] in P.
  destruct l as [t x| |tag sync| |].
  - destruct r; try discriminate. injection E as <-. destruct I.
  - destruct r as [|t x|x|r x|x]; try discriminate; [destruct (is_response m t x)| | |]; injection E as <-; destruct I.
  - destruct a; try discriminate. injection E as <-. destruct I.
  - destruct a as [|tag s|tag s|tag s|tag|tag s|tag|tag|tag]; try discriminate;
      try (injection E as <-; destruct I; fail).
    + destruct s; injection E as <-; [destruct I|]. destruct I as [<-|[]]. destruct P as (s & du & P).
      split; [discriminate|]. split; [reflexivity|]. exists tag, s, du. split; [exact P|]. cbn. auto.
    + destruct (m_completed m); injection E as <-; destruct I.
    + destruct (m_completed m); injection E as <-; [destruct I|]. destruct I as [<-|[]]. destruct P as ((du & P & _) & _).
      split; [discriminate|]. split; [reflexivity|]. exists tag, true, du. split; [exact P|]. cbn. auto.
    + injection E as <-. destruct I as [<-|[]]. destruct P as ((du & P & T & A & K & _) & Q).
      split; [discriminate|]. split; [reflexivity|]. exists tag, true, du. split; [exact P|]. split; [reflexivity|]. right. split; [reflexivity|].
      eexists. split; [exact A|]. split; [eexists; reflexivity|]. apply K. eapply Q. reflexivity.
  - destruct a; try discriminate. injection E as <-. destruct I.
Qed.
Lemma sinv_step pre w l w1 : SInv pre w -> one_at_a_time w l -> mstep w l = Some w1 -> SInv (pre ++ [l]) w1.
Proof.
  intros (i & a & V & O & N & C & F) U E.
  assert (F' : Forall (as_expected (pre ++ [l])) (mw_log w)).
  { eapply Forall_impl; [|exact F]. intro e. apply expected_more. }
  apply mstep_cases in E. unfold SInv. rewrite map_app. cbn [map].
  destruct E as [[K (v & S & ->)] | [(k & b & v & Nk & K & S & D) | (k & tag & -> & Nk & D)]].
  - (* the reader *)
    assert (S' : exists v', step (mkWorld (mw_m w) (mw_r w) a []) (erase l) = Some v' /\ w_m v' = w_m v /\ w_r v' = w_r v
        /\ w_a v' = a /\ w_rets v' = [] /\ m_tag (w_m v) = m_tag (mw_m w)).
    { destruct K as [(t & x & ->) | ->]; cbn [erase] in *; unfold step in *; cbn [w_m w_r w_a w_rets] in *.
      - destruct (mw_r w); try discriminate. injection S as <-. eexists. split; [reflexivity|]. auto 10.
      - destruct (mw_r w) as [|t x|x|r x|x]; try discriminate.
        + destruct (is_response (mw_m w) t x); injection S as <-; (eexists; split; [reflexivity|]); [auto 10|].
          destruct (dispatch_other_sync (mw_m w) t x) as (_ & _ & _ & E4 & _). cbn. auto 10.
        + injection S as <-; (eexists; split; [reflexivity|]); auto 10.
        + injection S as <-; (eexists; split; [reflexivity|]); auto 10.
        + injection S as <-; (eexists; split; [reflexivity|]). destruct (msg_completed x); cbn; auto 10. }
    destruct S' as (v' & S' & Em & Er & Ea & Et & Eg). exists i, a. cbn [mw_m mw_r mw_t mw_log].
    assert (UL : undisturbed_label (mkWorld (mw_m w) (mw_r w) a []) (erase l)).
    { destruct K as [(t & x & ->) | ->]; cbn; [|exact I]. cbn [one_at_a_time] in U.
      destruct (nth_error (mw_t w) i) as [p|] eqn:Q; [|destruct N as [-> _]; reflexivity].
      assert (B : setting_up p = false).
      { destruct (setting_up p) eqn:B; [|reflexivity]. apply nth_error_In in Q.
        assert (X : existsb setting_up (mw_t w) = true) by (apply existsb_exists; eauto). congruence. }
      destruct p; [destruct N as [-> _]; exact B | discriminate]. }
    pose proof (inv_step _ _ _ _ V UL S') as V'. destruct v' as [m' r' a' rets']. cbn [w_m w_r w_a w_rets] in *. subst.
    split; [exact V'|]. split; [exact O|]. split.
    + unfold seen in *. rewrite Eg. exact N.
    + split; [|exact F']. intro H. rewrite last_call_snoc. destruct K as [(t & x & ->) | ->]; exact (C H).
  - (* a thread *)
    destruct K as [(tag & sync & ->) | K].
    + (* a call starts *)
      cbn [one_at_a_time] in U. destruct U as [UF UR]. cbn [erase] in *.
      assert (b = AIdle) as ->.
      { apply nth_error_In in Nk. rewrite Forall_forall in UF. specialize (UF _ Nk). congruence. }
      assert (a = AIdle) as ->.
      { destruct (nth_error (mw_t w) i) as [p|] eqn:Q; [|apply N]. apply nth_error_In in Q.
        rewrite Forall_forall in UF. rewrite <- (UF _ Q) in N. destruct N as [<- _]. reflexivity. }
      assert (V' : Inv (map erase pre ++ [LExec tag sync]) v) by (eapply inv_step; [exact V | exact UR | exact S]).
      destruct D as [(_ & ->) | (t & X & _)]; [|discriminate]. exists k, (w_a v). cbn [mw_m mw_r mw_t mw_log].
      destruct v as [m' r' a' rets']. cbn [w_m w_r w_a w_rets] in *.
      split; [eapply inv_no_rets; exact V'|]. split.
      { intros j p J H. destruct (nth_set _ _ _ _ _ _ Nk H) as [[-> _] | [_ H']]; [congruence|].
        apply nth_error_In in H'. rewrite Forall_forall in UF. symmetry. exact (UF _ H'). }
      split.
      { rewrite (nth_set_same _ _ _ _ Nk). split; [reflexivity|]. intros t s Q. unfold step in S. cbn in S. injection S as <- <- <- <-. discriminate. }
      split; [intros _; apply last_call_snoc|]. unfold step in S. cbn in S. injection S as <- <- <- <-. cbn. rewrite app_nil_r. exact F'.
    + (* a call goes on *)
      assert (NK : k = i).
      { destruct (Nat.eq_dec k i) as [Q|Q]; [exact Q|]. exfalso. specialize (O k _ Q Nk). injection O as ->.
        destruct K as [-> | ->]; discriminate S. }
      subst k. rewrite Nk in N. destruct N as [-> N].
      assert (UL : undisturbed_label (mkWorld (mw_m w) (mw_r w) a []) (erase l)) by (destruct K as [-> | ->]; exact I).
      pose proof (inv_step _ _ _ _ V UL S) as V'.
      assert (NA : a <> AIdle) by (intros ->; destruct K as [-> | ->]; discriminate S).
      assert (LC : last_call (pre ++ [l]) = Some i) by (rewrite last_call_snoc; destruct K as [-> | ->]; exact (C NA)).
      exists i, (w_a v).
      assert (TG : (forall t s, w_a v = AResetCompleted t s -> m_tag (w_m v) = None)
         /\ (forall t s, a = AResetCompleted t s -> m_tag (w_m v) = None)).
      { destruct w as [m r ts lg]. cbn [mw_m mw_r mw_t mw_log] in *. unfold step in S.
        destruct K as [-> | ->]; cbn [erase w_m w_r w_a w_rets] in S.
        - destruct a as [|tag s|tag s|tag s|tag|tag s|tag|tag|tag]; try discriminate;
            try (injection S as <-; cbn; split; [intros; try discriminate; auto | discriminate]; fail);
            try (destruct (m_completed m); injection S as <-; cbn; split; discriminate).
          + injection S as <-. cbn. split; [destruct s; discriminate|]. intros t0 s0 Q. apply (N _ _ Q).
          + destruct s; injection S as <-; cbn; split; discriminate.
        - destruct a; try discriminate. injection S as <-. cbn. split; discriminate. }
      destruct TG as [TG TG'].
      destruct D as [(D & ->) | (tag & El & Ea & Ev & Er & ->)]; cbn [mw_m mw_r mw_t mw_log]; destruct v as [m' r' a' rets']; cbn [w_m w_r w_a w_rets] in *.
      * split; [eapply inv_no_rets; exact V'|]. split.
        { intros j p J H. destruct (nth_set _ _ _ _ _ _ Nk H) as [[-> _] | [_ H']]; [congruence | exact (O j p J H')]. }
        split; [rewrite (nth_set_same _ _ _ _ Nk); split; [reflexivity | exact TG]|].
        split; [auto|]. apply Forall_app. split; [exact F'|]. apply Forall_map. apply Forall_forall. intros e He.
        destruct (return_step _ _ _ _ _ _ V S e He) as (_ & _ & tag & sync & du & CA & Et & R).
        destruct (called_by _ _ _ _ i CA (C NA)) as (bf & du' & Ep & NC & AR). destruct e as [[tg obj] value]. cbn [fst snd] in *. subst tg.
        cbn [as_expected]. destruct R as [[-> ->] | (-> & sel & A & Pf & SC)].
        -- left. split; [reflexivity|]. split; [reflexivity|]. exists sync. apply in_or_app. left. rewrite Ep. apply in_or_app. right. left. reflexivity.
        -- right. exists bf, du', [l], sel. split; [rewrite Ep, <- app_assoc; reflexivity|]. rewrite AR. auto.
      * subst. split; [exact V'|]. split.
        { intros j p J H. destruct (nth_set _ _ _ _ _ _ Nk H) as [[-> _] | [_ H']]; [congruence | exact (O j p J H')]. }
        split; [rewrite (nth_set_same _ _ _ _ Nk); split; [split; [reflexivity | eapply TG'; reflexivity] | discriminate]|]. auto.
  - (* the assertion *)
    assert (NK : k = i).
    { destruct (Nat.eq_dec k i) as [Q|Q]; [exact Q|]. specialize (O k _ Q Nk). discriminate. }
    subst k. rewrite Nk in N. destruct N as [[-> T] N].
    destruct D as [(_ & ->) | (X & _)]; [|congruence]. exists i, (ASetTag tag). cbn [mw_m mw_r mw_t mw_log].
    destruct V as (V1 & V2 & V3 & V4). cbn [w_m w_r w_a w_rets] in *. unfold phase in V3. cbn [w_a w_r w_m] in V3.
    destruct V3 as (P1 & P2 & P3 & P4). split.
    { split; [exact V1|]. split; [exact V2|]. split; [|constructor]. cbn. split; [exact P1|].
      split; [apply setting_more; [discriminate | discriminate | exact P2]|]. split; [exact P3 | exact P4]. }
    split. { intros j p J H. destruct (nth_set _ _ _ _ _ _ Nk H) as [[-> _] | [_ H']]; [congruence | exact (O j p J H')]. }
    split; [rewrite (nth_set_same _ _ _ _ Nk); split; [reflexivity | discriminate]|].
    split; [|exact F']. intros _. rewrite last_call_snoc. apply C. discriminate.
Qed.
Lemma serialised_expected cb rbcb conn n ls w : serialised (new_mworld cb rbcb conn n) ls w -> Forall (as_expected ls) (mw_log w).
Proof.
  assert (G : forall w0 ls w1, serialised w0 ls w1 -> forall pre, SInv pre w0 -> SInv (pre ++ ls) w1).
  { induction 1 as [w0|w0 l w2 ls0 w3 U E H IH]; intros pre I0; [rewrite app_nil_r; exact I0|].
    change (l :: ls0) with ([l] ++ ls0). rewrite app_assoc. apply IH. eapply sinv_step; eauto. }
  intro H. assert (S0 : SInv [] (new_mworld cb rbcb conn n)).
  { exists 0%nat, AIdle. split; [split; [reflexivity|]; split; [cbn; lia|]; split; [exact I | constructor]|].
    split; [intros j p _ Q; apply idle_threads in Q; exact Q|]. split.
    - cbn [new_mworld mw_t mw_m]. destruct n; (split; [reflexivity | discriminate]).
    - split; [congruence | constructor]. }
  destruct (G _ _ _ H [] S0) as (i & a & _ & _ & _ & _ & F). exact F.
Qed.

(** ** Races *)
Lemma mrun_cons w l w1 ls w2 : mstep w l = Some w1 -> mrun w1 ls = Some w2 -> mrun w (l :: ls) = Some w2.
Proof. intros E R. cbn [mrun]. rewrite E. exact R. Qed.
Ltac neq := repeat match goal with H : ?a <> ?b |- _ =>
  first [rewrite (proj2 (Z.eqb_neq a b) H) | rewrite (proj2 (Z.eqb_neq b a) (not_eq_sym H))] end.
Ltac go_mrun := repeat (eapply mrun_cons; [cbv -[Z.eqb]; rewrite ?Z.eqb_refl; neq; reflexivity|]); reflexivity.
(** thread [i] calls and waits *)
Definition waits (i : nat) (tag : Z) : list MLabel := MCall i (Some tag) true :: repeat (MThread i) 6.
Definition handled (x : Msg) : list MLabel := MArrive 1 x :: repeat MReader 4.
Lemma shared_answer cb rbcb conn (t1 t2 : Z) c : c_tag c = Some t2 -> c_completed c = true ->
  exists ls w, mrun (new_mworld cb rbcb conn 2) ls = Some w
  /\ mw_log w = [(0%nat, Some t1, Returned (Some 2%nat) [MCmd c]); (1%nat, Some t2, Returned (Some 2%nat) [MCmd c])].
Proof.
  intros T K. destruct c as [ac st ge tag re co er]. cbn in T, K. subst.
  exists (waits 0 t1 ++ waits 1 t2 ++ handled (MCmd (mkCommand ac st ge (Some t2) re true er)) ++ repeat (MThread 0) 3 ++ repeat (MThread 1) 3).
  unfold waits, handled. cbn [repeat app]. eexists. split; [go_mrun | reflexivity].
Qed.
Lemma assertion_fails cb rbcb conn (t1 t2 : Z) : exists ls w, mrun (new_mworld cb rbcb conn 2) ls = Some w
  /\ In (MCall 1 (Some t2) true) ls /\ mw_log w = [(0%nat, Some t1, Raised)].
Proof.
  exists (MCall 0 (Some t1) true :: repeat (MThread 0) 3 ++ MCall 1 (Some t2) true :: repeat (MThread 1) 5 ++ [MThread 0]).
  cbn [repeat app]. eexists. split; [go_mrun|]. cbn. auto 20.
Qed.
(** the answer of thread 0 comes while thread 1 waits for another tag, or after
    thread 1 sent a command without waiting *)
Lemma answer_lost cb rbcb conn t1 t2 c sync : t1 <> t2 -> c_tag c = Some t1 -> c_completed c = true ->
  exists ls w, mrun (new_mworld cb rbcb conn 2) ls = Some w /\ In (MArrive 1 (MCmd c)) ls
  /\ In (MCall 1 (Some t2) sync) ls
  /\ In (0%nat, Some t1, Returned None []) (mw_log w)
  /\ (if cb && conn then m_cb_calls (mw_m w) else m_unsol (mw_m w)) = [MCmd c].
Proof.
  intros N T K. destruct c as [ac st ge tag re co er]. cbn in T, K. subst.
  exists (waits 0 t1 ++ MCall 1 (Some t2) sync :: repeat (MThread 1) (if sync then 6 else 4)
          ++ [MArrive 1 (MCmd (mkCommand ac st ge (Some t1) re true er)); MReader; MTimeout 0; MThread 0]).
  unfold waits. destruct sync, cb, conn; cbn [repeat app]; eexists; (split; [go_mrun|]); cbn; auto 40.
Qed.
(** the flag is seen, then the list is replaced *)
Lemma empty_result cb rbcb conn (t1 t2 : Z) c : c_tag c = Some t1 -> c_completed c = true ->
  exists ls w, mrun (new_mworld cb rbcb conn 2) ls = Some w
  /\ mw_log w = [(0%nat, Some t1, Returned (Some 2%nat) [])]
  /\ In (MCall 1 (Some t2) true) ls /\ In (MArrive 1 (MCmd c)) ls /\ nth 1 (m_heap (mw_m w)) [] = [MCmd c].
Proof.
  intros T K. destruct c as [ac st ge tag re co er]. cbn in T, K. subst.
  exists (waits 0 t1 ++ handled (MCmd (mkCommand ac st ge (Some t1) re true er)) ++ [MThread 0; MThread 0]
          ++ [MCall 1 (Some t2) true; MThread 1; MThread 0]).
  unfold waits, handled. cbn [repeat app]. eexists. split; [go_mrun|]. cbn. auto 40.
Qed.
