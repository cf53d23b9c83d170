(** The modem: proofs for SModem.v. *)
From Verif Require Import Bits LTraffic LSerialProps SModem.

Lemma tag_eqb_iff a b : tag_eqb a b = true <-> b = a.
Proof.
  destruct a as [x|], b as [y|]; cbn; split; intro H; try discriminate; try congruence.
  - apply Z.eqb_eq in H. congruence.
  - injection H as ->. apply Z.eqb_refl.
Qed.

Definition match_tag (tag : option Z) (t : Z) (x : Msg) : bool :=
  match x with MCmd c => tag_eqb tag (c_tag c) && (t <=? 3) | _ => false end.
Lemma match_tag_true tag t x : match_tag tag t x = true -> t <= 3 /\ answers tag x.
Proof.
  destruct x as [z|l|c]; cbn; try discriminate. intro H. apply andb_prop in H. destruct H as [H1 H2].
  apply tag_eqb_iff in H1. split; [lia|]. exists c. auto.
Qed.
Lemma match_tag_false tag t x : match_tag tag t x = false -> 3 < t \/ ~ answers tag x.
Proof.
  intro H. destruct (Z.leb_spec t 3) as [L|L]; [right|left; exact L].
  intros (c & -> & E). cbn in H. apply tag_eqb_iff in E. rewrite E in H. cbn in H. lia.
Qed.
Lemma match_tag_iff tag t x : match_tag tag t x = true <-> t <= 3 /\ answers tag x.
Proof.
  split; [apply match_tag_true|]. intros [L A]. destruct (match_tag tag t x) eqn:E; [reflexivity|].
  apply match_tag_false in E. destruct E as [E|E]; [lia | contradiction].
Qed.
Lemma is_response_iff m t x : is_response m t x = true <-> t <= 3 /\ is_answer m x.
Proof.
  assert (E : is_response m t x = negb (m_skip m) && match_tag (m_tag m) t x).
  { destruct x as [z|l|c]; cbn; destruct (m_skip m); cbn; try reflexivity. }
  rewrite E. unfold is_answer. destruct (m_skip m); cbn.
  - split; [discriminate | intros (_ & H & _); discriminate].
  - rewrite match_tag_iff. tauto.
Qed.

(** ** Heap *)
Lemma heap_append_length h r x : length (heap_append h r x) = length h.
Proof. revert r. induction h as [|l h IH]; intros [|r]; cbn; auto. Qed.
Lemma heap_append_same h : forall r x, (r < length h)%nat -> nth r (heap_append h r x) [] = nth r h [] ++ [x].
Proof. induction h as [|l h IH]; intros [|r] x L; cbn in *; try lia; auto. apply IH. lia. Qed.
Lemma heap_append_other h : forall r r' x, r <> r' -> nth r' (heap_append h r x) [] = nth r' h [].
Proof. induction h as [|l h IH]; intros [|r] [|r'] x L; cbn in *; try congruence; auto. Qed.
Lemma nth_new {A} (h : list (list A)) : nth (length h) (h ++ [[]]) [] = [].
Proof. rewrite app_nth2, Nat.sub_diag by lia. reflexivity. Qed.
Lemma nth_old {A} (h : list (list A)) r : (r < length h)%nat -> nth r (h ++ [[]]) [] = nth r h [].
Proof. intro L. rewrite app_nth1 by lia. reflexivity. Qed.

(** ** Destinations *)
Lemma goes_function m t x p q : goes m t x p -> goes m t x q -> p = q.
Proof.
  intros A B. inversion A; inversion B; try reflexivity; try lia; try tauto; try congruence;
    match goal with H : _ \/ _ |- _ => destruct H end; congruence.
Qed.
Definition place (m : Modem) (t : Z) (x : Msg) : option Place :=
  if is_response m t x then Some PResult
  else if m_has_cb m && m_connected m && (t <=? 3) then Some PCallback
  else if t =? 5 then Some (if m_has_rbcb m then PRebootCallback else PReboots)
  else if t =? 4 then Some PLog
  else if t <=? 3 then Some PUnsolicited else None.
Lemma place_goes m t x p : place m t x = Some p -> goes m t x p.
Proof.
  unfold place. destruct (is_response m t x) eqn:R.
  - intro E. injection E as <-. apply is_response_iff in R. constructor; tauto.
  - assert (NR : t <= 3 -> ~ is_answer m x).
    { intros L A. assert (is_response m t x = true) by (apply is_response_iff; tauto). congruence. }
    destruct (m_has_cb m && m_connected m && (t <=? 3)) eqn:C.
    + intro E. injection E as <-. apply andb_prop in C. destruct C as [C C3]. apply andb_prop in C.
      destruct C as [C1 C2]. apply Z.leb_le in C3. constructor; auto.
    + destruct (Z.eqb_spec t 5) as [E5|N5].
      { intro E. injection E as <-. destruct (m_has_rbcb m) eqn:RB; [apply goes_reboot_callback | apply goes_reboots]; auto. }
      destruct (Z.eqb_spec t 4) as [E4|N4]; [intro E; injection E as <-; constructor; auto|].
      destruct (Z.leb_spec t 3) as [L|L]; [|discriminate].
      intro E. injection E as <-. apply goes_unsolicited; auto.
      destruct (m_has_cb m), (m_connected m); cbn in C; auto.
Qed.
Lemma goes_place m t x p : goes m t x p -> place m t x = Some p.
Proof.
  intro G. destruct (place m t x) as [q|] eqn:E.
  - f_equal. apply place_goes in E. eapply goes_function; eauto.
  - exfalso. unfold place in E. destruct (is_response m t x); [discriminate|].
    destruct (m_has_cb m && m_connected m && (t <=? 3)); [discriminate|].
    destruct (Z.eqb_spec t 5); [discriminate|]. destruct (Z.eqb_spec t 4); [discriminate|].
    destruct (Z.leb_spec t 3); [discriminate|]. inversion G; lia.
Qed.
Lemma goes_iff m t x p : goes m t x p <-> place m t x = Some p.
Proof. split; [apply goes_place | apply place_goes]. Qed.
Lemma place_none m t x : place m t x = None <-> 6 <= t.
Proof.
  split.
  - unfold place. destruct (is_response m t x) eqn:R; [discriminate|].
    destruct (m_has_cb m && m_connected m && (t <=? 3)); [discriminate|].
    destruct (Z.eqb_spec t 5); [discriminate|]. destruct (Z.eqb_spec t 4); [discriminate|].
    destruct (Z.leb_spec t 3); [discriminate|]. lia.
  - intro L. destruct (place m t x) as [p|] eqn:E; [|reflexivity]. apply place_goes in E. inversion E; lia.
Qed.
Lemma one_place m t x : t <= 5 -> exists! p, goes m t x p.
Proof.
  intro L. destruct (place m t x) as [p|] eqn:E.
  - exists p. split; [apply place_goes; exact E|]. intros q G. eapply goes_function; [apply place_goes; exact E | exact G].
  - apply place_none in E. lia.
Qed.
Lemma no_place m t x p : 6 <= t -> ~ goes m t x p.
Proof. intros L G. apply goes_place in G. apply (place_none m t x) in L. congruence. Qed.

Definition same_setup (m m' : Modem) : Prop :=
  m_skip m' = m_skip m /\ m_has_cb m' = m_has_cb m /\ m_has_rbcb m' = m_has_rbcb m /\ m_connected m' = m_connected m
  /\ m_resp m' = m_resp m /\ m_tag m' = m_tag m /\ length (m_heap m') = length (m_heap m).
Lemma dispatch_setup m tx : same_setup m (dispatch m tx).
Proof.
  destruct tx as [t x]. unfold dispatch, dispatch_other.
  destruct (is_response m t x).
  - unfold same_setup. cbn. rewrite heap_append_length. repeat split.
  - destruct (m_has_cb m && m_connected m && (t <=? 3)); [repeat split|].
    destruct (t =? 5); [destruct (m_has_rbcb m); repeat split|].
    destruct (t =? 4); [repeat split|]. destruct (t <=? 3); repeat split.
Qed.
Lemma same_setup_trans a b c : same_setup a b -> same_setup b c -> same_setup a c.
Proof. unfold same_setup. intuition congruence. Qed.
Lemma dispatches_setup ms : forall m, same_setup m (fold_left dispatch ms m).
Proof.
  induction ms as [|tx ms IH]; intro m; cbn.
  - unfold same_setup. repeat split.
  - eapply same_setup_trans; [apply dispatch_setup | apply IH].
Qed.
Lemma place_setup m m' t x : same_setup m m' -> place m' t x = place m t x.
Proof.
  intros (A & B & C & D & E & F & _). unfold place.
  assert (is_response m' t x = is_response m t x) as ->.
  { destruct x; cbn; try reflexivity. rewrite A, F. reflexivity. }
  rewrite B, C, D. reflexivity.
Qed.
Lemma goes_setup m m' t x p : same_setup m m' -> goes m' t x p <-> goes m t x p.
Proof. intro S. rewrite !goes_iff, (place_setup m m' t x S). reflexivity. Qed.

Definition place_dec (p q : Place) : {p = q} + {p <> q}.
Proof. decide equality. Defined.
Lemma dispatch_inbox m t x p : (m_resp m < length (m_heap m))%nat ->
  inbox p (dispatch m (t, x))
  = inbox p m ++ match place m t x with Some q => if place_dec p q then [x] else [] | None => [] end.
Proof.
  intro L. unfold dispatch, dispatch_other, place.
  destruct (is_response m t x).
  - destruct p; cbn; rewrite ?app_nil_r; try reflexivity. apply heap_append_same; exact L.
  - destruct (m_has_cb m && m_connected m && (t <=? 3)).
    { destruct p; cbn; rewrite ?app_nil_r; reflexivity. }
    destruct (t =? 5).
    { destruct (m_has_rbcb m); destruct p; cbn; rewrite ?app_nil_r; reflexivity. }
    destruct (t =? 4).
    { destruct p; cbn; rewrite ?app_nil_r; reflexivity. }
    destruct (t <=? 3); destruct p; cbn; rewrite ?app_nil_r; reflexivity.
Qed.
Lemma dispatch_take m t x p : (m_resp m < length (m_heap m))%nat -> goes m t x p ->
  inbox p (dispatch m (t, x)) = inbox p m ++ [x].
Proof.
  intros L G. rewrite dispatch_inbox by exact L. apply goes_place in G. rewrite G. cbn.
  destruct (place_dec p p); [reflexivity | congruence].
Qed.
Lemma dispatch_leave m t x p : (m_resp m < length (m_heap m))%nat -> ~ goes m t x p ->
  inbox p (dispatch m (t, x)) = inbox p m.
Proof.
  intros L G. rewrite dispatch_inbox by exact L. destruct (place m t x) as [q|] eqn:E; cbn.
  - destruct (place_dec p q) as [->|]; [|apply app_nil_r]. exfalso. apply G. apply place_goes. exact E.
  - apply app_nil_r.
Qed.
Lemma sorted_exists m p ms : exists sel, sorted m p ms sel.
Proof.
  induction ms as [|[t x] ms [sel S]]; [exists []; constructor|].
  destruct (place m t x) as [q|] eqn:E.
  - destruct (place_dec p q) as [->|N].
    + exists (x :: sel). apply sorted_take; [apply place_goes; exact E | exact S].
    + exists sel. apply sorted_skip; [|exact S]. intro G. apply goes_place in G. congruence.
  - exists sel. apply sorted_skip; [|exact S]. intro G. apply goes_place in G. congruence.
Qed.
Lemma sorted_function m p ms s1 : sorted m p ms s1 -> forall s2, sorted m p ms s2 -> s1 = s2.
Proof.
  induction 1 as [|t x ms sel G S IH|t x ms sel G S IH]; intros s2 S2; inversion S2; subst; try reflexivity; try contradiction.
  - f_equal. auto.
  - auto.
Qed.
Lemma sorted_setup m m' p ms sel : same_setup m m' -> sorted m p ms sel -> sorted m' p ms sel.
Proof.
  intros SS. induction 1 as [|t x ms sel G S IH|t x ms sel G S IH].
  - constructor.
  - apply sorted_take; [apply (goes_setup m m'); assumption | exact IH].
  - apply sorted_skip; [|exact IH]. intro G'. apply G. apply (goes_setup m m'); assumption.
Qed.
Lemma delivery m ms p sel : (m_resp m < length (m_heap m))%nat -> sorted m p ms sel ->
  inbox p (fold_left dispatch ms m) = inbox p m ++ sel.
Proof.
  intros L S. revert m L S. revert sel. induction ms as [|[t x] ms IH]; intros sel m L S.
  - inversion S. cbn. rewrite app_nil_r. reflexivity.
  - pose proof (dispatch_setup m (t, x)) as SS.
    assert (L' : (m_resp (dispatch m (t, x)) < length (m_heap (dispatch m (t, x))))%nat).
    { destruct SS as (_ & _ & _ & _ & E1 & _ & E2). rewrite E1, E2. exact L. }
    cbn [fold_left]. inversion S as [|t' x' ms' sel' G S' |t' x' ms' sel' G S']; subst.
    + rewrite (IH sel') by (auto; eapply sorted_setup; eauto). rewrite dispatch_take by assumption.
      rewrite <- app_assoc. reflexivity.
    + rewrite (IH sel) by (auto; eapply sorted_setup; eauto). rewrite dispatch_leave by assumption. reflexivity.
Qed.
Lemma dispatch_other_lists m tx r : r <> m_resp m -> nth r (m_heap (dispatch m tx)) [] = nth r (m_heap m) [].
Proof.
  intro N. destruct tx as [t x]. unfold dispatch, dispatch_other. destruct (is_response m t x).
  - cbn. apply heap_append_other. congruence.
  - destruct (m_has_cb m && m_connected m && (t <=? 3)); [reflexivity|].
    destruct (t =? 5); [destruct (m_has_rbcb m); reflexivity|].
    destruct (t =? 4); [reflexivity|]. destruct (t <=? 3); reflexivity.
Qed.
Lemma other_lists ms : forall m r, r <> m_resp m -> nth r (m_heap (fold_left dispatch ms m)) [] = nth r (m_heap m) [].
Proof.
  induction ms as [|tx ms IH]; intros m r N; [reflexivity|]. cbn [fold_left].
  rewrite IH; [apply dispatch_other_lists; exact N|].
  destruct (dispatch_setup m tx) as (_ & _ & _ & _ & E & _). congruence.
Qed.

(** ** Histories *)
Lemma after_resp m e : (m_resp m < length (m_heap m))%nat -> (m_resp (after m e) < length (m_heap (after m e)))%nat.
Proof.
  intro L. destruct e as [t x|tag timeout|]; cbn [after].
  - destruct (dispatch_setup m (t, x)) as (_ & _ & _ & _ & E1 & _ & E2). rewrite E1, E2. exact L.
  - cbn. rewrite app_length. cbn. lia.
  - exact L.
Qed.
Lemma history_resp h : forall m, (m_resp m < length (m_heap m))%nat -> (m_resp (history m h) < length (m_heap (history m h)))%nat.
Proof. induction h as [|e h IH]; intros m L; [exact L|]. apply IH. apply after_resp. exact L. Qed.
Lemma reached_resp m : reached m -> (m_resp m < length (m_heap m))%nat.
Proof. intros (skip & cb & rbcb & h & ->). apply history_resp. cbn. lia. Qed.

Lemma everything_delivered m ms p : reached m ->
  exists sel, sorted m p ms sel /\ inbox p (fold_left dispatch ms m) = inbox p m ++ sel.
Proof.
  intro R. destruct (sorted_exists m p ms) as [sel S]. exists sel. split; [exact S|].
  apply delivery; [apply reached_resp; exact R | exact S].
Qed.
Lemma one_delivery m t x p : reached m ->
  (goes m t x p -> inbox p (dispatch m (t, x)) = inbox p m ++ [x])
  /\ (~ goes m t x p -> inbox p (dispatch m (t, x)) = inbox p m).
Proof. intro R. apply reached_resp in R. split; intro G; [apply dispatch_take | apply dispatch_leave]; assumption. Qed.
Lemma command_leaves m tag timeout p : p <> PResult -> inbox p (exec_start m tag timeout) = inbox p m.
Proof. destruct p; intro N; try reflexivity. congruence. Qed.
Lemma lists_kept m ms tag timeout r : reached m -> r <> m_resp m -> (r < length (m_heap m))%nat ->
  nth r (m_heap (exec_start (fold_left dispatch ms m) tag timeout)) [] = nth r (m_heap m) [].
Proof.
  intros R N L. cbn. destruct (dispatches_setup ms m) as (_ & _ & _ & _ & _ & _ & E).
  rewrite nth_old by lia. apply other_lists. exact N.
Qed.

(** ** Synchronous execution, messages handled as a whole *)
Lemma answers_sorted m tag ms sel : m_skip m = false -> m_tag m = tag -> answers_in tag ms sel -> sorted m PResult ms sel.
Proof.
  intros S T. induction 1 as [|t x ms sel L A H IH|t x ms sel N H IH].
  - constructor.
  - apply sorted_take; [|exact IH]. constructor; [exact L|]. split; [exact S | rewrite T; exact A].
  - apply sorted_skip; [|exact IH]. intro G. inversion G as [L [_ A]| | | | |]. subst.
    destruct N as [N|N]; [lia | contradiction].
Qed.
Lemma answers_exist tag ms : exists sel, answers_in tag ms sel.
Proof.
  induction ms as [|[t x] ms [sel IH]]; [exists []; constructor|].
  destruct (match_tag tag t x) eqn:E.
  - apply match_tag_true in E. exists (x :: sel). apply answers_take; tauto.
  - apply match_tag_false in E. exists sel. apply answers_skip; tauto.
Qed.
Lemma dispatch_completed m tag t x : m_skip m = false -> m_tag m = tag ->
  m_completed (dispatch m (t, x)) = (match_tag tag t x && msg_completed x) || m_completed m.
Proof.
  intros S T. unfold dispatch.
  assert (E : is_response m t x = match_tag tag t x).
  { destruct x; cbn; try reflexivity. rewrite S, T. reflexivity. }
  rewrite E. destruct (match_tag tag t x); cbn.
  - destruct (msg_completed x); reflexivity.
  - unfold dispatch_other. destruct (m_has_cb m && m_connected m && (t <=? 3)); [reflexivity|].
    destruct (t =? 5); [destruct (m_has_rbcb m); reflexivity|].
    destruct (t =? 4); [reflexivity|]. destruct (t <=? 3); reflexivity.
Qed.
Lemma completed_iff tag ms sel : answers_in tag ms sel -> forall m, m_skip m = false -> m_tag m = tag ->
  (m_completed (fold_left dispatch ms m) = true <-> m_completed m = true \/ some_completed sel).
Proof.
  induction 1 as [|t x ms sel L A H IH|t x ms sel N H IH]; intros m S T; cbn [fold_left].
  - split; [auto|]. intros [E|(c & [] & _)]. exact E.
  - destruct (dispatch_setup m (t, x)) as (E1 & _ & _ & _ & _ & E2 & _).
    rewrite IH by congruence. rewrite (dispatch_completed m tag) by assumption.
    assert (match_tag tag t x = true) as -> by (apply match_tag_iff; auto).
    destruct A as (c & -> & Ec). cbn [msg_completed]. rewrite Bool.andb_true_l, Bool.orb_true_iff. unfold some_completed. cbn [In]. split.
    + intros [[C|C]|(c' & I & C)]; [right; exists c | left | right; exists c']; auto.
    + intros [C|(c' & [I|I] & C)]; [auto | injection I as ->; auto | right; exists c'; auto].
  - destruct (dispatch_setup m (t, x)) as (E1 & _ & _ & _ & _ & E2 & _).
    rewrite IH by congruence. rewrite (dispatch_completed m tag) by assumption.
    destruct (match_tag tag t x) eqn:M; [apply match_tag_iff in M; destruct M as [M1 M2]; destruct N as [N|N]; [lia | contradiction]|].
    reflexivity.
Qed.
Lemma sync_result m tag timeout ms sel : m_skip m = false -> 0 < timeout -> answers_in tag ms sel ->
  let result := exec_result (fold_left dispatch ms (exec_start m tag timeout)) in
  (some_completed sel /\ result = sel) \/ (~ some_completed sel /\ result = []).
Proof.
  intros S T A result. set (m1 := exec_start m tag timeout) in *.
  assert (S1 : m_skip m1 = false) by exact S.
  assert (T1 : m_tag m1 = tag).
  { unfold m1, exec_start. cbn. rewrite S. assert (0 <? timeout = true) as -> by lia. reflexivity. }
  assert (C1 : m_completed m1 = false) by reflexivity.
  pose proof (completed_iff tag ms sel A m1 S1 T1) as CI. rewrite C1 in CI.
  pose proof (delivery m1 ms PResult sel) as D. cbn [inbox] in D.
  destruct (m_completed (fold_left dispatch ms m1)) eqn:C.
  - left. assert (SC : some_completed sel) by (destruct CI as [CI _]; destruct (CI eq_refl) as [X|X]; [discriminate | exact X]).
    split; [exact SC|]. unfold result, exec_result. rewrite C. rewrite D.
    + unfold m1. cbn. rewrite nth_new. reflexivity.
    + unfold m1. cbn. rewrite app_length. cbn. lia.
    + apply (answers_sorted m1 tag); assumption.
  - right. split; [|unfold result, exec_result; rewrite C; reflexivity].
    intro SC. destruct CI as [_ CI]. specialize (CI (or_intror SC)). discriminate.
Qed.
Lemma answers_in_forall tag ms sel : answers_in tag ms sel -> Forall (answers tag) sel /\ (forall x, In x sel -> exists t, In (t, x) ms).
Proof.
  induction 1 as [|t x ms sel L A H [IH1 IH2]|t x ms sel N H [IH1 IH2]].
  - split; [constructor | intros x []].
  - split; [constructor; auto|]. intros y [->|I]; [exists t; left; reflexivity|]. destruct (IH2 y I) as [t' I']. exists t'. right. exact I'.
  - split; [assumption|]. intros y I. destruct (IH2 y I) as [t' I']. exists t'. right. exact I'.
Qed.
Lemma sync_tags m tag timeout ms x : m_skip m = false -> 0 < timeout ->
  In x (exec_result (fold_left dispatch ms (exec_start m tag timeout))) ->
  answers tag x /\ exists t, In (t, x) ms.
Proof.
  intros S T I. destruct (answers_exist tag ms) as [sel A].
  destruct (sync_result m tag timeout ms sel S T A) as [[_ E]|[_ E]]; rewrite E in I; [|destruct I].
  destruct (answers_in_forall tag ms sel A) as [F1 F2]. split; [|exact (F2 x I)].
  rewrite Forall_forall in F1. exact (F1 x I).
Qed.
Lemma async_result m tag timeout : timeout <= 0 \/ m_skip m = true -> m_tag (exec_start m tag timeout) = None.
Proof.
  intro H. unfold exec_start. cbn. destruct (m_skip m); [reflexivity|].
  destruct H as [H|H]; [|discriminate]. assert (0 <? timeout = false) as -> by lia. reflexivity.
Qed.

(** ** What is collected when *)
Lemma history_tag h : forall m, m_skip m = false ->
  m_skip (history m h) = false /\
  m_tag (history m h) = match last_command h with
                        | Some (tag, timeout) => if 0 <? timeout then tag else None
                        | None => m_tag m
                        end.
Proof.
  induction h as [|e h IH]; intros m S; [auto|].
  unfold history in *. cbn [fold_left last_command].
  assert (S' : m_skip (after m e) = false).
  { destruct e as [t x|tag timeout|]; cbn [after]; [|exact S|exact S].
    destruct (dispatch_setup m (t, x)) as (E & _). congruence. }
  destruct (IH _ S') as [A B]. split; [exact A|]. rewrite B.
  destruct (last_command h) as [[tag timeout]|]; [reflexivity|].
  destruct e as [t x|tag timeout|]; cbn [after].
  - destruct (dispatch_setup m (t, x)) as (_ & _ & _ & _ & _ & E & _). exact E.
  - unfold exec_start. cbn. rewrite S. reflexivity.
  - reflexivity.
Qed.
Lemma collecting_tag cb rbcb h : let m := history (new_modem false cb rbcb) h in
  m_skip m = false /\ m_tag m = collecting h.
Proof.
  destruct (history_tag h (new_modem false cb rbcb) eq_refl) as [A B]. split; [exact A|].
  rewrite B. unfold collecting. destruct (last_command h) as [[tag timeout]|]; reflexivity.
Qed.
Lemma swallowed cb rbcb h t c : t <= 3 -> c_tag c = collecting h ->
  let m := history (new_modem false cb rbcb) h in
  let m' := dispatch m (t, MCmd c) in
  m_cb_calls m' = m_cb_calls m /\ m_unsol m' = m_unsol m /\ inbox PResult m' = inbox PResult m ++ [MCmd c].
Proof.
  intros L E m m'. destruct (collecting_tag cb rbcb h) as [S T]. fold m in S, T.
  assert (G : goes m t (MCmd c) PResult).
  { constructor; [exact L|]. split; [exact S|]. exists c. rewrite T. auto. }
  assert (R : reached m) by (exists false, cb, rbcb, h; reflexivity).
  assert (N : forall p, p <> PResult -> inbox p m' = inbox p m).
  { intros p Hp. apply (proj2 (one_delivery m t (MCmd c) p R)). intro G'. apply Hp. eapply goes_function; eauto. }
  split; [apply (N PCallback); discriminate|]. split; [apply (N PUnsolicited); discriminate|].
  apply (proj1 (one_delivery m t (MCmd c) PResult R)). exact G.
Qed.
Lemma not_swallowed cb rbcb h t c : t <= 3 -> c_tag c <> collecting h ->
  let m := history (new_modem false cb rbcb) h in
  let m' := dispatch m (t, MCmd c) in
  if cb && m_connected m
  then m_cb_calls m' = m_cb_calls m ++ [MCmd c] /\ m_unsol m' = m_unsol m
  else m_cb_calls m' = m_cb_calls m /\ m_unsol m' = m_unsol m ++ [MCmd c].
Proof.
  intros L E m m'. destruct (collecting_tag cb rbcb h) as [S T]. fold m in S, T.
  assert (NA : ~ is_answer m (MCmd c)).
  { intros [_ (c' & H & Ec)]. injection H as <-. congruence. }
  assert (R : reached m) by (exists false, cb, rbcb, h; reflexivity).
  assert (CB : forall h m0, m_has_cb (history m0 h) = m_has_cb m0).
  { induction h0 as [|e h0 IH]; intro m0; [reflexivity|]. unfold history in *. cbn [fold_left]. rewrite IH.
    destruct e as [t0 x0|tag timeout|]; cbn [after]; try reflexivity.
    destruct (dispatch_setup m0 (t0, x0)) as (_ & B & _). exact B. }
  assert (HC : m_has_cb m = cb) by (unfold m; rewrite CB; reflexivity).
  assert (X : forall p q, goes m t (MCmd c) p -> p <> q -> inbox q m' = inbox q m).
  { intros p q G N. apply (proj2 (one_delivery m t (MCmd c) q R)). intro G'. apply N. eapply goes_function; eauto. }
  destruct (cb && m_connected m) eqn:B.
  - apply andb_prop in B. destruct B as [B1 B2].
    assert (G : goes m t (MCmd c) PCallback) by (apply goes_callback; auto; congruence).
    split; [apply (proj1 (one_delivery m t (MCmd c) PCallback R) G) | apply (X _ PUnsolicited G); discriminate].
  - assert (G : goes m t (MCmd c) PUnsolicited).
    { apply goes_unsolicited; auto. rewrite HC. destruct cb, (m_connected m); cbn in B; auto. }
    split; [apply (X _ PCallback G); discriminate | apply (proj1 (one_delivery m t (MCmd c) PUnsolicited R) G)].
Qed.

Lemma last_command_app h e : last_command (h ++ [e]) = match e with ECommand tag timeout => Some (tag, timeout) | _ => last_command h end.
Proof.
  induction h as [|e' h IH]; [destruct e; reflexivity|]. cbn [app last_command]. rewrite IH. destruct e; reflexivity.
Qed.
Lemma untagged_swallowed h (tag : option Z) c : c_tag c = None ->
  last_command h = None \/ last_command h = Some (tag, 0) ->
  let m := history (new_modem false true false) (h ++ [EConnected]) in
  m_connected m = true /\ m_cb_calls (dispatch m (1, MCmd c)) = m_cb_calls m /\ m_unsol (dispatch m (1, MCmd c)) = m_unsol m.
Proof.
  intros E H m. destruct (swallowed true false (h ++ [EConnected]) 1 c) as (A & B & _); [lia| |].
  - unfold collecting. rewrite last_command_app. destruct H as [H|H]; rewrite H; exact E.
  - split; [|split; [exact A | exact B]]. unfold m, history. rewrite fold_left_app. reflexivity.
Qed.

(** ** The reader fed with chunks *)
Lemma read_feeds lib p chunks p' ms es : feeds lib p chunks p' ms es -> Forall (fun c => c <> []) chunks ->
  forall m, read_chunks lib (mkReader p m true) chunks = mkReader p' (fold_left dispatch ms m) true.
Proof.
  induction 1 as [p|p c p1 r cs p2 ms es E H IH]; intros F m; [reflexivity|].
  inversion F as [|c' cs' N F']; subst. unfold read_chunks in *. cbn [fold_left].
  unfold reader_chunk at 2. cbn [r_alive r_parser r_modem]. destruct c as [|b c]; [congruence|].
  rewrite E. rewrite IH by exact F'. rewrite fold_left_app. reflexivity.
Qed.
Definition nonempty (c : list Z) : bool := match c with [] => false | _ => true end.
Lemma read_filter lib chunks : forall r, read_chunks lib r chunks = read_chunks lib r (filter nonempty chunks).
Proof.
  induction chunks as [|c chunks IH]; intro r; [reflexivity|]. unfold read_chunks in *. cbn [fold_left filter].
  destruct c as [|b c]; cbn [nonempty].
  - rewrite <- IH. f_equal. unfold reader_chunk. destruct (r_alive r); reflexivity.
  - cbn [fold_left]. apply IH.
Qed.
Lemma concat_filter chunks : concat (filter nonempty chunks) = concat chunks.
Proof. induction chunks as [|[|b c] chunks IH]; cbn; auto. rewrite IH. reflexivity. Qed.
Lemma filter_nonempty chunks : Forall (fun c : list Z => c <> []) (filter nonempty chunks).
Proof.
  apply Forall_forall. intros c I. apply filter_In in I. destruct I as [_ I]. destruct c; [discriminate | discriminate].
Qed.
Lemma frame_not_nil c t payload : frame c t payload <> [].
Proof. unfold frame. destruct (calculate_crc payload). discriminate. Qed.
Lemma wire_nil l : wire l = [] -> l = [].
Proof.
  destruct l as [|x l]; [reflexivity|]. unfold wire. cbn [flat_map]. intro E. apply app_eq_nil in E. destruct E as [E _].
  exfalso. eapply frame_not_nil. exact E.
Qed.
Lemma reader_traffic lib chunks p m tr :
  Forall (sent_ok (sp_skip p)) tr -> sp_buf p = [] -> concat chunks = wire tr -> is_byte (sp_down p) ->
  exists p', read_chunks lib (mkReader p m true) chunks = mkReader p' (fold_left dispatch (SSerial.delivered tr) m) true
    /\ sp_buf p' = [].
Proof.
  intros F B E D. rewrite read_filter. destruct (filter nonempty chunks) as [|c cs] eqn:FC.
  - assert (tr = []).
    { apply wire_nil. rewrite <- E, <- concat_filter, FC. reflexivity. }
    subst tr. exists p. auto.
  - destruct (traffic lib (c :: cs) p tr F) as (p' & H & B' & _).
    { rewrite B, <- FC, concat_filter. exact E. }
    { discriminate. }
    { exact D. }
    exists p'. split; [|exact B']. apply (read_feeds _ _ _ _ _ _ H). rewrite <- FC. apply filter_nonempty.
Qed.
Lemma raw_sent_ok c t payload : is_byte c -> is_byte t -> t <> 4 -> t <> 5 -> is_payload payload ->
  sent_ok true (mkSent c t payload (MRaw payload)).
Proof.
  intros A B N4 N5 C. refine (conj A (conj B (conj C _))). intros rest _. apply carries_raw; auto.
Qed.

(** ** Bridge mode *)
Definition bridge_sent (f : Z * Z * list Z) : Sent :=
  let '(c, t, payload) := f in mkSent c t payload (if t =? 5 then MInt (hd 0 payload) else MRaw payload).
Lemma bridge_sent_ok f : bridge_ok f -> sent_ok true (bridge_sent f).
Proof.
  destruct f as [[c t] payload]. intros (A & B & C & D). unfold bridge_sent.
  refine (conj A (conj B (conj C _))). intros rest _. cbn [s_type s_payload s_msg].
  destruct (Z.eqb_spec t 5) as [->|N5].
  - specialize (D eq_refl). destruct payload as [|b [|b' payload]]; try discriminate. cbn [hd length].
    apply (carries_rebooted _ [b] rest b rest). reflexivity.
  - destruct (Z.eqb_spec t 4) as [->|N4]; [apply carries_logging | apply carries_raw; auto].
Qed.
Lemma bridge_wire fs : wire (map bridge_sent fs) = flat_map bridge_frame fs.
Proof.
  induction fs as [|[[c t] payload] fs IH]; [reflexivity|]. unfold wire in *. cbn [map flat_map]. rewrite IH. reflexivity.
Qed.
Lemma bridge_dispatch fs : forall m, m_skip m = true -> m_has_cb m = true -> m_connected m = true ->
  let m' := fold_left dispatch (SSerial.delivered (map bridge_sent fs)) m in
  m_cb_calls m' = m_cb_calls m ++ map MRaw (payloads (fun t => t <=? 3) fs)
  /\ m_logged m' = m_logged m ++ map MRaw (payloads (Z.eqb 4) fs)
  /\ (if m_has_rbcb m then m_rb_calls m' = m_rb_calls m ++ map MInt (reasons fs) /\ m_rebooted m' = m_rebooted m
      else m_rb_calls m' = m_rb_calls m /\ m_rebooted m' = m_rebooted m ++ map MInt (reasons fs))
  /\ m_unsol m' = m_unsol m /\ m_heap m' = m_heap m.
Proof.
  induction fs as [|[[c t] payload] fs IH]; intros m S B C.
  - cbn. rewrite !app_nil_r. destruct (m_has_rbcb m); repeat split.
  - set (x := if t =? 5 then MInt (hd 0 payload) else MRaw payload).
    change (SSerial.delivered (map bridge_sent ((c, t, payload) :: fs)))
      with ((t, x) :: SSerial.delivered (map bridge_sent fs)). cbn [fold_left].
    assert (NR : is_response m t x = false).
    { destruct (is_response m t x) eqn:R; [|reflexivity]. apply is_response_iff in R. destruct R as [_ [R _]]. congruence. }
    destruct (dispatch_setup m (t, x)) as (E1 & E2 & E3 & E4 & _).
    specialize (IH (dispatch m (t, x)) ltac:(congruence) ltac:(congruence) ltac:(congruence)).
    cbv zeta in IH. rewrite E3 in IH. destruct IH as (I1 & I2 & I3 & I4 & I5).
    cbv zeta. rewrite I1, I2, I4, I5. clear I1 I2 I4 I5.
    unfold dispatch in *. rewrite NR in *. clear NR E1 E2 E3 E4.
    unfold dispatch_other in *. rewrite B, C in *. cbn [andb] in *. unfold reasons, payloads in *. cbn [filter fst snd] in *.
    destruct (Z.leb_spec t 3) as [L3|L3].
    + assert (5 =? t = false) as -> by lia. assert (4 =? t = false) as -> by lia.
      subst x. assert (t =? 5 = false) as Q by lia. rewrite Q in *.
      cbn in *. rewrite <- app_assoc. destruct (m_has_rbcb m); repeat split; tauto.
    + destruct (Z.eqb_spec t 5) as [->|N5].
      * change (5 =? 5) with true. change (4 =? 5) with false. cbn [map] in *.
        destruct (m_has_rbcb m); cbn in *; rewrite <- !app_assoc in I3; repeat split; tauto.
      * assert (5 =? t = false) as -> by lia.
        destruct (Z.eqb_spec t 4) as [->|N4].
        -- change (4 =? 4) with true. cbn in *. rewrite <- !app_assoc. destruct (m_has_rbcb m); repeat split; tauto.
        -- assert (4 =? t = false) as -> by lia. cbn in *. destruct (m_has_rbcb m); repeat split; tauto.
Qed.
Lemma bridge lib p m fs chunks :
  sp_skip p = true -> sp_buf p = [] -> is_byte (sp_down p) ->
  m_skip m = true -> m_has_cb m = true -> m_connected m = true ->
  Forall bridge_ok fs -> concat chunks = flat_map bridge_frame fs ->
  exists p' m', read_chunks lib (mkReader p m true) chunks = mkReader p' m' true /\ sp_buf p' = []
  /\ m_cb_calls m' = m_cb_calls m ++ map MRaw (payloads (fun t => t <=? 3) fs)
  /\ m_logged m' = m_logged m ++ map MRaw (payloads (Z.eqb 4) fs)
  /\ (if m_has_rbcb m then m_rb_calls m' = m_rb_calls m ++ map MInt (reasons fs) /\ m_rebooted m' = m_rebooted m
      else m_rb_calls m' = m_rb_calls m /\ m_rebooted m' = m_rebooted m ++ map MInt (reasons fs))
  /\ m_unsol m' = m_unsol m /\ m_heap m' = m_heap m.
Proof.
  intros S B D MS MB MC F E.
  destruct (reader_traffic lib chunks p m (map bridge_sent fs)) as (p' & H & B').
  - rewrite S. apply Forall_map. eapply Forall_impl; [|exact F]. intros f. apply bridge_sent_ok.
  - exact B.
  - rewrite bridge_wire. exact E.
  - exact D.
  - exists p', (fold_left dispatch (SSerial.delivered (map bridge_sent fs)) m).
    split; [exact H|]. split; [exact B'|]. apply bridge_dispatch; assumption.
Qed.
Lemma bridge_alp lib p m alps counters chunks :
  sp_skip p = true -> sp_buf p = [] -> is_byte (sp_down p) ->
  m_skip m = true -> m_has_cb m = true -> m_connected m = true ->
  Forall is_payload alps -> Forall is_byte counters -> length counters = length alps ->
  concat chunks = flat_map (fun x => frame (fst x) 1 (snd x)) (combine counters alps) ->
  exists p' m', read_chunks lib (mkReader p m true) chunks = mkReader p' m' true /\ sp_buf p' = []
  /\ m_cb_calls m' = m_cb_calls m ++ map MRaw alps.
Proof.
  intros S B D MS MB MC F FC LE E.
  set (fs := map (fun x => (fst x, 1, snd x)) (combine counters alps)).
  destruct (bridge lib p m fs chunks S B D MS MB MC) as (p' & m' & H1 & H2 & H3 & _).
  - unfold fs. clear E fs. revert alps F LE. induction FC as [|c cs HB _ IH]; intros [|a alps] F LE; try discriminate; [constructor|].
    inversion F; subst. cbn [combine map fst snd]. constructor; [|apply IH; auto].
    unfold bridge_ok. split; [exact HB|]. split; [unfold is_byte; lia|]. split; [assumption|]. discriminate.
  - rewrite E. unfold fs. clear. induction (combine counters alps) as [|[c a] l IH]; [reflexivity|].
    cbn [map flat_map]. rewrite IH. reflexivity.
  - exists p', m'. split; [exact H1|]. split; [exact H2|]. rewrite H3. do 2 f_equal.
    unfold payloads, fs. clear -LE. revert alps LE. induction counters as [|c cs IH]; intros [|a alps] LE; try discriminate; [reflexivity|].
    cbn [combine map filter fst snd]. change (1 <=? 3) with true. cbv iota. cbn [map snd]. f_equal. apply IH. cbn in LE. lia.
Qed.
