(** Lemmas for C87 *)
From Verif Require Import Bits MBase MAlp MSerial SCommand LAlpCases SConverse LConverse SLate.
From Coq Require Import ZifyBool FinFun.
Open Scope list_scope.
Open Scope Z_scope.

Lemma same_tag_iff a b : same_tag a b = true <-> a = b.
Proof. destruct a, b; cbn; split; intros H; try congruence; try discriminate H; [f_equal; lia | injection H as ->; lia]. Qed.
Lemma pick_labels f g x : (forall om, In om (lb_traffic x) -> f (s_type (snd om), s_msg (snd om)) = g om) ->
  pick f (unlabelled x) = map (fun om => s_msg (snd om)) (filter g (lb_traffic x)).
Proof.
  unfold pick, unlabelled, SSerial.delivered. cbn [x_traffic]. induction (lb_traffic x) as [|om l IH]; intros H; [reflexivity|].
  cbn [map filter]. rewrite (H om (or_introl eq_refl)). destruct (g om); cbn [map snd]; [f_equal|]; apply IH; intros o I; apply H; right; exact I.
Qed.
Lemma reply_label xs i x om : nth_error xs i = Some x -> label_ok xs i x om ->
  is_reply (c_tag (lb_command x)) (s_type (snd om), s_msg (snd om)) = has_tag_of xs x (fst om).
Proof.
  intros N. destruct om as [[j|] m]; unfold label_ok, is_reply, has_tag_of; cbn [fst snd].
  - intros (J & T & y & c & Y & M & E). rewrite M, Y, E. replace (s_type m <=? 3) with true by lia. reflexivity.
  - intros H. destruct (s_msg m); try apply andb_false_r. specialize (H c eq_refl).
    destruct (same_tag (c_tag c) (c_tag (lb_command x))) eqn:E; [apply same_tag_iff in E; contradiction | apply andb_false_r].
Qed.
Lemma own_label xs i x om : nth_error xs i = Some x -> label_ok xs i x om -> told_apart xs -> In om (lb_traffic x) ->
  has_tag_of xs x (fst om) = is_label i (fst om).
Proof.
  intros N L T I. destruct om as [[j|] m]; [|reflexivity]. cbn [fst has_tag_of is_label].
  destruct L as (_ & _ & y & c & Y & _). rewrite Y. destruct (Nat.eqb j i) eqn:E.
  - apply Nat.eqb_eq in E. subst j. assert (y = x) as -> by congruence. apply same_tag_iff. reflexivity.
  - apply Nat.eqb_neq in E. specialize (T i x j m y N I E Y).
    destruct (same_tag (c_tag (lb_command y)) (c_tag (lb_command x))) eqn:S; [apply same_tag_iff in S; contradiction | reflexivity].
Qed.
Lemma ok_exchanges xs : labels_ok xs -> Forall exchange_ok (map unlabelled xs).
Proof.
  intros H. apply Forall_forall. intros e I. apply in_map_iff in I. destruct I as (x & <- & I).
  apply In_nth_error in I. destruct I as (i & N). apply (H i x N).
Qed.
Lemma late_results lib s xs i x : in_use s -> labels_ok xs -> nth_error xs i = Some x ->
  nth_error (snd (converse lib s (map unlabelled xs))) i = Some (Ok (complete (labelled_with (has_tag_of xs x) x))).
Proof.
  intros U H N. destruct (H i x N) as [_ L].
  rewrite (proj1 (conversation_results lib s _ U (ok_exchanges xs H))), map_map, nth_error_map, N. cbn [option_map].
  do 2 f_equal. unfold expected, complete.
  assert (replies (unlabelled x) = labelled_with (has_tag_of xs x) x) as ->; [|reflexivity].
  unfold replies. apply (pick_labels _ (fun om => has_tag_of xs x (fst om))). intros om I. apply (reply_label xs i); [exact N|]. rewrite Forall_forall in L. apply L, I.
Qed.
Lemma own_results lib s xs i x : in_use s -> labels_ok xs -> told_apart xs -> nth_error xs i = Some x ->
  nth_error (snd (converse lib s (map unlabelled xs))) i = Some (Ok (complete (labelled_with (is_label i) x))).
Proof.
  intros U H T N. rewrite (late_results lib s xs i x U H N). do 2 f_equal. unfold complete.
  assert (labelled_with (has_tag_of xs x) x = labelled_with (is_label i) x) as ->; [|reflexivity].
  unfold labelled_with. f_equal. apply filter_ext_in. intros om I. apply (own_label xs); try assumption.
  destruct (H i x N) as [_ L]. rewrite Forall_forall in L. apply L, I.
Qed.
Lemma others_not_own xs i x : labels_ok xs -> told_apart xs -> nth_error xs i = Some x -> others (unlabelled x) = not_own i x.
Proof.
  intros H T N. destruct (H i x N) as [_ L]. rewrite Forall_forall in L.
  unfold others. apply (pick_labels _ (fun om => (s_type (snd om) <=? 3) && negb (is_label i (fst om)))). intros om I. cbn [fst].
  cbn [unlabelled x_command]. rewrite (reply_label xs i x om N (L om I)), (own_label xs i x om N (L om I) T I). reflexivity.
Qed.
Lemma all_others xs : labels_ok xs -> told_apart xs -> forall r pre, xs = pre ++ r ->
  flat_map others (map unlabelled r) = all_not_own (length pre) r.
Proof.
  intros H T. induction r as [|x r IH]; intros pre E; [reflexivity|]. cbn [map flat_map all_not_own].
  rewrite (others_not_own xs (length pre) x H T) by (rewrite E, nth_error_app2, Nat.sub_diag by lia; reflexivity).
  rewrite (IH (pre ++ [x])) by (rewrite <- app_assoc; exact E). rewrite app_length, Nat.add_1_r. reflexivity.
Qed.
Lemma late_others lib s xs : in_use s -> labels_ok xs -> told_apart xs ->
  let s2 := fst (converse lib s (map unlabelled xs)) in
  session_inbox PCallback s2 = session_inbox PCallback s ++ (if to_callback s then all_not_own 0 xs else [])
  /\ session_inbox PUnsolicited s2 = session_inbox PUnsolicited s ++ (if to_callback s then [] else all_not_own 0 xs).
Proof.
  intros U H T. cbv zeta. destruct (conversation_others lib s _ U (ok_exchanges xs H)) as (A & B & _).
  rewrite A, B, (all_others xs H T xs [] eq_refl). split; reflexivity.
Qed.
Lemma nodup_apart xs : NoDup (map (fun x => c_tag (lb_command x)) xs) -> told_apart xs.
Proof.
  intros D i x j m y N _ J Y E. apply J. rewrite NoDup_nth_error in D. apply D.
  - rewrite map_length. apply nth_error_Some. congruence.
  - rewrite !nth_error_map, N, Y. cbn [option_map]. congruence.
Qed.
Lemma draws_in v : In v draws <-> 0 <= v <= 255.
Proof.
  unfold draws. rewrite in_map_iff. split; [intros (k & <- & I); apply in_seq in I; lia|].
  intros B. exists (Z.to_nat v). split; [lia | apply in_seq; lia].
Qed.
Lemma draws_nodup : NoDup draws.
Proof. apply Injective_map_NoDup; [intros a b E; lia | apply seq_NoDup]. Qed.
Lemma draws_hit tags : NoDup tags -> Forall is_byte tags ->
  length (filter (fun v => existsb (Z.eqb v) tags) draws) = length tags.
Proof.
  intros D B. apply Nat.le_antisymm; apply NoDup_incl_length.
  - apply NoDup_filter, draws_nodup.
  - intros v I. apply filter_In in I. destruct I as [_ I]. apply existsb_exists in I. destruct I as (t & I & E). assert (v = t) as -> by lia. exact I.
  - exact D.
  - intros v I. apply filter_In. rewrite Forall_forall in B. split; [apply draws_in, B, I | apply existsb_exists; exists v; split; [exact I | lia]].
Qed.
Lemma not_nodup (l : list (option Z)) : ~ NoDup l -> exists i j t, (i < j)%nat /\ nth_error l i = Some t /\ nth_error l j = Some t.
Proof.
  induction l as [|a l IH]; intros H; [exfalso; apply H; constructor|].
  destruct (in_dec (fun x y : option Z => ltac:(decide equality; apply Z.eq_dec)) a l) as [I|N].
  - apply In_nth_error in I. destruct I as (j & J). exists 0%nat, (S j), a. repeat split; [lia | exact J].
  - destruct IH as (i & j & t & L & A & B); [intros D; apply H; constructor; assumption|].
    exists (S i), (S j), t. repeat split; [lia | exact A | exact B].
Qed.
Lemma collision cs : Forall (fun c => exists v, c_tag c = Some v /\ 0 <= v <= 255) cs -> (256 < length cs)%nat ->
  exists i j a b, (i < j)%nat /\ nth_error cs i = Some a /\ nth_error cs j = Some b /\ c_tag a = c_tag b.
Proof.
  intros F L. destruct (not_nodup (map c_tag cs)) as (i & j & t & O & A & B).
  - intros D. assert (I : incl (map c_tag cs) (map Some draws)).
    { intros t I. apply in_map_iff in I. destruct I as (c & <- & I). rewrite Forall_forall in F. destruct (F c I) as (v & -> & R).
      apply in_map, draws_in, R. }
    pose proof (NoDup_incl_length D I) as X. rewrite !map_length in X. unfold draws in X. rewrite map_length, seq_length in X. lia.
  - rewrite nth_error_map in A, B. destruct (nth_error cs i) as [a|] eqn:EA; [|discriminate A]. destruct (nth_error cs j) as [b|] eqn:EB; [|discriminate B].
    exists i, j, a, b. cbn [option_map] in A, B. repeat split; auto. congruence.
Qed.
Lemma reply_sent n tag r : is_byte n -> reply_ok tag r -> exists p, sent_ok false (mkSent n 1 p (MCmd (reply_seen tag r))).
Proof.
  intros N O. destruct (reply_exists tag r) as (c & C). destruct (reply_transmits tag r c O C) as (bs & E & P & K).
  exists bs. unfold sent_ok. cbn [s_counter s_type s_payload s_msg]. refine (conj N (conj _ (conj P K))). unfold is_byte. lia.
Qed.
Lemma taken_for_own lib s c0 c1 t0 t1 tag r : in_use s -> command_wf c0 -> command_bytes c0 <= 255 -> 0 < t0 ->
  command_wf c1 -> command_bytes c1 <= 255 -> 0 < t1 -> c_tag c0 = Some tag -> c_tag c1 = Some tag -> reply_ok tag r -> re_eop r = true ->
  exists x0 x1, labels_ok [x0; x1] /\ lb_command x0 = c0 /\ lb_command x1 = c1
    /\ labelled_with (is_label 1) x1 = [] /\ labelled_with (is_label 0) x1 = [MCmd (reply_seen tag r)]
    /\ snd (converse lib s (map unlabelled [x0; x1])) = [Ok []; Ok [MCmd (reply_seen tag r)]].
Proof.
  intros U W0 B0 T0 W1 B1 T1 E0 E1 O E. destruct (reply_sent 0 tag r ltac:(unfold is_byte; lia) O) as (p & S).
  set (m := mkSent 0 1 p (MCmd (reply_seen tag r))) in *.
  exists (mkLabelled c0 t0 [] []), (mkLabelled c1 t1 [(Some 0%nat, m)] [wire [m]]).
  assert (Ok_ : labels_ok [mkLabelled c0 t0 [] []; mkLabelled c1 t1 [(Some 0%nat, m)] [wire [m]]]).
  { intros [|[|i]] x N; cbn [nth_error] in N; [injection N as <-|injection N as <-|destruct i; discriminate N].
    - split; [|constructor]. refine (conj W0 (conj B0 (conj T0 (conj (Forall_nil _) eq_refl)))).
    - split; [|constructor; [|constructor]].
      + refine (conj W1 (conj B1 (conj T1 (conj _ _)))); [constructor; [exact S | constructor]|]. cbn [unlabelled x_chunks concat lb_chunks]. apply app_nil_r.
      + unfold label_ok. cbn [fst snd]. refine (conj _ (conj _ _)); [lia | cbn; lia|].
        eexists. eexists. refine (conj eq_refl (conj eq_refl _)). cbn [lb_command reply_seen c_tag]. symmetry. exact E0. }
  refine (conj Ok_ (conj eq_refl (conj eq_refl (conj eq_refl (conj eq_refl _))))).
  rewrite (proj1 (conversation_results lib s _ U (ok_exchanges _ Ok_))). cbn [map]. f_equal. f_equal. f_equal.
  assert (replies (unlabelled (mkLabelled c1 t1 [(Some 0%nat, m)] [wire [m]])) = [MCmd (reply_seen tag r)]) as R.
  { unfold replies, pick. cbn. rewrite E1. unfold is_reply. cbn. rewrite Z.eqb_refl. reflexivity. }
  unfold expected. rewrite R. cbn [existsb ends_execution reply_seen c_completed]. rewrite E. reflexivity.
Qed.
Lemma drawn_tag rnd c : is_byte rnd -> drawn rnd c -> c_tag c = Some rnd.
Proof. intros B (l & r & F & M). destruct (LReser.generated_tag rnd l None r c B Logic.I F M) as (v & T & _ & -> & _). exact T. Qed.
Lemma drawn_hits make tags : (forall rnd, is_byte rnd -> drawn rnd (make rnd)) -> NoDup tags -> Forall is_byte tags ->
  length (filter (fun rnd => tag_is_one_of tags (make rnd)) draws) = length tags.
Proof.
  intros M D B. rewrite (filter_ext_in _ (fun v => existsb (Z.eqb v) tags)); [apply draws_hit; assumption|].
  intros v I. apply draws_in in I. unfold tag_is_one_of. rewrite (drawn_tag v _ I (M v I)). reflexivity.
Qed.
Lemma drawn_collision cs : Forall (fun c => exists rnd, is_byte rnd /\ drawn rnd c) cs -> (256 < length cs)%nat ->
  exists i j a b, (i < j)%nat /\ nth_error cs i = Some a /\ nth_error cs j = Some b /\ c_tag a = c_tag b.
Proof.
  intros F. apply collision. eapply Forall_impl; [|exact F]. intros c (rnd & B & M). exists rnd. split; [apply drawn_tag; assumption | exact B].
Qed.
