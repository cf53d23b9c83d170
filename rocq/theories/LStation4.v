(** C102: [stop_reading] and [start_reading] in turn. *)
From Coq Require Import Lia.
From Verif Require Import SStation MReaders LReaders LReaders2 LReaders3 LReaders4 LReaders6 LStation LStation2 LStation3.
Set Implicit Arguments.
Close Scope Z_scope.

Definition quiet (w : Port) : Prop := forall i t, nth_error (k_threads w) i = Some t -> alive_reader t = false.
Record alt (next : bool) (w : Port) : Prop := mkAlt
  { al_others : forall x c, the_call w x = Some c -> x <> App 0 -> c = CNone;
    al_last : k_last w < length (k_threads w);
    al_alive : forall i t, nth_error (k_threads w) i = Some t -> alive_reader t = true -> i = k_last w;
    al_call : forall c, the_call w (App 0) = Some c -> match c with
      | CNone => next = false -> quiet w
      | CCancel | CLook => next = false
      | CJoin j => next = false /\ j = k_last w
      | CCreate | CBegin => next = true /\ quiet w
      end }.
Lemma last_reader i t w : k_last (set_reader i t w) = k_last w. Proof. destruct w; reflexivity. Qed.
Lemma last_call x c w : k_last (set_call x c w) = k_last w. Proof. destruct w, x; reflexivity. Qed.
Lemma length_reader i t w : length (k_threads (set_reader i t w)) = length (k_threads w).
Proof. destruct w as [a0 a1 a2 a3 a4 a5 a6]. apply set_length. Qed.
Lemma alt_same next w v : k_last v = k_last w -> k_threads v = k_threads w -> k_apps v = k_apps w -> alt next w -> alt next v.
Proof.
  intros L T A [O La Al C].
  assert (Tc : forall x, the_call v x = the_call w x) by (intros [i|i]; cbn [the_call]; rewrite ?T, ?A; reflexivity).
  assert (Qv : quiet w -> quiet v) by (unfold quiet; rewrite T; auto).
  split.
  - intros x c. rewrite Tc. apply O.
  - congruence.
  - rewrite T, L. exact Al.
  - intros c. rewrite Tc. intro E. specialize (C c E). rewrite L. destruct c; intuition.
Qed.
(** a live reader goes on *)
Lemma alt_reader next w i x y : alt next w -> nth_error (k_threads w) i = Some x -> alive_reader x = true ->
  (forall c, y = KBusy c -> c = CNone) -> alt next (set_reader i y w).
Proof.
  intros [O La Al C] E A Y. pose proof (Al i x E A) as Ei.
  assert (NQ : ~ quiet w) by (intro Q; rewrite (Q i x E) in A; discriminate).
  split.
  - intros z c H N. destruct (calls_set_reader _ _ _ _ H) as [H'|H']; [apply Y; exact H' | eapply O; eassumption].
  - rewrite last_reader, length_reader. exact La.
  - intros j t Ej At. rewrite last_reader. rewrite nth_set_reader in Ej. destruct (Nat.eqb_spec i j) as [<-|Nj]; [exact Ei | eapply Al; eassumption].
  - intros c H. rewrite app_set_reader in H. specialize (C c H). rewrite last_reader. destruct c; try exact C.
    + intro Nx. destruct (NQ (C Nx)).
    + destruct C as [_ Q]. destruct (NQ Q).
    + destruct C as [_ Q]. destruct (NQ Q).
Qed.
(** the application's thread goes on in its call *)
Lemma alt_call' w d : (forall x c, the_call w x = Some c -> x <> App 0 -> c = CNone) -> k_last w < length (k_threads w) ->
  (forall i t, nth_error (k_threads w) i = Some t -> alive_reader t = true -> i = k_last w) -> the_call w (App 0) <> None ->
  forall next', match d with
      | CNone => next' = false -> quiet w
      | CCancel | CLook => next' = false
      | CJoin j => next' = false /\ j = k_last w
      | CCreate | CBegin => next' = true /\ quiet w
      end -> alt next' (set_call (App 0) d w).
Proof.
  intros O La Al E next' D.
  assert (T : k_threads (set_call (App 0) d w) = k_threads w) by (destruct w; reflexivity).
  assert (Qv : quiet w -> quiet (set_call (App 0) d w)) by (unfold quiet; rewrite T; auto).
  split.
  - intros x c H N. apply (O x c); [|exact N]. destruct w as [a0 a1 a2 a3 a4 a5 a6], x as [i|i]; cbn [the_call set_call k_apps k_threads] in *; [|exact H].
    rewrite nth_set in H. destruct (Nat.eqb_spec 0 i) as [<-|Ni]; [congruence | exact H].
  - rewrite last_call, T. exact La.
  - rewrite T, last_call. exact Al.
  - intros c H. destruct (the_call w (App 0)) as [c0|] eqn:E0; [|congruence].
    rewrite (app_set_call_own w 0 d E0) in H. injection H as <-. rewrite last_call. destruct d; intuition.
Qed.
Lemma alt_call next w d : alt next w -> the_call w (App 0) <> None ->
  forall next', match d with
      | CNone => next' = false -> quiet w
      | CCancel | CLook => next' = false
      | CJoin j => next' = false /\ j = k_last w
      | CCreate | CBegin => next' = true /\ quiet w
      end -> alt next' (set_call (App 0) d w).
Proof. intros [O La Al C]. apply alt_call'; assumption. Qed.
Lemma alt_active next w b : alt next w -> alt next (set_active b w).
Proof. apply alt_same; destruct w; reflexivity. Qed.
Lemma alt_step w l v next : port_step w l = Some v -> alt next w ->
  match l with
  | KStop x => x = App 0 -> next = true -> alt false v
  | KStart x => x = App 0 -> next = false -> alt true v /\ live w = 0 /\ ~ starting w
  | _ => alt next v
  end.
Proof.
  intros H A. destruct l as [b|i|i ok|i|x|x|x]; cbn [port_step] in H.
  - destruct (k_open w); [|discriminate]. injection H as <-. revert A. apply alt_same; destruct w; reflexivity.
  - destruct (nth_error (k_threads w) i) as [t|] eqn:E; [|discriminate].
    destruct t as [| | |b|c|]; try discriminate.
    + injection H as <-. eapply alt_reader; [exact A | exact E | reflexivity|]. intros c. destruct (k_active w); discriminate.
    + destruct (k_open w); cbn [negb] in H.
      2:{ injection H as <-. eapply alt_reader; [exact A | exact E | reflexivity | discriminate]. }
      destruct (k_cancelled w); [|destruct (k_input w) as [|b r]; [discriminate|]]; injection H as <-;
        (eapply alt_reader; [revert A; apply alt_same; destruct w; reflexivity | rewrite ?threads_cancelled, ?threads_input; exact E | reflexivity | discriminate]).
    + injection H as <-. eapply alt_reader; [exact A | exact E | reflexivity|]. intros c Hc. injection Hc as <-. reflexivity.
  - destruct (nth_error (k_threads w) i) as [t|] eqn:E; [|discriminate].
    destruct t as [| | |b|[]|]; try discriminate. injection H as <-.
    eapply alt_reader; [exact A | exact E | reflexivity|]. intros c. destruct ok; discriminate.
  - destruct (nth_error (k_threads w) i) as [t|] eqn:E; [|discriminate]. destruct t; try discriminate.
    destruct (k_open w); [|discriminate]. injection H as <-.
    eapply alt_reader; [revert A; apply alt_same; destruct w; reflexivity | rewrite threads_close; exact E | reflexivity | discriminate].
  - intros -> ->. destruct (the_call w (App 0)) as [[]|] eqn:E; try discriminate. injection H as <-.
    apply (@alt_call true); [apply alt_active; exact A | rewrite the_call_active, E; discriminate | reflexivity].
  - intros -> ->. destruct (the_call w (App 0)) as [[]|] eqn:E; try discriminate. injection H as <-.
    pose proof (al_call A E) as Q. cbn in Q. specialize (Q eq_refl). split.
    + apply (@alt_call false); [apply alt_active; exact A | rewrite the_call_active, E; discriminate|]. split; [reflexivity|].
      unfold quiet. rewrite threads_active. exact Q.
    + split.
      * unfold live. unfold quiet in Q. revert Q. generalize (k_threads w). clear. intro ts. induction ts as [|t ts IH]; intro Q; [reflexivity|].
        cbn [filter]. rewrite (Q 0 t eq_refl). apply IH. intros i. apply (Q (S i)).
      * intros [x X]. assert (N : x = App 0).
        { destruct x as [[|i]|i]; [reflexivity| |]; exfalso; destruct X as [X|X]; pose proof (al_others A X); (assert (Some CNone = Some CNone) by reflexivity);
            (match goal with H : _ -> _ = CNone |- _ => specialize (H ltac:(discriminate)); discriminate H end). }
        subst x. destruct X as [X|X]; congruence.
  - destruct (the_call w x) as [c|] eqn:E; [|discriminate].
    assert (Hx : c <> CNone -> x = App 0).
    { intro N. destruct x as [[|i]|i]; [reflexivity| |]; exfalso; apply N; apply (al_others A E); discriminate. }
    assert (E0 : c <> CNone -> the_call w (App 0) <> None) by (intro N; rewrite <- (Hx N), E; discriminate).
    destruct c as [| | |j| |]; try discriminate; specialize (Hx ltac:(discriminate)); specialize (E0 ltac:(discriminate)); subst x;
      pose proof (al_call A E) as K; cbn in K.
    + injection H as <-. apply (@alt_call next); [revert A; apply alt_same; destruct w; reflexivity | rewrite the_call_cancelled; exact E0 | exact K].
    + injection H as <-. apply (@alt_call next); [exact A | exact E0 | split; [exact K | reflexivity]].
    + destruct K as [K ->].
      assert (Q : nth_error (k_threads w) (k_last w) = None \/ nth_error (k_threads w) (k_last w) = Some KNew \/ nth_error (k_threads w) (k_last w) = Some KEnded ->
         quiet w).
      { intros D i t Ei. destruct (alive_reader t) eqn:At; [|reflexivity]. exfalso. pose proof (al_alive A _ Ei At) as ->.
        destruct D as [D|[D|D]]; rewrite D in Ei; try discriminate; injection Ei as <-; discriminate. }
      destruct (nth_error (k_threads w) (k_last w)) as [[]|]; try discriminate; injection H as <-;
        (apply (@alt_call next); [exact A | exact E0 | intros _; apply Q; auto]).
    + injection H as <-. destruct K as [-> K].
      assert (Ac : alt true (create w)).
      { destruct A as [O La Al C]. destruct w as [a0 a1 a2 a3 ts l aps]. cbn [k_threads k_last] in *. unfold quiet in K. cbn [k_threads] in K.
        assert (Q : forall i t, nth_error (ts ++ [KNew]) i = Some t -> alive_reader t = false).
        { intros i t Ei. destruct (Nat.lt_ge_cases i (length ts)) as [Li|Li]; [rewrite nth_error_app1 in Ei by exact Li; apply (K i t Ei)|].
          rewrite nth_error_app2 in Ei by exact Li. destruct (i - length ts) as [|[|]]; cbn in Ei; try discriminate. injection Ei as <-. reflexivity. }
        split; cbn [create k_threads k_last the_call].
        - intros [i|i] c; cbn [the_call k_apps k_threads]; intros Hc Nx; [apply (O (App i) c Hc Nx)|].
          destruct (nth_error (ts ++ [KNew]) i) as [t|] eqn:Ei; [|discriminate]. destruct t; try discriminate. specialize (Q _ _ Ei). discriminate.
        - rewrite app_length. cbn. lia.
        - intros i t Ei At. rewrite (Q i t Ei) in At. discriminate.
        - intros c Hc. cbn [k_apps] in Hc. specialize (C c Hc). cbn [the_call k_apps] in E. rewrite E in Hc. injection Hc as <-. split; [reflexivity | exact Q]. }
      apply (@alt_call true); [exact Ac | |].
      * rewrite (the_call_create w (App 0) E). discriminate.
      * split; [reflexivity|]. intros i t Ei. pose proof (al_call Ac (the_call_create w (App 0) E)) as [_ Q]. exact (Q i t Ei).
    + destruct K as [-> K]. injection H as <-.
      destruct (nth_error (k_threads w) (k_last w)) as [t|] eqn:L; [destruct t|];
        try (apply (@alt_call true); [exact A | exact E0 | discriminate]).
      destruct A as [O La Al C]. apply alt_call'; [| | | |discriminate].
      * intros z c Hz N. destruct (calls_set_reader _ _ _ _ Hz) as [Hz'|Hz']; [discriminate | eapply O; eassumption].
      * rewrite last_reader, length_reader. exact La.
      * intros j t Ej At. rewrite last_reader. rewrite nth_set_reader in Ej. destruct (Nat.eqb_spec (k_last w) j) as [<-|Nj]; [reflexivity|].
        rewrite (K j t Ej) in At. discriminate.
      * rewrite app_set_reader. exact E0.
Qed.
Lemma alt_start n : alt true (new_port n).
Proof.
  split; cbn [new_port k_threads k_last length the_call].
  - intros [i|i] c; cbn [the_call new_port k_apps k_threads]; intros H N.
    + apply nth_error_In, repeat_spec in H. exact H.
    + destruct i as [|[|]]; cbn in H; discriminate.
  - lia.
  - intros [|[|]] t; cbn; intros E A; try discriminate. reflexivity.
  - intros c H. cbn [k_apps] in H. apply nth_error_In, repeat_spec in H. subst c. discriminate.
Qed.

(** the next call *)
Fixpoint after (b : bool) (ls : list PortLabel) : bool := match ls with [] => b | _ :: r => after (negb b) r end.
Lemma after_snoc ls : forall b x, after b (ls ++ [x]) = negb (after b ls).
Proof. induction ls as [|y ls IH]; intros b x; [reflexivity|]. cbn [app after]. apply IH. Qed.
Lemma alternation_snoc ls : forall b x, in_alternation b (ls ++ [x]) -> in_alternation b ls /\ x = if after b ls then KStop (App 0) else KStart (App 0).
Proof.
  induction ls as [|y ls IH]; intros b x; cbn [app in_alternation after]; [intros [-> _]; auto|].
  intros [-> H]. apply IH in H as [H ->]. auto.
Qed.
Lemma the_calls_app a b : the_calls (a ++ b) = the_calls a ++ the_calls b.
Proof. unfold the_calls. rewrite port_labels_app, filter_app. reflexivity. Qed.
Lemma run_alt lib p n m ls : forall s, station_run lib (station_of p n m) ls = Some s -> in_alternation true (the_calls ls) ->
  alt (after true (the_calls ls)) (st_port s).
Proof.
  induction ls as [|x ls IH] using rev_ind; intros s R A.
  - injection R as <-. apply alt_start.
  - apply station_snoc in R as (u & R & S). rewrite the_calls_app in *.
    destruct (step_parts _ _ _ S) as [P _]. destruct x as [l|i]; cbn [port_labels flat_map app port_run] in P.
    + destruct (port_step (st_port u) l) as [w'|] eqn:E; [|discriminate]. injection P as <-.
      destruct l as [?|?|?|?|y|y|?]; cbn [the_calls port_labels flat_map app filter] in *; rewrite ?app_nil_r in *;
        try (specialize (IH u R A); pose proof (alt_step _ E IH) as K; exact K).
      * apply alternation_snoc in A as [A Ey]. specialize (IH u R A). pose proof (alt_step _ E IH) as K. cbn in K. rewrite after_snoc.
        destruct (after true (the_calls ls)); [|discriminate]. injection Ey as ->. apply K; reflexivity.
      * apply alternation_snoc in A as [A Ey]. specialize (IH u R A). pose proof (alt_step _ E IH) as K. cbn in K. rewrite after_snoc.
        destruct (after true (the_calls ls)); [discriminate|]. injection Ey as ->. apply K; reflexivity.
    + injection P as <-. cbn [the_calls port_labels flat_map filter] in *. rewrite app_nil_r in *. apply IH; assumption.
Qed.
Lemma alternation_prefix ls : forall b more, in_alternation b (ls ++ more) -> in_alternation b ls.
Proof. induction ls as [|y ls IH]; intros b more; [exact (fun _ => I)|]. cbn [app in_alternation]. intros [-> H]. split; [reflexivity | eapply IH; exact H]. Qed.
Lemma alternation_turns lib p n m ls s : station_run lib (station_of p n m) ls = Some s -> in_alternation true (the_calls ls) ->
  one_at_a_time lib (station_of p n m) ls.
Proof.
  intros R A pre x post v -> Rv.
  change (pre ++ TPort (KStart x) :: post) with (pre ++ [TPort (KStart x)] ++ post) in *. rewrite app_assoc, the_calls_app in A.
  apply alternation_prefix in A. rewrite the_calls_app in A. cbn [the_calls port_labels flat_map app filter] in A.
  apply alternation_snoc in A as [A Ex].
  assert (S : exists v', station_run lib (station_of p n m) (pre ++ [TPort (KStart x)]) = Some v').
  { rewrite app_assoc in R. eapply station_prefix. exact R. }
  destruct S as [v' S]. apply station_snoc in S as (u & Ru & S). rewrite Ru in Rv. injection Rv as ->.
  destruct (step_parts _ _ _ S) as [P _]. cbn [port_labels flat_map app port_run] in P.
  destruct (port_step (st_port v) (KStart x)) as [w'|] eqn:E; [|discriminate].
  pose proof (run_alt _ _ _ _ _ Ru A) as K. pose proof (alt_step _ E K) as Q. cbn in Q.
  destruct (after true (the_calls pre)); [discriminate|]. injection Ex as ->. apply Q; reflexivity.
Qed.
