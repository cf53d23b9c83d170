(** C102: when there are never two readers at once. *)
From Coq Require Import Lia.
From Verif Require Import SStation MReaders LReaders LReaders2 LReaders3 LReaders4 LStation LStation2.
Set Implicit Arguments.
Close Scope Z_scope.

(** * Readers and calls that start one *)
Definition st (c : Call) : nat := match c with CCreate | CBegin => 1 | _ => 0 end.
Definition lv (t : KThread) : nat := match t with KNew | KEnded => 0 | KBusy c => 1 + st c | _ => 1 end.
Lemma live_lv w : live w <= weigh lv st w.
Proof.
  unfold live, weigh. apply Nat.le_trans with (list_sum (map lv (k_threads w))); [|lia].
  induction (k_threads w) as [|t r IH]; [cbn; lia|]. change (list_sum (map lv (t :: r))) with (lv t + list_sum (map lv r)).
  cbn [filter]. destruct t; cbn [alive_reader lv length]; lia.
Qed.
Lemma none_lv w : live w = 0 -> ~ starting w -> weigh lv st w = 0.
Proof.
  intros L N.
  assert (T : list_sum (map lv (k_threads w)) = 0).
  { unfold live in L. clear N. induction (k_threads w) as [|t r IH]; [reflexivity|]. change (list_sum (map lv (t :: r))) with (lv t + list_sum (map lv r)).
    cbn [filter] in L. destruct t; cbn [alive_reader length lv] in *; try discriminate; apply IH, L. }
  assert (A : forall i c, nth_error (k_apps w) i = Some c -> st c = 0).
  { intros i c E. destruct c; try reflexivity; exfalso; apply N; exists (App i); cbn [the_call]; rewrite E; auto. }
  unfold weigh. rewrite T. revert A. clear. induction (k_apps w) as [|c r IH]; intro A; [reflexivity|].
  change (list_sum (map st (c :: r))) with (st c + list_sum (map st r)). rewrite (A 0 c eq_refl). apply IH. intros i. apply (A (S i)).
Qed.
Lemma step_lv w l v : port_step w l = Some v -> weigh lv st v <= weigh lv st w + (if is_start l then 1 else 0).
Proof.
  set (wg := weigh lv st).
  assert (R : forall u i x y, nth_error (k_threads u) i = Some x -> (wg (set_reader i y u) + lv x = wg u + lv y)%nat)
    by (intros; apply weigh_reader; assumption).
  assert (C : forall u x c d, the_call u x = Some c -> (wg (set_call x d u) + st c = wg u + st d)%nat).
  { intros u x c d E. apply weigh_call; [exact E|]. intros e e'. cbn [lv]. lia. }
  intros H. destruct l as [b|i|i ok|i|x|x|x]; cbn [port_step is_start] in *.
  - destruct (k_open w); [|discriminate]. injection H as <-. unfold wg. rewrite weigh_input. lia.
  - destruct (nth_error (k_threads w) i) as [t|] eqn:E; [|discriminate].
    destruct t as [| | |b|c|]; try discriminate.
    + injection H as <-. specialize (R w i KTop (if k_active w then KRead else KEnded) E). destruct (k_active w); cbn [lv] in *; lia.
    + destruct (k_open w); cbn [negb] in H.
      2:{ injection H as <-. specialize (R w i KRead KEnded E). cbn [lv] in *. lia. }
      destruct (k_cancelled w) eqn:Cn; [|destruct (k_input w) as [|b r] eqn:I; [discriminate|]]; injection H as <-.
      * specialize (R (set_cancelled false w) i KRead KTop). rewrite threads_cancelled in R. specialize (R E). unfold wg in *. rewrite weigh_cancelled in R.
        cbn [lv] in *. lia.
      * specialize (R (set_input r w) i KRead (KGot b)).
        rewrite threads_input in R. specialize (R E). unfold wg in *. rewrite weigh_input in R. cbn [lv] in *. lia.
    + injection H as <-. specialize (R w i (KGot b) (KBusy CNone) E). cbn [lv st] in *. lia.
  - destruct (nth_error (k_threads w) i) as [t|] eqn:E; [|discriminate].
    destruct t as [| | |b|[]|]; try discriminate. injection H as <-.
    specialize (R w i (KBusy CNone) (if ok then KTop else KEnded) E). destruct ok; cbn [lv st] in *; lia.
  - destruct (nth_error (k_threads w) i) as [t|] eqn:E; [|discriminate]. destruct t; try discriminate.
    destruct (k_open w); [|discriminate]. injection H as <-. specialize (R (close_port w) i KRead KEnded).
    rewrite threads_close in R. specialize (R E). unfold wg in *. rewrite weigh_close in R. cbn [lv] in *. lia.
  - destruct (the_call w x) as [[]|] eqn:E; try discriminate. injection H as <-.
    specialize (C (set_active false w) x CNone CCancel). rewrite the_call_active in C. specialize (C E). unfold wg in *. rewrite weigh_active in C. cbn [st] in *. lia.
  - destruct (the_call w x) as [[]|] eqn:E; try discriminate. injection H as <-.
    specialize (C (set_active true w) x CNone CCreate). rewrite the_call_active in C. specialize (C E). unfold wg in *. rewrite weigh_active in C. cbn [st] in *. lia.
  - destruct (the_call w x) as [c|] eqn:E; [|discriminate].
    assert (Q : forall d v', Some (set_call x d w) = Some v' -> (st d <= st c)%nat -> wg v' <= wg w + 0).
    { intros d v' Hq L. injection Hq as <-. specialize (C w x c d E). lia. }
    destruct c; try discriminate.
    + injection H as <-. set (u := set_cancelled _ w).
      specialize (C u x CCancel CLook). unfold u in C at 1. rewrite the_call_cancelled in C. specialize (C E).
      unfold wg in *. replace (weigh lv st u) with (weigh lv st w) in C by (unfold u; rewrite weigh_cancelled; reflexivity). cbn [st] in *. lia.
    + eapply Q; [exact H | cbn; lia].
    + destruct (nth_error (k_threads w) j) as [t|]; [|eapply Q; [exact H | cbn; lia]].
      destruct t; try (eapply Q; [exact H | cbn; lia]);
        (destruct x; [discriminate|]; destruct (Nat.eqb _ _); [eapply Q; [exact H | cbn; lia] | discriminate]).
    + injection H as <-. specialize (C _ x _ CBegin (the_call_create w x E)). unfold wg in *. rewrite weigh_create in C. cbn [lv st] in *. lia.
    + destruct (nth_error (k_threads w) (k_last w)) as [t|] eqn:L; [|eapply Q; [exact H | cbn; lia]].
      destruct t; try (eapply Q; [exact H | cbn; lia]). injection H as <-.
      specialize (C _ x _ CNone (the_call_start w x _ E L)). specialize (R w _ KNew KTop L). cbn [lv st] in *. lia.
Qed.
Lemma start_lv n : weigh lv st (new_port n) = 1.
Proof. unfold weigh, new_port. cbn [k_threads k_apps]. induction n as [|n IH]; [reflexivity|]. exact IH. Qed.

Lemma run_lv lib p n m ls : forall s, station_run lib (station_of p n m) ls = Some s -> one_at_a_time lib (station_of p n m) ls ->
  weigh lv st (st_port s) <= 1.
Proof.
  induction ls as [|x ls IH] using rev_ind; intros s R O.
  - injection R as <-. cbn [station_of st_port]. rewrite start_lv. lia.
  - apply station_snoc in R as (u & R & S).
    assert (Lu : weigh lv st (st_port u) <= 1).
    { apply IH; [exact R|]. intros pre y post v E. apply (O pre y (post ++ [x])). rewrite E, <- app_assoc. reflexivity. }
    destruct (step_parts _ _ _ S) as [P _]. destruct x as [l|i]; cbn [port_labels flat_map app port_run] in P.
    + destruct (port_step (st_port u) l) as [w'|] eqn:E; [|discriminate]. injection P as <-. apply step_lv in E.
      destruct (is_start l) eqn:Is; [|lia]. destruct l as [?|?|?|?|?|y|?]; try discriminate.
      destruct (O ls y [] u eq_refl R) as [L N]. rewrite (none_lv L N) in E. lia.
    + injection P as <-. exact Lu.
Qed.
Lemma turns_alone lib p n m ls s : station_run lib (station_of p n m) ls = Some s -> one_at_a_time lib (station_of p n m) ls ->
  alone lib (station_of p n m) ls.
Proof.
  intros R O pre post v E Rv. apply Nat.le_trans with (weigh lv st (st_port v)); [apply live_lv|].
  eapply run_lv; [exact Rv|]. intros a y b u Ea. apply (O a y (b ++ post)). rewrite E, Ea, <- app_assoc. reflexivity.
Qed.
