(** Lemmas for C77. *)
From Coq Require Import ZifyBool ZifyNat.
From Verif Require Import STime LBits.
Ltac Zify.zify_post_hook ::= Z.div_mod_to_equations.

(** ** Flags and answers *)
Lemma completed_iff w t : completed_at w t = true <-> complete_by w t.
Proof.
  unfold completed_at, complete_by. rewrite existsb_exists. split; intros (a & I & H); exists a.
  - apply andb_true_iff in H. destruct H as [H1 H2]. apply Z.leb_le in H2. auto.
  - destruct H as [H1 H2]. rewrite H1. split; [exact I|]. cbn [andb]. apply Z.leb_le. exact H2.
Qed.
Lemma complete_later w t t' : complete_by w t -> t <= t' -> complete_by w t'.
Proof. intros (a & I & C & F) L. exists a. repeat split; try assumption. lia. Qed.
Lemma collected_spec t l : arrived_by t l (map an_command (filter (fun a => an_appended a <=? t) l)).
Proof.
  induction l as [|a l IH]; cbn [filter]; [constructor|]. destruct (Z.leb_spec (an_appended a) t); cbn [map].
  - constructor; assumption.
  - apply arrived_no; assumption.
Qed.
Lemma arrived_fun t l cs : arrived_by t l cs -> cs = map an_command (filter (fun a => an_appended a <=? t) l).
Proof.
  induction 1 as [|a l cs L H IH|a l cs L H IH]; cbn [filter]; [reflexivity| |].
  - replace (an_appended a <=? t) with true by lia. cbn [map]. congruence.
  - replace (an_appended a <=? t) with false by lia. exact IH.
Qed.
Lemma collected_in w t t' : filed w -> complete_by w t -> t <= t' ->
  exists c, In c (collected_at w t') /\ c_completed c = true.
Proof.
  intros F (a & I & C & L) T. exists (an_command a). split; [|exact C]. apply in_map. apply filter_In. split; [exact I|].
  apply Z.leb_le. specialize (F a I). lia.
Qed.

(** ** The loop *)
Lemma loop_end w timeout start looks : wait_loop w timeout start looks = Some [] ->
  exists before k, looks = before ++ [k] /\ Forall (fun x => goes_on w timeout start x = true) before
    /\ goes_on w timeout start k = false.
Proof.
  induction looks as [|k r IH]; cbn [wait_loop]; [discriminate|]. destruct (goes_on w timeout start k) eqn:G.
  - intros H. destruct (IH H) as (before & x & -> & F & N). exists (k :: before), x. auto.
  - intros H. injection H as ->. exists [], k. auto.
Qed.
Lemma loop_none w timeout start looks : wait_loop w timeout start looks = None ->
  Forall (fun x => goes_on w timeout start x = true) looks.
Proof.
  induction looks as [|k r IH]; cbn [wait_loop]; [constructor|]. destruct (goes_on w timeout start k) eqn:G; [auto | discriminate].
Qed.
Lemma goes_on_true w timeout start k : goes_on w timeout start k = true ->
  ~ complete_by w (lk_flag k) /\ w_clock w (lk_clock k) - start < timeout.
Proof.
  unfold goes_on. intros H. apply andb_true_iff in H. destruct H as [H1 H2]. apply negb_true_iff in H1. apply Z.ltb_lt in H2.
  split; [|exact H2]. rewrite <- completed_iff. congruence.
Qed.
Lemma goes_on_false w timeout start k : goes_on w timeout start k = false ->
  complete_by w (lk_flag k) \/ timeout <= w_clock w (lk_clock k) - start.
Proof.
  unfold goes_on. intros H. destruct (completed_at w (lk_flag k)) eqn:C; [left; apply completed_iff; exact C|].
  right. cbn [negb andb] in H. lia.
Qed.
Lemma last_app l k : last_look (l ++ [k]) = k.
Proof. apply last_last. Qed.
Lemma in_order_app a l : forall after, in_order after (l ++ [a]) ->
  after <= lk_flag a <= lk_clock a /\ Forall (fun x => after <= lk_flag x <= lk_clock x /\ lk_clock x + 50000 <= lk_flag a) l.
Proof.
  induction l as [|k r IH]; intros after; cbn [app in_order].
  - intros [H _]. auto.
  - intros [H R]. destruct (IH _ R) as [H1 F]. split; [lia|]. constructor; [lia|].
    eapply Forall_impl; [|exact F]. cbv beta. intros x X. lia.
Qed.
Lemma brisk_app e a l : forall after, 0 <= e -> brisk e after (l ++ [a]) ->
  lk_clock a <= lk_flag a + e /\
  (lk_flag a <= after + e /\ l = [] \/ exists r k, l = r ++ [k] /\ lk_clock k <= lk_flag k + e /\ lk_flag a <= lk_clock k + 50000 + e).
Proof.
  induction l as [|k r IH]; intros after E; cbn [app brisk].
  - intros (H & K & _). auto.
  - intros (H & K & R). destruct (IH _ E R) as [H1 [[H2 ->]|(r' & k' & -> & A & B)]]; split; try assumption; right.
    + exists [], k. auto.
    + exists (k :: r'), k'. auto.
Qed.

(** ** The result *)
Lemma waits_inv w timeout began looks final returned l : timeout <> 0 -> execute_waits w timeout began looks final returned = Some l ->
  wait_loop w timeout (w_clock w began) looks = Some [] /\ l = if completed_at w final then collected_at w returned else [].
Proof.
  unfold execute_waits. intros N. replace (timeout =? 0) with false by lia.
  destruct (wait_loop _ _ _ _) as [[|? ?]|]; try discriminate. intros H. injection H as <-. auto.
Qed.
Lemma found w timeout began looks final returned l d :
  timeout <> 0 -> never_back (w_clock w) -> filed w -> schedule began looks final returned ->
  complete_by w d -> w_clock w d - w_clock w began < timeout ->
  execute_waits w timeout began looks final returned = Some l ->
  arrived_by returned (w_answers w) l /\ exists c, In c l /\ c_completed c = true.
Proof.
  intros N M F [O [L1 L2]] D T E. apply waits_inv in E; [|exact N]. destruct E as [E ->].
  destruct (loop_end _ _ _ _ E) as (before & k & -> & _ & G). rewrite last_app in L1.
  apply in_order_app in O. destruct O as [O _].
  assert (C : complete_by w final).
  { apply goes_on_false in G. destruct G as [G|G]; [apply (complete_later _ _ _ G); lia|].
    apply (complete_later _ _ _ D). destruct (Z.le_gt_cases d final) as [H|H]; [exact H|].
    assert (X : w_clock w (lk_clock k) <= w_clock w d) by (apply M; lia). lia. }
  rewrite (proj2 (completed_iff w final) C). split; [apply collected_spec | apply (collected_in w final); assumption].
Qed.
Lemma result_cases w timeout began looks final returned l :
  timeout <> 0 -> filed w -> schedule began looks final returned -> execute_waits w timeout began looks final returned = Some l ->
  (complete_by w final /\ arrived_by returned (w_answers w) l /\ l <> [])
  \/ (~ complete_by w final /\ l = [] /\ timeout <= w_clock w (lk_clock (last_look looks)) - w_clock w began).
Proof.
  intros N F [O [L1 L2]] E. apply waits_inv in E; [|exact N]. destruct E as [E ->].
  destruct (loop_end _ _ _ _ E) as (before & k & -> & _ & G). rewrite last_app in *.
  apply in_order_app in O. destruct O as [O _].
  destruct (completed_at w final) eqn:C.
  - left. apply completed_iff in C. refine (conj C (conj (collected_spec _ _) _)).
    destruct (collected_in w final returned F C L2) as (c & I & _). intros H. rewrite H in I. exact I.
  - right. assert (X : ~ complete_by w final) by (rewrite <- completed_iff; congruence).
    refine (conj X (conj eq_refl _)). apply goes_on_false in G. destruct G as [G|G]; [|exact G].
    exfalso. apply X. apply (complete_later _ _ _ G). lia.
Qed.
(** ** Duration *)
Lemma duration w timeout began looks final returned l e :
  0 < timeout -> 0 <= e -> keeps_up (w_clock w) -> schedule began looks final returned -> prompt e began looks final returned ->
  execute_waits w timeout began looks final returned = Some l -> returned <= began + timeout + 50000 + 4 * e.
Proof.
  intros N Ee K [O [L1 L2]] (B & P1 & P2) E. apply waits_inv in E; [|lia]. destruct E as [E _].
  destruct (loop_end _ _ _ _ E) as (before & k & -> & F & _). rewrite last_app in *.
  apply in_order_app in O. destruct O as [O Fo].
  destruct (brisk_app _ _ _ _ Ee B) as [B1 [[B2 ->]|(r & k' & -> & A1 & A2)]]; [lia|].
  apply Forall_app in F, Fo. destruct F as [_ F], Fo as [_ Fo]. inversion F as [|? ? G _]; subst. inversion Fo as [|? ? G2 _]; subst.
  apply goes_on_true in G. destruct G as [_ G]. pose proof (K began (lk_clock k') ltac:(lia)). lia.
Qed.
Lemma duration_found w timeout began looks final returned l e d :
  0 < timeout -> 0 <= e -> schedule began looks final returned -> prompt e began looks final returned -> complete_by w d ->
  execute_waits w timeout began looks final returned = Some l -> returned <= Z.max began d + 50000 + 5 * e.
Proof.
  intros N Ee [O [L1 L2]] (B & P1 & P2) D E. apply waits_inv in E; [|lia]. destruct E as [E _].
  destruct (loop_end _ _ _ _ E) as (before & k & -> & F & _). rewrite last_app in *.
  apply in_order_app in O. destruct O as [O Fo].
  destruct (brisk_app _ _ _ _ Ee B) as [B1 [[B2 ->]|(r & k' & -> & A1 & A2)]]; [lia|].
  apply Forall_app in F, Fo. destruct F as [_ F], Fo as [_ Fo]. inversion F as [|? ? G _]; subst. inversion Fo as [|? ? G2 _]; subst.
  apply goes_on_true in G. destruct G as [G _].
  assert (X : lk_flag k' < d).
  { destruct (Z.lt_ge_cases (lk_flag k') d) as [H|H]; [exact H|]. exfalso. apply G. apply (complete_later _ _ _ D). lia. }
  lia.
Qed.
Lemma order_reach l : forall after k, in_order after (l ++ [k]) -> after + 50000 * zlen l <= lk_clock k.
Proof.
  induction l as [|x r IH]; intros after k; cbn [app in_order].
  - intros [H _]. change (zlen (@nil Look)) with 0. lia.
  - intros [H R]. apply IH in R. rewrite zlen_cons. lia.
Qed.
Lemma ends w timeout began looks : keeps_up (w_clock w) -> in_order began looks -> looks <> [] ->
  timeout <= 50000 * (zlen looks - 1) -> wait_loop w timeout (w_clock w began) looks <> None.
Proof.
  intros K O N L E. apply loop_none in E. destruct (exists_last N) as (r & k & ->).
  pose proof (order_reach _ _ _ O) as R. rewrite zlen_app in L. change (zlen [k]) with 1 in L.
  apply Forall_app in E. destruct E as [_ E]. inversion E as [|? ? G _]; subst. apply goes_on_true in G. destruct G as [_ G].
  apply in_order_app in O. destruct O as [O _]. pose proof (K began (lk_clock k) ltac:(lia)). lia.
Qed.

(** ** A clock that is set *)
Lemma set_back_longer s d ans timeout began looks final returned l :
  0 < timeout -> 0 <= d -> began < s <= began + timeout -> schedule began looks final returned ->
  (forall t, ~ complete_by (mkWaited ans (set_by s (- d))) t) ->
  execute_waits (mkWaited ans (set_by s (- d))) timeout began looks final returned = Some l ->
  l = [] /\ began + timeout + d <= returned.
Proof.
  intros N D S [O [L1 L2]] X E. apply waits_inv in E; [|lia]. destruct E as [E ->].
  destruct (loop_end _ _ _ _ E) as (before & k & -> & _ & G). rewrite last_app in *.
  destruct (completed_at _ final) eqn:C; [exfalso; apply (X final), completed_iff; exact C|]. split; [reflexivity|].
  apply goes_on_false in G. destruct G as [G|G]; [exfalso; exact (X _ G)|].
  cbn [w_clock] in G. unfold set_by in G. replace (began <? s) with true in G by lia.
  destruct (lk_clock k <? s) eqn:Q; lia.
Qed.

(** a thread that wakes up every 50 ms sharp *)
Definition tick (i : nat) : Look := mkLook (50000 * Z.of_nat i) (50000 * Z.of_nat i).
Definition ticks (from n : nat) : list Look := map tick (seq from n).
Lemma ticks_order n : forall from, in_order (50000 * Z.of_nat from) (ticks from n).
Proof.
  induction n as [|n IH]; intros from; [exact I|]. unfold ticks. cbn [seq map in_order]. split; [cbn [tick lk_flag lk_clock]; lia|].
  cbn [tick lk_clock]. replace (50000 * Z.of_nat from + 50000) with (50000 * Z.of_nat (S from)) by lia. apply IH.
Qed.
Lemma ticks_brisk n : forall from, brisk 0 (50000 * Z.of_nat from) (ticks from n).
Proof.
  induction n as [|n IH]; intros from; [exact I|]. unfold ticks. cbn [seq map brisk]. cbn [tick lk_flag lk_clock].
  refine (conj _ (conj _ _)); try lia.
  replace (50000 * Z.of_nat from + 50000) with (50000 * Z.of_nat (S from)) by lia. apply IH.
Qed.
Lemma ticks_last from n : ticks from (S n) = ticks from n ++ [tick (from + n)].
Proof. unfold ticks. rewrite seq_S, map_app. reflexivity. Qed.
Lemma loop_app w timeout start l k : Forall (fun x => goes_on w timeout start x = true) l -> goes_on w timeout start k = false ->
  wait_loop w timeout start (l ++ [k]) = Some [].
Proof. induction 1 as [|x l G _ IH]; intros N; cbn [app wait_loop]; [rewrite N; reflexivity | rewrite G; apply IH; exact N]. Qed.
Lemma set_back_witness m : let d := 50000 * Z.of_nat m in
  exists looks final returned,
    schedule 0 looks final returned /\ prompt 0 0 looks final returned
    /\ execute_waits (mkWaited [] (set_by 50000 (- d))) 1000000 0 looks final returned = Some []
    /\ returned = 1000000 + d.
Proof.
  cbv zeta. exists (ticks 0 (S (20 + m))), (1000000 + 50000 * Z.of_nat m), (1000000 + 50000 * Z.of_nat m).
  assert (La : lk_clock (last_look (ticks 0 (S (20 + m)))) = 1000000 + 50000 * Z.of_nat m).
  { rewrite ticks_last, last_app. cbn [tick lk_clock]. lia. }
  refine (conj (conj (ticks_order _ 0) _) (conj (conj (ticks_brisk _ 0) _) (conj _ eq_refl))); try (rewrite La; lia).
  unfold execute_waits. change (1000000 =? 0) with false. cbv iota. rewrite ticks_last, loop_app; [reflexivity | |].
  - apply Forall_forall. intros x I. unfold ticks in I. apply in_map_iff in I. destruct I as (i & <- & I). apply in_seq in I.
    unfold goes_on. cbn [completed_at existsb w_answers negb andb w_clock tick lk_clock]. unfold set_by.
    destruct (50000 * Z.of_nat i <? 50000) eqn:Q; change (0 <? 50000) with true; cbv iota; lia.
  - unfold goes_on. cbn [completed_at existsb w_answers negb andb w_clock tick lk_clock]. unfold set_by.
    replace (50000 * Z.of_nat (0 + (20 + m)) <? 50000) with false by lia. change (0 <? 50000) with true. cbv iota. lia.
Qed.
Lemma set_forward_witness : exists w timeout began looks final returned a,
  never_back (w_clock w) /\ filed w /\ schedule began looks final returned /\ prompt 0 began looks final returned
  /\ In a (w_answers w) /\ c_completed (an_command a) = true /\ an_flagged a < began + timeout
  /\ execute_waits w timeout began looks final returned = Some [].
Proof.
  set (a := mkAnswer (mkCommand [] None false (Some 7) true true None) 100000 100000).
  exists (mkWaited [a] (set_by 10 2000000)), 1000000, 0, [mkLook 0 0; mkLook 50000 50000], 50000, 50000, a.
  refine (conj _ (conj _ (conj _ (conj _ (conj _ (conj eq_refl (conj _ eq_refl))))))).
  - intros x y L. cbn [w_clock]. unfold set_by. destruct (x <? 10) eqn:A, (y <? 10) eqn:B; lia.
  - intros x [<-|[]]. cbn. lia.
  - split; cbn; lia.
  - repeat split; cbn; lia.
  - left. reflexivity.
  - cbn. lia.
Qed.
Lemma negative_timeout w timeout began looks final returned l : timeout < 0 -> never_back (w_clock w) ->
  schedule began looks final returned -> execute_waits w timeout began looks final returned = Some l -> length looks = 1%nat.
Proof.
  intros N M [O _] E. apply waits_inv in E; [|lia]. destruct E as [E _].
  destruct (loop_end _ _ _ _ E) as (before & k & -> & F & _). apply in_order_app in O. destruct O as [O Fo].
  destruct before as [|x r]; [reflexivity|]. exfalso. inversion F as [|? ? G _]; subst. inversion Fo as [|? ? G2 _]; subst.
  apply goes_on_true in G. destruct G as [_ G]. assert (X : w_clock w began <= w_clock w (lk_clock x)) by (apply M; lia). lia.
Qed.
Lemma honest_keeps clock : honest clock -> keeps_up clock /\ never_back clock.
Proof. intros H. split; intros a b L; specialize (H a b); lia. Qed.
Lemma zero_timeout w timeout began looks final returned l : timeout = 0 ->
  execute_waits w timeout began looks final returned = Some l -> looks = [] /\ l = [].
Proof. intros ->. unfold execute_waits. change (0 =? 0) with true. cbv iota. destruct looks; [|discriminate]. intros H. injection H as <-. auto. Qed.
