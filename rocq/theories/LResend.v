(** Lemmas for C70 on a line that damages frames *)
From Coq Require Import ZifyBool ZifyNat.
From Verif Require Import LBits LBytes LAction LCommand LRun LTraffic LSend LSerialProps LModem LConnect LConverse SResend LOta LPrograms LDamage.
Open Scope list_scope.
Open Scope Z_scope.

Lemma round_result lib s c r : in_use s -> command_wf c -> command_bytes c <= 255 -> heard_ok r ->
  exists s1, execute s c 10 = (s1, Ok tt) /\ in_use (devices lib s1 (as_events r))
  /\ execute_result (devices lib s1 (as_events r)) = snd (call_left c r).
Proof.
  intros U W L (F & E). set (x := mkExchange c 10 (accepted (fst r)) (snd r)).
  assert (H : exchange_hurt x) by (refine (conj W (conj L (conj _ _))); [cbn; lia | exists (fst r); auto]).
  destruct (one_hurt lib s x U H) as (s2 & bs & Ex & U2 & _). unfold exchange in Ex. cbn [x_command x_timeout x_chunks x] in Ex.
  destruct (execute s c 10) as [s1 [[]|e]]; [|discriminate Ex]. injection Ex as E2 E3. exists s1. unfold as_events. rewrite E2.
  split; [reflexivity|]. split; [exact U2|]. rewrite <- E2. exact E3.
Qed.
Lemma left_answers c r x : In x (snd (call_left c r)) -> answers (c_tag c) x.
Proof.
  unfold call_left, expected. cbn [snd]. destruct (existsb ends_execution _); [|intros []]. unfold replies, pick. cbn [x_command].
  rewrite in_map_iff. intros ((t & m) & <- & I). apply filter_In in I. destruct I as [_ I]. unfold is_reply in I. cbn [fst snd] in *.
  apply andb_true_iff in I. destruct I as [_ I]. destruct m as [z|z|a]; try discriminate I. unfold answers. exists a. split; [reflexivity|].
  unfold same_tag in I. destruct (c_tag a) as [u|], (c_tag c) as [v|]; try discriminate I; [apply Z.eqb_eq in I; congruence | reflexivity].
Qed.
Lemma left_good lib s c r : execute_result (devices lib s (as_events r)) = snd (call_left c r) ->
  (existsb answer_good (snd (call_left c r)) = true <-> confirmed (call_left c r)).
Proof.
  intro E. pose proof (good_confirmed c (devices lib s (as_events r))) as G. rewrite E in G.
  apply G. intros x I. exact (left_answers c r x I).
Qed.
Lemma resend lib c : command_wf c -> command_bytes c <= 255 -> forall lost s rest, in_use s -> Forall heard_ok lost ->
  Forall (fun r => to_repeat (call_left c r)) lost ->
  exists s1, in_use s1 /\ engineering lib s c (map as_events lost ++ rest) =
    let '(s2, log, st) := engineering lib s1 c rest in (s2, map (call_left c) lost ++ log, st).
Proof.
  intros W L. induction lost as [|r lost IH]; intros s rest U O R; cbn [map app].
  { exists s. split; [exact U|]. destruct (engineering lib s c rest) as [[s2 log] st]. reflexivity. }
  inversion O; subst. inversion R; subst. destruct (round_result lib s c r U W L H1) as (s1 & Ex & U1 & Re).
  destruct (IH _ rest U1 H2 H4) as (s2 & U2 & En). exists s2. split; [exact U2|].
  cbn [engineering]. rewrite Ex. fold (devices lib s1 (as_events r)). rewrite Re.
  destruct H3 as [T N]. pose proof (look_at_spec (snd (call_left c r)) false) as LA.
  destruct (look_at_answers (snd (call_left c r)) false) as [b|e].
  - destruct LA as [_ B]. cbn [orb] in B. destruct b.
    + exfalso. apply N. apply (left_good lib s1 c r Re). congruence.
    + rewrite En. destruct (engineering lib s2 c rest) as [[s3 log] st]. reflexivity.
  - exfalso. destruct LA as (_ & m & I & Q). apply Q. exact (T m I).
Qed.
Lemma resend_done lib s c lost r rest : in_use s -> command_wf c -> command_bytes c <= 255 -> Forall heard_ok (lost ++ [r]) ->
  Forall (fun r => to_repeat (call_left c r)) lost -> all_tag_responses (call_left c r) -> confirmed (call_left c r) ->
  exists s2, engineering lib s c (map as_events lost ++ as_events r :: rest) = (s2, map (call_left c) (lost ++ [r]), EngDone) /\ in_use s2.
Proof.
  intros U W L O R A C. apply Forall_app in O. destruct O as [O O1]. inversion O1; subst.
  destruct (resend lib c W L lost s (as_events r :: rest) U O R) as (s1 & U1 & En). rewrite En.
  destruct (round_result lib s1 c r U1 W L H1) as (s2 & Ex & U2 & Re).
  cbn [engineering]. rewrite Ex. fold (devices lib s2 (as_events r)). rewrite Re.
  pose proof (look_at_spec (snd (call_left c r)) false) as LA. destruct (look_at_answers (snd (call_left c r)) false) as [b|e].
  - destruct LA as [_ B]. cbn [orb] in B. apply (left_good lib s2 c r Re) in C. rewrite C in B. subst b.
    eexists. split; [|exact U2]. rewrite map_app. reflexivity.
  - exfalso. destruct LA as (_ & m & I & Q). apply Q. exact (A m I).
Qed.
Lemma resend_goes_on lib s c lost : in_use s -> command_wf c -> command_bytes c <= 255 -> Forall heard_ok lost ->
  Forall (fun r => to_repeat (call_left c r)) lost ->
  exists s2, engineering lib s c (map as_events lost) = (s2, map (call_left c) lost, EngRunning) /\ in_use s2.
Proof.
  intros U W L O R. destruct (resend lib c W L lost s [] U O R) as (s1 & U1 & En). rewrite app_nil_r in En. cbn [engineering] in En.
  rewrite app_nil_r in En. exists s1. auto.
Qed.
