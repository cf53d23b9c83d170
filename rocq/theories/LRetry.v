(** Lemmas for C108: repeated calls of connect() *)
From Coq Require Import ZifyBool ZifyNat.
From Verif Require Import LBits LBytes LAction LCommand LRun LTraffic LSend LSerialProps LModem LConnect LConverse SRetry LPrompt LChunk LCounted LDamage.
Open Scope list_scope.
Open Scope Z_scope.

Lemma devices_in_use lib s l chunks : in_use s -> Forall (arrival_ok false) l -> concat chunks = arriving l -> in_use (devices lib s (map DBytes chunks)).
Proof.
  intros (A & B & S & D & U & K) F E. unfold alive in A. pose proof (devices_reader lib chunks s) as R.
  destruct (se_reader s) as [p m a] eqn:Es. cbn [r_parser r_modem r_alive] in *. subst a.
  destruct (reader_hurt lib chunks p m l ltac:(rewrite S; exact F) B E D) as (p' & HR & B' & S' & U' & D'). rewrite HR in R.
  destruct (dispatches_setup (SSerial.delivered (accepted l)) m) as (Q1 & _).
  unfold in_use, alive. rewrite R. cbn [r_alive r_parser r_modem]. rewrite B', S', U', Q1. auto 10.
Qed.
Lemma once_lost lib s a : in_use s -> connected s = false -> try_ok a -> unanswered a = true ->
  exists s2, connect_once lib s a = (s2, Returned (Some false)) /\ in_use s2 /\ connected s2 = false.
Proof.
  intros U C (H & F & E) N. unfold unanswered in N. apply Bool.negb_true_iff in N.
  destruct (connect_lost lib _ s _ _ H U C F E N) as (s1 & B & X). cbv zeta in X.
  destruct (connect_waits _ s H U C) as (c & s1' & _ & _ & B' & _ & U1). rewrite B in B'. injection B' as <-.
  pose proof (devices_in_use lib s1 _ _ U1 F E) as U2.
  unfold connect_once. rewrite B. unfold connect_end in *. destruct (execute_result _) as [|m r] eqn:R.
  - eexists. split; [reflexivity|]. cbn [fst snd] in X. tauto.
  - exfalso. destruct X as [X Y]. destruct m as [z|z|c']; try discriminate X.
    destruct (connect_actions _ _) as [[u f] [e|]]; cbn [fst snd] in *; [discriminate X|].
    assert (E0 : execute_result (devices lib s1 (map DBytes (at_chunks a))) = []).
    { pose proof (session_all lib s1 _ _ U1 F E) as (_ & _ & M).
      destruct (connect_waits _ s H U C) as (c2 & s2 & _ & T & B2 & Ex & _). rewrite B in B2. injection B2 as <-.
      assert (M1 : r_modem (se_reader s1) = exec_start (r_modem (se_reader s)) (c_tag c2) 10).
      { unfold execute in Ex. destruct (build_serial_frame _ _) as [p [bs|e]]; [|discriminate]. injection Ex as <-. reflexivity. }
      pose proof U as (_ & _ & _ & _ & _ & K). unfold execute_result. rewrite M, M1. unfold handled.
      pose proof (proj1 (modem_exchange (r_modem (se_reader s)) (c_tag c2) 10 (mkExchange c2 10 (accepted (at_line a)) []) K ltac:(lia) eq_refl)) as Q.
      cbn [x_traffic] in Q. rewrite Q. unfold expected, replies, pick. cbn [x_traffic x_command]. rewrite existsb_pick, T, N. reflexivity. }
    rewrite E0 in R. discriminate R.
Qed.
Lemma many_lost lib l : forall s, in_use s -> connected s = false -> Forall try_ok l -> forallb unanswered l = true ->
  exists s2, connect_many lib s l = (s2, map (fun _ => Returned (Some false)) l) /\ in_use s2 /\ connected s2 = false.
Proof.
  induction l as [|a l IH]; intros s U C F N; [exists s; cbn; auto|]. inversion F; subst. cbn [forallb] in N. apply Bool.andb_true_iff in N. destruct N as [N1 N2].
  destruct (once_lost lib s a U C H1 N1) as (s1 & E1 & U1 & C1). destruct (IH s1 U1 C1 H2 N2) as (s2 & E2 & U2).
  exists s2. cbn [connect_many map]. rewrite E1, E2. auto.
Qed.
Lemma many_app lib a b : forall s, connect_many lib s (a ++ b) =
  let (s1, p) := connect_many lib s a in let (s2, q) := connect_many lib s1 b in (s2, p ++ q).
Proof.
  induction a as [|x a IH]; intro s; cbn [connect_many app]; [destruct (connect_many lib s b); reflexivity|].
  destruct (connect_once lib s x) as [s1 p]. rewrite IH. destruct (connect_many lib s1 a) as [s2 q]. destruct (connect_many lib s2 b). reflexivity.
Qed.
Lemma end_in_use s : in_use s -> in_use (fst (connect_end s)).
Proof.
  intro U. unfold connect_end. destruct (execute_result s) as [|[z|z|c] r]; try exact U.
  destruct (connect_actions _ _) as [[u f] [e|]]; exact U.
Qed.
Lemma retry lib s tries a c t uid f before later : in_use s -> connected s = false -> Forall try_ok tries -> forallb unanswered tries = true ->
  try_ok a -> length uid = 8%nat -> Forall is_byte uid -> fw_wf f -> is_byte c -> 0 <= t <= 3 ->
  Forall (sent_ok false) before -> Forall (sent_ok false) later -> unrelated (at_tag a) before -> unrelated (at_tag a) later ->
  wire (accepted (at_line a)) = wire before ++ frame c t (connect_answer (at_tag a) uid f) ++ wire later ->
  exists s3, connect_many lib s (tries ++ [a]) = (s3, map (fun _ => Returned (Some false)) tries ++ [Returned (Some true)])
  /\ se_uid s3 = Some (big_endian uid) /\ se_fw s3 = Some (fw_padded f) /\ connected s3 = true /\ in_use s3.
Proof.
  intros U C F N (H & Fa & E) L Bu Wf Bc T O1 O2 R1 R2 W.
  destruct (many_lost lib tries s U C F N) as (s1 & E1 & U1 & C1).
  assert (Rd : ready s1) by (unfold ready; destruct U1 as (X1 & X2 & X3 & X4 & X5 & X6); auto 10).
  destruct (connect_damaged lib (at_tag a) s1 (at_line a) (at_chunks a) [wire (accepted (at_line a))] H U1 C1 Fa E (app_nil_r _)) as (s2 & B & V1 & V2 & V3 & V4).
  destruct (connect_end_to_end lib s1 (at_tag a) c t uid f before later [wire (accepted (at_line a))] Rd H L Bu Wf Bc T O1 O2 R1 R2) as (s2' & s3 & B' & _ & Ce & G1 & G2 & G3).
  { cbn [concat]. rewrite app_nil_r. exact W. }
  rewrite B in B'. injection B' as <-. rewrite Ce in V1, V2, V3, V4. cbn [fst snd] in *.
  destruct (connect_waits (at_tag a) s1 H U1 C1) as (c' & s2' & _ & _ & B2 & _ & U2). rewrite B in B2. injection B2 as <-.
  pose proof (end_in_use _ (devices_in_use lib s2 _ _ U2 Fa E)) as U3.
  rewrite many_app, E1. cbn [connect_many]. unfold connect_once. rewrite B.
  destruct (connect_end (devices lib s2 (map DBytes (at_chunks a)))) as [s4 p]. cbn [fst snd] in *. subst p.
  exists s4. split; [reflexivity|]. split; [congruence|]. split; [congruence|]. split; [|exact U3]. unfold connected in *. rewrite V2. exact G3.
Qed.
Lemma then_converse lib s tries a c t uid f before later xs : in_use s -> connected s = false -> Forall try_ok tries -> forallb unanswered tries = true ->
  try_ok a -> length uid = 8%nat -> Forall is_byte uid -> fw_wf f -> is_byte c -> 0 <= t <= 3 ->
  Forall (sent_ok false) before -> Forall (sent_ok false) later -> unrelated (at_tag a) before -> unrelated (at_tag a) later ->
  wire (accepted (at_line a)) = wire before ++ frame c t (connect_answer (at_tag a) uid f) ++ wire later ->
  Forall exchange_hurt xs ->
  snd (converse lib (fst (connect_many lib s (tries ++ [a]))) xs) = map (fun x => Ok (expected x)) xs.
Proof.
  intros U C F N A L Bu Wf Bc T O1 O2 R1 R2 W X.
  destruct (retry lib s tries a c t uid f before later U C F N A L Bu Wf Bc T O1 O2 R1 R2 W) as (s3 & E & _ & _ & _ & U3).
  rewrite E. cbn [fst]. exact (proj1 (hurt_results lib s3 xs U3 X)).
Qed.
