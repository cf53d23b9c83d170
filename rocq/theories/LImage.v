(** Lemmas for C59 on a line that damages frames *)
From Coq Require Import ZifyBool ZifyNat.
From Verif Require Import LBits LBytes LAction LCommand LRun LTraffic LSend LSerialProps LModem LConnect LConverse SImage LOta LPrograms LDamage LResend.
Open Scope list_scope.
Open Scope Z_scope.

Lemma forall_firstn {A} (P : A -> Prop) n l : Forall P l -> Forall P (firstn n l).
Proof. intro F. rewrite <- (firstn_skipn n l) in F. apply Forall_app in F. apply F. Qed.
Lemma forall_skipn {A} (P : A -> Prop) n l : Forall P l -> Forall P (skipn n l).
Proof. intro F. rewrite <- (firstn_skipn n l) in F. apply Forall_app in F. apply F. Qed.
(** one round *)
Lemma image_round lib s rest off r rounds : in_use s -> rest <> [] -> Forall is_byte rest -> 0 <= off <= len_max -> image_round_ok r ->
  exists c s1, c_tag c = Some (fst r) /\ in_use s1 /\
  ota lib s rest off (as_round r :: rounds) =
    if existsb answer_good (snd (call_left c (snd r)))
    then let '(s', log, st) := ota lib s1 (skipn 239 rest) (off + 239) rounds in (s', call_left c (snd r) :: log, st)
    else (s1, [call_left c (snd r)], OtaFailed).
Proof.
  intros U N F O (R & H). assert (Ln : zlen (firstn 239 rest) <= 239) by (unfold zlen; rewrite firstn_length; lia).
  assert (Ne : firstn 239 rest <> []) by (destruct rest; [congruence | discriminate]).
  pose proof (ota_command_eq (fst r) off (firstn 239 rest) (forall_firstn _ _ _ F) Ln) as E.
  assert (OK : (0 <=? off) && (off <=? 1073741823) = true).
  { unfold len_max in O. lia. }
  rewrite OK in E.
  pose proof (ota_cmd_wf (fst r) off _ R O (forall_firstn _ _ _ F) Ln Ne) as W. pose proof (ota_cmd_size (fst r) off _ Ln) as Sz.
  destruct (round_result lib s _ (snd r) U W ltac:(lia) H) as (s1 & Ex & U1 & Re).
  eexists (ota_cmd (fst r) off (firstn 239 rest)), _. split; [reflexivity|]. split; [exact U1|].
  destruct rest as [|b rest]; [congruence|]. cbn [ota as_round]. rewrite E, Ex. fold (devices lib s1 (as_events (snd r))). rewrite Re. reflexivity.
Qed.
Lemma ota_command_err rnd off rest : Forall is_byte rest -> 0 <= off -> ~ off <= len_max -> ota_command rnd off (firstn 239 rest) = Err ValueError.
Proof.
  intros F O L. rewrite ota_command_eq; [|apply forall_firstn; exact F | unfold zlen; rewrite firstn_length; lia].
  unfold len_max in L. replace (off <=? 1073741823) with false by lia. rewrite andb_false_r. reflexivity.
Qed.
Lemma image_results lib rounds : forall s rest off s' log st, in_use s -> Forall is_byte rest -> 0 <= off ->
  Forall image_round_ok rounds -> ota lib s rest off (map as_round rounds) = (s', log, st) ->
  in_use s' /\ Forall2 returned_left log (firstn (length log) rounds).
Proof.
  induction rounds as [|r rounds IH]; intros s rest off s' log st U F O R E.
  { destruct rest; cbn [map ota] in E; injection E as <- <- <-; split; auto; constructor. }
  destruct rest as [|b rest]; [cbn [map ota] in E; injection E as <- <- <-; split; auto; constructor|].
  inversion R; subst. destruct (Z.le_decidable off len_max) as [L|L].
  - destruct (image_round lib s (b :: rest) off r (map as_round rounds) U ltac:(discriminate) F (conj O L) H1) as (c & s1 & T & U1 & Q).
    cbn [map] in E. rewrite Q in E. assert (X : returned_left (call_left c (snd r)) r) by (split; [exact T | reflexivity]).
    destruct (existsb answer_good _).
    + destruct (ota lib s1 (skipn 239 (b :: rest)) (off + 239) (map as_round rounds)) as [[s2 log2] st2] eqn:E2. injection E as <- <- <-.
      destruct (IH s1 (skipn 239 (b :: rest)) (off + 239) s2 log2 st2 U1 (forall_skipn _ _ _ F) ltac:(lia) H2 E2) as [U2 G]. split; [exact U2|]. cbn [length firstn]. constructor; assumption.
    + injection E as <- <- <-. split; [exact U1|]. cbn [length firstn]. constructor; [exact X | constructor].
  - cbn [map ota as_round] in E. rewrite (ota_command_err _ off (b :: rest) F O L) in E. injection E as <- <- <-. split; auto. constructor.
Qed.
Lemma left_good' c r : existsb answer_good (snd (call_left c r)) = true <-> confirmed (call_left c r).
Proof.
  rewrite existsb_exists. unfold confirmed. split.
  - intros (x & I & G). destruct (left_answers c r x I) as (a & -> & T). exists a. cbn in G. apply andb_true_iff in G. destruct G as [G1 G2].
    split; [exact I|]. split; [exact T|]. split; [exact G1|]. destruct (c_error a) as [[|]|]; congruence.
  - intros (a & I & T & G1 & G2). exists (MCmd a). split; [exact I|]. cbn. rewrite G1. destruct (c_error a) as [[|]|]; try reflexivity. congruence.
Qed.
Lemma image_stops lib good : forall s rest off r more, in_use s -> Forall is_byte rest -> 0 <= off -> off + zlen rest <= len_max ->
  Forall image_round_ok (good ++ [r]) -> Forall confirmation_left good -> confirmation_lost r -> (239 * length good < length rest)%nat ->
  exists s' log, ota lib s rest off (map as_round (good ++ r :: more)) = (s', log, OtaFailed) /\ length log = Datatypes.S (length good) /\ in_use s'.
Proof.
  induction good as [|g good IH]; intros s rest off r more U F O L R G X Ln; cbn [app map] in *; inversion R; subst.
  - destruct (image_round lib s rest off r (map as_round more) U ltac:(destruct rest; [cbn in Ln; lia | discriminate]) F) as (c & s1 & T & U1 & Q); [unfold zlen in L; lia | assumption |].
    rewrite Q. specialize (X c T). rewrite <- left_good' in X. apply not_true_is_false in X. rewrite X.
    eexists _, _. split; [reflexivity|]. split; [reflexivity | exact U1].
  - inversion G; subst. cbn [length] in Ln.
    destruct (image_round lib s rest off g (map as_round (good ++ r :: more)) U ltac:(destruct rest; [cbn in Ln; lia | discriminate]) F) as (c & s1 & T & U1 & Q); [unfold zlen in L; lia | assumption |].
    rewrite Q. specialize (H3 c T). rewrite <- left_good' in H3. rewrite H3.
    assert (Lr : (length (skipn 239 rest) = length rest - 239)%nat) by apply skipn_length.
    destruct (IH s1 (skipn 239 rest) (off + 239) r more U1 (forall_skipn _ _ _ F) ltac:(lia)) as (s2 & log & E & Le & U2); try assumption.
    { unfold zlen in *. lia. } { lia. }
    rewrite E. eexists _, _. split; [reflexivity|]. cbn [length]. rewrite Le. split; [reflexivity | exact U2].
Qed.
Lemma image_damaged lib s file good r more : in_use s -> Forall is_byte file -> zlen file <= len_max ->
  Forall image_round_ok (good ++ r :: more) -> Forall confirmation_left good -> confirmation_lost r -> (239 * length good < length file)%nat ->
  exists s' log bytes, ota lib s file 0 (map as_round (good ++ r :: more)) = (s', log, OtaFailed) /\ length log = Datatypes.S (length good) /\ in_use s'
  /\ se_sent s' = se_sent s ++ bytes /\ received_over lib bytes (commands_of log)
  /\ forall old, fold_left (node_receives 200) (commands_of log) old
     = firstn (239 * Datatypes.S (length good)) file ++ skipn (Nat.min (239 * Datatypes.S (length good)) (length file)) old.
Proof.
  intros U F L R G X Ln.
  assert (R1 : Forall image_round_ok (good ++ [r])).
  { apply Forall_app in R. destruct R as [R1 R2]. inversion R2; subst. apply Forall_app. auto. }
  destruct (image_stops lib good s file 0 r more U F ltac:(lia) ltac:(lia) R1 G X Ln) as (s' & log & E & Le & U').
  assert (Q : ota_run lib s file (map as_round (good ++ r :: more)) s' log OtaFailed).
  { refine (conj _ (conj F (conj _ E))); [unfold usable_session; destruct U as (_ & _ & _ & _ & X5 & X6); auto|].
    apply Forall_map. revert R. apply Forall_impl. intros x [A _]. exact A. }
  destruct (ota_node _ _ _ _ _ _ _ Q) as (bytes & S1 & S2 & S3). rewrite Le in S3. exists s', log, bytes. auto 10.
Qed.
