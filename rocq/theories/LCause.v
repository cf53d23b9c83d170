(** Lemmas for C95 *)
From Coq Require Import ZifyBool ZifyNat String Ascii.
From Verif Require Import SCause LRun LSerial LReport LReport2.
Open Scope list_scope.
Open Scope Z_scope.
Ltac Zify.zify_post_hook ::= Z.div_mod_to_equations.

Lemma raises_sync b r : is_byte b -> b <> 192 -> header_raises (b :: r) = Some (wording (NoSync b)).
Proof.
  intros B N. unfold header_raises, stream_of. rewrite read_byte by exact B.
  replace (b =? 192) with false by lia. reflexivity.
Qed.
Lemma raises_version v r : is_byte v -> v <> 0 -> header_raises (192 :: v :: r) = Some (wording (OtherVersion v)).
Proof.
  intros B N. unfold header_raises, stream_of. rewrite read_byte by (unfold is_byte; lia).
  change (192 =? 192) with true. cbn [negb]. rewrite read_byte by exact B.
  replace (v =? 0) with false by lia. reflexivity.
Qed.
Lemma raises_full c t h l payload rest :
  is_byte c -> is_byte t -> is_byte h -> is_byte l -> is_payload payload -> Forall is_byte rest ->
  header_raises (192 :: 0 :: c :: t :: zlen payload :: h :: l :: payload ++ rest) =
  if negb (fst (calculate_crc payload) =? h) || negb (snd (calculate_crc payload) =? l)
  then Some (wording (WrongCrc h l (fst (calculate_crc payload)) (snd (calculate_crc payload)))) else None.
Proof.
  intros Bc Bt Bh Bl [Fp Lp] Fr. unfold header_raises. set (buf := _ :: _ :: _).
  assert (E : header_fields (zlen buf) (stream_of buf) = Ok ((c, t, zlen payload, h, l, payload), St 56 (bytes_bits (payload ++ rest)))).
  { unfold buf. rewrite header_full; try assumption;
    [|pose proof (zlen_nonneg payload); unfold is_byte; lia | apply Forall_app; auto].
    rewrite !zlen_cons, zlen_app. pose proof (zlen_nonneg rest).
    replace (_ <? zlen payload) with false by lia. replace (_ <? zlen payload) with false by lia.
    rewrite firstn_app_exact by (unfold zlen; lia). reflexivity. }
  rewrite E. unfold buf, stream_of. rewrite read_byte by (unfold is_byte; lia).
  change (192 =? 192) with true. cbn [negb]. rewrite read_byte by (unfold is_byte; lia).
  change (0 =? 0) with true. cbn [negb]. destruct (calculate_crc payload) as [a b]. cbn [fst snd].
  destruct (negb (a =? h) || negb (b =? l)); reflexivity.
Qed.
Lemma raises_frame c t payload rest : is_byte c -> is_byte t -> is_payload payload -> Forall is_byte rest ->
  header_raises (frame c t payload ++ rest) = None.
Proof.
  intros Bc Bt P F. pose proof (calc_bytes payload) as [H1 H2]. unfold frame. destruct (calculate_crc payload) as [a b] eqn:E. cbn [fst snd] in *.
  cbn [app]. rewrite raises_full by assumption. rewrite E. cbn [fst snd]. rewrite !Z.eqb_refl. reflexivity.
Qed.

(** every attempt that fails for good *)
Lemma failed_attempt skip buf o e : Forall is_byte buf -> buf <> [] -> attempt skip buf = (o, Err e) -> (forall lib, is_read_error lib e = false) \/ e <> ReadError ->
  (exists c, complains buf c /\ of_bytes c /\ header_raises buf = Some (wording c) /\ e = ParseError)
  \/ (exists c t payload rest, buf = frame c t payload ++ rest /\ is_byte c /\ is_byte t /\ is_payload payload /\ Forall is_byte rest
      /\ header_raises buf = None /\ body_res skip t payload rest = Err e).
Proof.
  intros F N A R. assert (RE : e <> ReadError) by (destruct R as [R|R]; [intros ->; specialize (R true); discriminate R | exact R]).
  pose proof (attempt_cases skip buf F N) as C. rewrite A in C. inversion C; subst; clear C.
  - left. exists (NoSync b). refine (conj (co_sync _ _ _) (conj _ (conj (raises_sync _ _ _ _) eq_refl))); assumption.
  - left. exists (OtherVersion b). refine (conj (co_version _ _ _) (conj _ (conj (raises_version _ _ _ _) eq_refl))); assumption.
  - congruence.
  - congruence.
  - congruence.
  - left. pose proof (calc_bytes payload) as [Ba Bb]. destruct (calculate_crc payload) as [a b] eqn:E. cbn [fst snd] in *.
    exists (WrongCrc h l a b). refine (conj (co_crc _ _ _ _ _ _ _ _ E _) (conj _ (conj _ eq_refl))); [congruence | cbn [of_bytes]; auto |].
    rewrite raises_full by assumption. rewrite E. cbn [fst snd].
    destruct (Z.eqb_spec a h) as [->|]; cbn [negb orb]; [|reflexivity]. destruct (Z.eqb_spec b l) as [->|]; [congruence | reflexivity].
  - right. exists c, t, payload, rest. repeat (split; [first [reflexivity | assumption]|]). split; [apply raises_frame; assumption | congruence].
Qed.
Lemma complaint_fails skip buf c : Forall is_byte buf -> complains buf c ->
  exists o, attempt skip buf = (o, Err ParseError) /\ header_raises buf = Some (wording c).
Proof.
  intros F C. inversion C; subst.
  - inversion F; subst. exists None. split; [apply attempt_sync | apply raises_sync]; assumption.
  - inversion F as [|? ? ? F1]; subst. inversion F1; subst. exists None. split; [apply attempt_version | apply raises_version]; assumption.
  - repeat match goal with K : Forall _ (_ :: _) |- _ => inversion K; clear K; subst end.
    match goal with K : Forall _ (_ ++ _) |- _ => apply Forall_app in K; destruct K as [Fp Fr] end.
    assert (P : is_payload payload) by (split; [assumption | unfold is_byte in *; lia]).
    exists (Some c0). rewrite attempt_full, raises_full by assumption.
    match goal with K : calculate_crc payload = _ |- _ => rewrite K end. cbn [fst snd].
    destruct (Z.eqb_spec a h) as [->|]; cbn [negb orb]; [|auto]. destruct (Z.eqb_spec b l) as [->|]; [congruence | auto].
Qed.
Lemma complains_once buf c d : complains buf c -> complains buf d -> c = d.
Proof.
  intros A B. destruct A as [x r N|v r N|c t h l payload r a b E N]; inversion B; subst; try congruence.
  match goal with K : payload0 ++ _ = payload ++ _ |- _ => pose proof K as KK end.
  assert (payload0 = payload).
  { match goal with K : zlen payload0 = zlen payload |- _ => rename K into L end.
    apply (f_equal (firstn (List.length payload))) in KK.
    rewrite !firstn_app in KK. unfold zlen in L. replace (List.length payload0) with (List.length payload) in KK by lia.
    rewrite Nat.sub_diag in KK. rewrite !firstn_O, !app_nil_r in KK. rewrite firstn_all in KK.
    rewrite firstn_all2 in KK by lia. exact KK. }
  subst payload0. congruence.
Qed.
