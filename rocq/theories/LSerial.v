(** One attempt of the serial parser. *)
From Coq Require Import ZifyBool ZifyNat.
From Verif Require Export SSerial LTags.
Ltac Zify.zify_post_hook ::= Z.div_mod_to_equations.

(** one pass over the buffer: counter of the header (when complete) and result *)
Definition attempt (skip : bool) (buf : list Z) : option Z * res (Z * Msg * nat) :=
  match header_fields (zlen buf) (stream_of buf) with
  | Err e => (None, Err e)
  | Ok ((counter, t, n, crc1, crc2, payload), s) =>
      let (h, l) := calculate_crc payload in
      (Some counter,
       if negb (h =? crc1) || negb (l =? crc2) then Err ParseError
       else let! (m, s') := parse_body skip t n s in Ok (t, m, pos s'))
  end.

Lemma read_byte p b r : is_byte b -> read_uint 8 (St p (bytes_bits (b :: r))) = Ok (b, St (p + 8) (bytes_bits r)).
Proof.
  intros H. rewrite bytes_bits_cons. rewrite read_uint_app by apply Zbits_length.
  rewrite bits_val_Zbits_small by (apply is_byte_range; exact H). reflexivity.
Qed.
Lemma read_byte_nil p : read_uint 8 (St p (bytes_bits [])) = Err ReadError.
Proof. reflexivity. Qed.

Ltac rd := rewrite read_byte by assumption; cbv iota beta.
Lemma header_sync n b r : is_byte b -> b <> 192 -> header_fields n (stream_of (b :: r)) = Err ParseError.
Proof.
  intros B N. unfold header_fields, stream_of, bindp. rd.
  replace (b =? 192) with false by lia. reflexivity.
Qed.
Lemma header_version n b r : is_byte b -> b <> 0 -> header_fields n (stream_of (192 :: b :: r)) = Err ParseError.
Proof.
  intros B N. unfold header_fields, stream_of, bindp. rewrite read_byte by (unfold is_byte; lia). cbv iota beta.
  cbn [Z.eqb Pos.eqb negb]. rd. replace (b =? 0) with false by lia. reflexivity.
Qed.
Lemma header_one n : header_fields n (stream_of [192]) = Err ReadError.
Proof. reflexivity. Qed.
Lemma header_short n r : Forall is_byte r -> (length r < 5)%nat ->
  header_fields n (stream_of (192 :: 0 :: r)) = Err ReadError.
Proof.
  intros F L. unfold header_fields, stream_of, bindp.
  rewrite read_byte by (unfold is_byte; lia). cbv iota beta. cbn [Z.eqb Pos.eqb negb].
  rewrite read_byte by (unfold is_byte; lia). cbv iota beta. cbn [Z.eqb Pos.eqb negb].
  do 5 (destruct r as [|? r]; [rewrite ?read_byte_nil; reflexivity |
    inversion F as [|? ? ? F']; clear F; rename F' into F; subst; rd]).
  cbn [length] in L. lia.
Qed.
Lemma bits_skip n b : (n <= length b)%nat -> skipn (8 * n) (bytes_bits b) = bytes_bits (skipn n b).
Proof.
  intros L. rewrite <- (firstn_skipn n b) at 1. rewrite bytes_bits_app. apply skipn_app_exact.
  rewrite bytes_bits_length, firstn_length. lia.
Qed.
Lemma bits_first n b : (n <= length b)%nat -> firstn (8 * n) (bytes_bits b) = bytes_bits (firstn n b).
Proof.
  intros L. rewrite <- (firstn_skipn n b) at 1. rewrite bytes_bits_app. apply firstn_app_exact.
  rewrite bytes_bits_length, firstn_length. lia.
Qed.
Lemma read_bytes_app p l r : Forall is_byte l ->
  read_bytes (zlen l) (St p (bytes_bits (l ++ r))) = Ok (l, St (p + 8 * length l) (bytes_bits r)).
Proof.
  intros F. rewrite bytes_bits_app. pose proof (accepts_bytes (zlen l) l F eq_refl p (bytes_bits r)) as K.
  rewrite K, bytes_bits_length. repeat f_equal; lia.
Qed.
Lemma header_full n c t len h l body :
  is_byte c -> is_byte t -> is_byte len -> is_byte h -> is_byte l -> Forall is_byte body ->
  header_fields n (stream_of (192 :: 0 :: c :: t :: len :: h :: l :: body)) =
  if n - 7 <? len then Err ReadError
  else if zlen body <? len then Err ReadError
  else Ok ((c, t, len, h, l, firstn (Z.to_nat len) body), St 56 (bytes_bits body)).
Proof.
  intros Bc Bt Bn Bh Bl F. unfold header_fields, stream_of, bindp.
  rewrite read_byte by (unfold is_byte; lia). cbv iota beta. cbn [Z.eqb Pos.eqb negb].
  rewrite read_byte by (unfold is_byte; lia). cbv iota beta. cbn [Z.eqb Pos.eqb negb].
  do 5 rd. unfold bytepos. cbn [pos Nat.add].
  change (Z.of_nat 56 mod 8 =? 0) with true. cbv iota beta.
  change (Z.of_nat 56 / 8) with 7. destruct (n - 7 <? len); [reflexivity|].
  unfold read_bytes. cbn [bits pos].
  assert (E : zlen (bytes_bits body) = 8 * zlen body) by (unfold zlen; rewrite bytes_bits_length; lia).
  rewrite E. replace (8 * zlen body <? 8 * len) with (zlen body <? len) by lia.
  unfold is_byte in Bn. destruct (zlen body <? len) eqn:L; [reflexivity|].
  unfold zlen in L. replace (Z.to_nat (8 * len)) with (8 * Z.to_nat len)%nat by lia.
  rewrite bits_first by lia. rewrite bits_bytes_bytes_bits; [reflexivity|].
  rewrite <- (firstn_skipn (Z.to_nat len) body) in F. apply Forall_app in F. tauto.
Qed.

(** ** The cases of an attempt *)
Definition body_res (skip : bool) t payload rest : res (Z * Msg * nat) :=
  let! (m, s') := parse_body skip t (zlen payload) (St 56 (bytes_bits (payload ++ rest))) in Ok (t, m, pos s').

Lemma attempt_sync skip b r : is_byte b -> b <> 192 -> attempt skip (b :: r) = (None, Err ParseError).
Proof. intros B N. unfold attempt. rewrite header_sync by assumption. reflexivity. Qed.
Lemma attempt_version skip b r : is_byte b -> b <> 0 -> attempt skip (192 :: b :: r) = (None, Err ParseError).
Proof. intros B N. unfold attempt. rewrite header_version by assumption. reflexivity. Qed.
Lemma attempt_short skip r : Forall is_byte r -> (length r < 5)%nat -> attempt skip (192 :: 0 :: r) = (None, Err ReadError).
Proof. intros B N. unfold attempt. rewrite header_short by assumption. reflexivity. Qed.
Lemma attempt_wait skip c t len h l body :
  is_byte c -> is_byte t -> is_byte len -> is_byte h -> is_byte l -> Forall is_byte body -> zlen body < len ->
  attempt skip (192 :: 0 :: c :: t :: len :: h :: l :: body) = (None, Err ReadError).
Proof.
  intros. unfold attempt. rewrite header_full by assumption. rewrite !zlen_cons.
  replace (_ <? len) with true by lia. reflexivity.
Qed.
Lemma attempt_full skip c t h l payload rest :
  is_byte c -> is_byte t -> is_byte h -> is_byte l -> is_payload payload -> Forall is_byte rest ->
  attempt skip (192 :: 0 :: c :: t :: zlen payload :: h :: l :: payload ++ rest) =
  (Some c, if negb (fst (calculate_crc payload) =? h) || negb (snd (calculate_crc payload) =? l) then Err ParseError
           else body_res skip t payload rest).
Proof.
  intros Bc Bt Bh Bl [Fp Lp] Fr. unfold attempt. rewrite header_full; try assumption;
  [|pose proof (zlen_nonneg payload); unfold is_byte; lia | apply Forall_app; auto].
  rewrite !zlen_cons, zlen_app. pose proof (zlen_nonneg rest).
  replace (_ <? zlen payload) with false by lia. replace (_ <? zlen payload) with false by lia.
  rewrite firstn_app_exact by (unfold zlen; lia). destruct (calculate_crc payload) as [a b]. reflexivity.
Qed.
Lemma attempt_frame skip c t payload rest :
  is_byte c -> is_byte t -> is_payload payload -> Forall is_byte rest ->
  is_byte (fst (calculate_crc payload)) -> is_byte (snd (calculate_crc payload)) ->
  attempt skip (frame c t payload ++ rest) = (Some c, body_res skip t payload rest).
Proof.
  intros Bc Bt P F H1 H2. unfold frame. destruct (calculate_crc payload) as [a b] eqn:E. cbn [fst snd] in *.
  cbn [app]. rewrite attempt_full by assumption. rewrite E. cbn [fst snd]. rewrite !Z.eqb_refl. reflexivity.
Qed.
Lemma calc_bytes payload : is_byte (fst (calculate_crc payload)) /\ is_byte (snd (calculate_crc payload)).
Proof.
  assert (K : forall v, is_byte (Z.land v 255)).
  { intros v. unfold is_byte. change (Z.land v 255) with (Z.land v (Z.ones 8)). rewrite Z.land_ones by lia.
    pose proof (Z.mod_pos_bound v (2 ^ 8) eq_refl). change (2 ^ 8) with 256 in *. lia. }
  unfold calculate_crc. cbn [fst snd]. split; apply K.
Qed.
Lemma frame_bytes c t payload : is_byte c -> is_byte t -> is_payload payload -> Forall is_byte (frame c t payload).
Proof.
  intros Bc Bt [F L]. unfold frame. pose proof (calc_bytes payload) as [H1 H2].
  destruct (calculate_crc payload) as [a b]. cbn [fst snd] in *. pose proof (zlen_nonneg payload).
  cbn [app]. repeat apply Forall_cons; try assumption; unfold is_byte; lia.
Qed.
Lemma frame_length c t payload : length (frame c t payload) = (7 + length payload)%nat.
Proof. unfold frame. destruct (calculate_crc payload). rewrite app_length. reflexivity. Qed.

Inductive attempt_spec (skip : bool) : list Z -> option Z * res (Z * Msg * nat) -> Prop :=
| as_sync b r : is_byte b -> b <> 192 -> attempt_spec skip (b :: r) (None, Err ParseError)
| as_version b r : is_byte b -> b <> 0 -> attempt_spec skip (192 :: b :: r) (None, Err ParseError)
| as_short1 : attempt_spec skip [192] (None, Err ReadError)
| as_short r : Forall is_byte r -> (length r < 5)%nat -> attempt_spec skip (192 :: 0 :: r) (None, Err ReadError)
| as_wait c t len h l body :
    is_byte c -> is_byte t -> is_byte len -> is_byte h -> is_byte l -> Forall is_byte body -> zlen body < len ->
    attempt_spec skip (192 :: 0 :: c :: t :: len :: h :: l :: body) (None, Err ReadError)
| as_crc c t h l payload rest :
    is_byte c -> is_byte t -> is_byte h -> is_byte l -> is_payload payload -> Forall is_byte rest ->
    calculate_crc payload <> (h, l) ->
    attempt_spec skip (192 :: 0 :: c :: t :: zlen payload :: h :: l :: payload ++ rest) (Some c, Err ParseError)
| as_frame c t payload rest : is_byte c -> is_byte t -> is_payload payload -> Forall is_byte rest ->
    attempt_spec skip (frame c t payload ++ rest) (Some c, body_res skip t payload rest).

Lemma attempt_cases skip buf : Forall is_byte buf -> buf <> [] -> attempt_spec skip buf (attempt skip buf).
Proof.
  intros F N. destruct buf as [|b0 r]; [congruence|]. inversion F as [|? ? B0 F1]; subst.
  destruct (Z.eq_dec b0 192) as [->|N0]; [|rewrite attempt_sync by assumption; constructor; assumption].
  destruct r as [|b1 r]; [unfold attempt; rewrite header_one; constructor|].
  inversion F1 as [|? ? B1 F2]; subst.
  destruct (Z.eq_dec b1 0) as [->|N1]; [|rewrite attempt_version by assumption; constructor; assumption].
  destruct (Nat.ltb (length r) 5) eqn:L5; [rewrite attempt_short by (assumption || lia); constructor; (assumption || lia)|].
  destruct r as [|c [|t [|len [|h [|l body]]]]]; cbn [length] in L5; try discriminate.
  assert (K : is_byte c /\ is_byte t /\ is_byte len /\ is_byte h /\ is_byte l /\ Forall is_byte body).
  { repeat match goal with H : Forall _ (_ :: _) |- _ => inversion H; clear H; subst end. auto 10. }
  destruct K as (Bc & Bt & Bn & Bh & Bl & Fb).
  destruct (Z.ltb_spec (zlen body) len) as [Lb|Lb]; [rewrite attempt_wait by assumption; constructor; assumption|].
  unfold is_byte in Bn. set (n := Z.to_nat len).
  assert (E : body = firstn n body ++ skipn n body) by (symmetry; apply firstn_skipn).
  assert (Ez : len = zlen (firstn n body)) by (unfold zlen in *; rewrite firstn_length; lia).
  assert (X : exists payload rest, body = payload ++ rest /\ len = zlen payload) by eauto.
  clear E Ez n. destruct X as (payload & rest & -> & ->). apply Forall_app in Fb. destruct Fb as [Fp Fr].
  rewrite attempt_full; try assumption; [|split; [assumption | lia]].
  destruct (calculate_crc payload) as [a b] eqn:Ec. cbn [fst snd].
  destruct (Z.eqb_spec a h) as [->|Na]; cbn [negb orb].
  - destruct (Z.eqb_spec b l) as [->|Nb]; cbn [negb orb].
    + replace (192 :: 0 :: c :: t :: zlen payload :: h :: l :: payload ++ rest) with (frame c t payload ++ rest)
        by (unfold frame; rewrite Ec; reflexivity).
      constructor; try assumption. split; [assumption | lia].
    + constructor; try assumption; [split; [assumption | lia] | congruence].
  - constructor; try assumption; [split; [assumption | lia] | congruence].
Qed.

(** ** Bodies *)
Lemma body_rebooted skip payload rest : Forall is_byte (payload ++ rest) ->
  body_res skip 5 payload rest =
  match payload ++ rest with b :: _ => Ok (5, MInt b, 64%nat) | [] => Err ReadError end.
Proof.
  intros F. unfold body_res, parse_body. change (5 =? 5) with true. cbv iota. unfold bindp, ret.
  destruct (payload ++ rest) as [|b r]; [reflexivity|]. inversion F; subst.
  rewrite read_byte by assumption. cbn [rbind]. reflexivity.
Qed.
Lemma body_raw skip t payload rest : t <> 5 -> t = 4 \/ skip = true -> Forall is_byte payload ->
  body_res skip t payload rest = Ok (t, MRaw payload, (56 + 8 * length payload)%nat).
Proof.
  intros N5 H F. unfold body_res, parse_body. replace (t =? 5) with false by lia.
  assert (K : (do l <- read_bytes (zlen payload); ret (MRaw l)) (St 56 (bytes_bits (payload ++ rest)))
              = Ok (MRaw payload, St (56 + 8 * length payload) (bytes_bits rest))).
  { unfold bindp, ret. rewrite read_bytes_app by assumption. reflexivity. }
  destruct (Z.eqb_spec t 4) as [->|N4].
  - rewrite K. reflexivity.
  - destruct H as [H|H]; [congruence|]. rewrite H.
    unfold stream_length. cbn [pos bits].
    assert (zlen payload <= zlen (bytes_bits (payload ++ rest))).
    { unfold zlen. rewrite bytes_bits_length, app_length. lia. }
    replace (_ <? _) with false by lia. rewrite K. reflexivity.
Qed.
Lemma body_alp skip t payload rest : t <> 5 -> t <> 4 -> skip = false ->
  body_res skip t payload rest =
  let! (c, s') := alp_parse (zlen payload) (St 56 (bytes_bits (payload ++ rest))) in Ok (t, MCmd c, pos s').
Proof.
  intros N5 N4 ->. unfold body_res, parse_body. replace (t =? 5) with false by lia. replace (t =? 4) with false by lia.
  unfold bindp, ret. destruct (alp_parse _ _) as [[c s']|e]; reflexivity.
Qed.

Lemma body_spec skip t payload rest : Forall is_byte (payload ++ rest) ->
  match body_res skip t payload rest with
  | Ok (t', m, n) => t' = t /\ exists k, n = (56 + 8 * k)%nat /\ carries skip t payload rest m k
       /\ (k <= length (payload ++ rest))%nat
       /\ forall x, Forall is_byte x -> body_res skip t payload (rest ++ x) = Ok (t, m, n)
  | Err e => alp_exn e = true
       /\ (is_eof e = false -> forall x, Forall is_byte x -> body_res skip t payload (rest ++ x) = Err e)
       /\ (is_eof e = false \/ e = BoolEof -> skip = false /\ t <> 4 /\ t <> 5 /\
             alp_parse (zlen payload) (St 56 (bytes_bits (payload ++ rest))) = Err e)
       /\ (skip = true -> payload = [] /\ rest = [] /\ t = 5 /\ e = ReadError)
  end.
Proof.
  intros F. assert (Fp : Forall is_byte payload) by (apply Forall_app in F; tauto).
  destruct (Z.eq_dec t 5) as [->|N5].
  - rewrite body_rebooted by assumption. destruct (payload ++ rest) as [|b r] eqn:E.
    + refine (conj eq_refl (conj _ (conj _ _))); [discriminate | intros [H|H]; discriminate |].
      apply app_eq_nil in E. destruct E. auto.
    + split; [reflexivity|]. exists 1%nat. refine (conj eq_refl (conj _ (conj _ _))).
      * econstructor. exact E.
      * cbn [length]. lia.
      * intros x Fx. rewrite body_rebooted, app_assoc, E; [reflexivity|].
        rewrite app_assoc. apply Forall_app. rewrite E. split; assumption.
  - destruct (Z.eq_dec t 4) as [->|N4].
    + rewrite body_raw by auto. split; [reflexivity|]. exists (length payload).
      refine (conj eq_refl (conj _ (conj _ _))); [constructor | rewrite app_length; lia |].
      intros x _. apply body_raw; auto.
    + destruct skip.
      * rewrite body_raw by auto. split; [reflexivity|]. exists (length payload).
        refine (conj eq_refl (conj _ (conj _ _))); [constructor; auto | rewrite app_length; lia |].
        intros x _. apply body_raw; auto.
      * rewrite body_alp by auto.
        pose proof (good_alp (zlen payload) (St 56 (bytes_bits (payload ++ rest))) eq_refl) as G.
        destruct (alp_parse (zlen payload) (St 56 (bytes_bits (payload ++ rest)))) as [[c s']|e] eqn:Ea; cbn [rbind].
        -- destruct G as (d & Hb & Hp & [Q L] & X). cbn [bits pos] in Hb, Hp. split; [reflexivity|].
           unfold whole in Q. destruct (skip_bits _ _ _ Hb Q) as [Hs Hl]. exists (length d / 8)%nat.
           refine (conj _ (conj _ (conj _ _))); [lia | | exact Hl |].
           ++ constructor; auto. rewrite Ea. destruct s' as [ps' bs']. cbn [pos bits] in *. subst bs'.
              repeat f_equal. lia.
           ++ intros x _. rewrite body_alp by auto. specialize (X (bytes_bits x)). unfold ext in X. cbn [pos bits] in X.
              rewrite app_assoc, (bytes_bits_app (payload ++ rest) x), X. cbn [rbind pos]. reflexivity.
        -- destruct G as [GE X]. split; [exact GE|]. refine (conj _ (conj _ _)).
           ++ intros He x _. rewrite body_alp by auto. specialize (X He (bytes_bits x)). unfold ext in X. cbn [pos bits] in X.
              rewrite app_assoc, (bytes_bits_app (payload ++ rest) x), X. reflexivity.
           ++ intros _. auto.
           ++ discriminate.
Qed.

(** ** An attempt that does not fail for lack of data is not changed by more data *)
Lemma attempt_stable skip buf x o r : Forall is_byte buf -> Forall is_byte x -> buf <> [] ->
  attempt skip buf = (o, r) -> match r with Err e => is_eof e = false | Ok _ => True end ->
  attempt skip (buf ++ x) = (o, r).
Proof.
  intros F Fx N E H. pose proof (attempt_cases skip buf F N) as S. rewrite E in S. clear E.
  inversion S as [b r' B Nb|b r' B Nb| |r' Fr L|c t len h l body ? ? ? ? ? Fb L|c t h l payload rest Bc Bt Bh Bl P Fr Nc|c t payload rest Bc Bt P Fr]; subst; try discriminate.
  - apply attempt_sync; assumption.
  - apply attempt_version; assumption.
  - cbn [app]. rewrite <- app_assoc. rewrite attempt_full; try assumption; [|apply Forall_app; auto].
    destruct (calculate_crc payload) as [a b]. cbn [fst snd].
    destruct (Z.eqb_spec a h) as [->|]; [|reflexivity]. destruct (Z.eqb_spec b l) as [->|]; [congruence | reflexivity].
  - rewrite <- app_assoc. pose proof (calc_bytes payload) as [H1 H2]. rewrite attempt_frame; try assumption; [|apply Forall_app; auto].
    f_equal. assert (Fpr : Forall is_byte (payload ++ rest)) by (apply Forall_app; split; [apply P | assumption]).
    pose proof (body_spec skip t payload rest Fpr) as K.
    destruct (body_res skip t payload rest) as [[[t' m] n]|e].
    + destruct K as [-> (k & _ & _ & _ & X)]. apply X. exact Fx.
    + destruct K as (_ & X & _). apply X; assumption.
Qed.
Lemma attempt_ok skip buf o t m n : Forall is_byte buf -> buf <> [] -> attempt skip buf = (o, Ok (t, m, n)) ->
  exists c payload rest k, o = Some c /\ buf = frame c t payload ++ rest /\ n = (56 + 8 * k)%nat
    /\ is_byte c /\ is_byte t /\ is_payload payload /\ Forall is_byte rest
    /\ carries skip t payload rest m k /\ (k <= length (payload ++ rest))%nat.
Proof.
  intros F N E. pose proof (attempt_cases skip buf F N) as S. rewrite E in S. clear E.
  inversion S as [ | | | | | |c t' payload rest Bc Bt P Fr]; subst.
  assert (Fpr : Forall is_byte (payload ++ rest)) by (apply Forall_app; split; [apply P | assumption]).
  pose proof (body_spec skip t' payload rest Fpr) as K. match goal with H : body_res _ _ _ _ = _ |- _ => rewrite H in K end.
  destruct K as [-> (k & -> & C & L & _)]. exists c, payload, rest, k. auto 12.
Qed.
