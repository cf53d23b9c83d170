(** Lemmas for C89 *)
From Coq Require Import ZifyBool ZifyNat.
From Verif Require Import SReport LRun LLink LSerialCases LReport LReport2.
Open Scope list_scope.
Open Scope Z_scope.
Ltac Zify.zify_post_hook ::= Z.div_mod_to_equations.

Lemma total_app f a b : total f (a ++ b) = total f a + total f b.
Proof. unfold total. induction a as [|r a IH]; cbn [app fold_right]; [reflexivity | rewrite IH; lia]. Qed.
Lemma total_le f k rs : (forall r, In r rs -> f r <= k) -> total f rs <= k * zlen rs.
Proof.
  unfold total. induction rs as [|r rs IH]; intros H; [cbn; lia|].
  cbn [fold_right]. specialize (IH (fun x I => H x (or_intror I))). pose proof (H r (or_introl eq_refl)).
  unfold zlen in *. cbn [length]. lia.
Qed.

Lemma tiled_le rs : forall buf fin r, tiled buf rs fin -> In r rs -> (length (ro_buffer r) <= length buf)%nat.
Proof.
  induction rs as [|a rs IH]; intros buf fin r T I; [destruct I|]. destruct T as (B & L & T).
  destruct I as [->|I]; [rewrite B; lia|]. specialize (IH _ _ _ T I). rewrite skipn_length in IH. lia.
Qed.
(** all rounds but the last take at least a byte *)
Lemma rounds_amortised n : forall lib p q rs fin, rounds n lib p = (q, rs) -> Forall round_ok rs -> tiled (sp_buf p) rs fin ->
  (length rs + length fin <= length (sp_buf p) + 1)%nat /\ (fin = [] -> rs <> [] -> (length rs <= length (sp_buf p))%nat).
Proof.
  induction n as [|n IH]; intros lib p q rs fin E OK T; [injection E as _ <-; cbn [tiled] in T; subst fin; cbn [length]; split; [lia | congruence]|].
  cbn [rounds] in E. destruct (sp_buf p) as [|b0 r0] eqn:Eb; [injection E as _ <-; cbn [tiled] in T; subst; cbn [length]; split; [lia | congruence]|].
  rewrite <- Eb in *. destruct (one_round lib p) as [q1 r] eqn:O.
  assert (BUF : sp_buf q1 = skipn (taken r) (sp_buf p) /\ ro_buffer r = sp_buf p).
  { rewrite one_round_eq in O by (rewrite Eb; discriminate).
    destruct (attempt (sp_skip p) (sp_buf p)) as [o [[[t m] k]|e]]; cbv zeta in O.
    - injection O as <- <-. split; reflexivity.
    - destruct (is_read_error lib e); [injection O as <- <-; split; [apply counters_buf | reflexivity]|].
      destruct (no_args e); [injection O as <- <-; split; [apply counters_buf | reflexivity]|].
      injection O as <- <-. split; [|reflexivity]. cbn [sp_buf set_buf taken ro_out]. rewrite Eb, skip_bad_buf, skip_bad_count.
      destruct (drop_count b0 r0) as [_ D]. symmetry. exact D. }
  destruct BUF as [BQ BR].
  destruct (goes_on (ro_out r)) eqn:G.
  - destruct (rounds n lib q1) as [q' rs'] eqn:ER. injection E as _ <-. inversion OK as [|? ? K OK']; subst.
    destruct T as (_ & L & T). rewrite <- BQ in T. specialize (IH _ _ _ _ _ ER OK' T).
    rewrite BQ, skipn_length in IH. cbn [length].
    assert (P : (1 <= taken r)%nat).
    { destruct K as (_ & _ & _ & K). unfold taken. destruct (ro_out r); try discriminate G; [lia|].
      destruct K as (b & rest & _ & ->). apply drop_count. }
    destruct IH as [I1 I2]. split; [lia|]. intros F _. destruct rs' as [|r' rs']; [cbn [length]; lia|].
    specialize (I2 F ltac:(discriminate)). lia.
  - injection E as _ <-. destruct T as (B & L & T). cbn [tiled] in T. cbn [length]. rewrite T, skipn_length. split; [lia|].
    intros _ _. rewrite Eb. cbn [length]. lia.
Qed.

Lemma crc_small buf : Forall is_byte buf -> match crc_of buf with Some l => zlen l <= 255 | None => True end.
Proof.
  intros F. destruct buf as [|b r]; [exact I|]. assert (NE : b :: r <> []) by discriminate. set (buf := b :: r) in *. clearbody buf. clear b r.
  pose proof (attempt_cases true buf F NE) as S.
  assert (H : fst (attempt true buf) = None -> crc_of buf = None).
  { unfold attempt, crc_of. destruct (header_fields _ _) as [[[[[[[c t] n] h] l] payload] s]|e]; [|reflexivity].
    destruct (calculate_crc payload). cbn [fst]. discriminate. }
  assert (FULL : forall c t h l payload rest, is_byte c -> is_byte t -> is_byte h -> is_byte l -> is_payload payload -> Forall is_byte rest ->
     buf = 192 :: 0 :: c :: t :: zlen payload :: h :: l :: payload ++ rest -> match crc_of buf with Some l => zlen l <= 255 | None => True end).
  { intros c t h l payload rest Bc Bt Bh Bl P Fr ->. destruct P as [Fp Lp]. unfold crc_of.
    rewrite header_full; try assumption; [| unfold is_byte, zlen in *; lia | apply Forall_app; auto].
    destruct (_ <? _); [exact I|]. destruct (_ <? _); [exact I|]. replace (Z.to_nat (zlen payload)) with (length payload) by (unfold zlen; lia). rewrite firstn_app, firstn_all, Nat.sub_diag, firstn_O, app_nil_r. exact Lp. }
  set (a := attempt true buf) in *. clearbody a.
  inversion S as [b' r' B Nb E|b' r' B Nb E|E|r' Fr L E|c t len h l body ? ? ? ? ? Fb L E|c t h l payload rest Bc Bt Bh Bl P Fr Nc E|c t payload rest Bc Bt P Fr E]; subst;
    try (rewrite H by reflexivity; exact I).
  - apply (FULL c t h l payload rest); try assumption. reflexivity.
  - destruct (calc_bytes payload) as [H1 H2]. eapply (FULL c t (fst (calculate_crc payload)) (snd (calculate_crc payload)) payload rest); try assumption.
    unfold frame. destruct (calculate_crc payload). reflexivity.
Qed.

(** one call *)
Lemma call_effort lib p x q rs : byte_in p -> Forall is_byte x -> parse_rounds lib p x = (q, rs) ->
  zlen rs + zlen (sp_buf q) <= zlen (sp_buf p ++ x) + 1 /\ zlen rs <= zlen (sp_buf p ++ x)
  /\ hashed rs <= 255 * zlen rs /\ copied rs <= zlen (sp_buf p ++ x) * zlen rs /\ characters rs <= 3 * zlen (sp_buf p ++ x) * zlen rs
  /\ byte_in q /\ sp_skip q = sp_skip p.
Proof.
  intros F Fx E. destruct (rounds_parse lib p x F Fx) as (rs' & fin & cs & cr & pd & E' & SP & _ & T & OK).
  rewrite E in E'. injection E' as -> <-. cbn [sp_buf set_buf sp_skip].
  assert (Fa : Forall is_byte (sp_buf p ++ x)) by (apply Forall_app; auto).
  pose proof E as E0. unfold parse_rounds in E. cbv zeta in E. cbn [sp_buf set_buf] in E.
  destruct (rounds_amortised _ _ _ _ _ fin E OK T) as [A1 A2]. cbn [sp_buf set_buf] in A1, A2.
  assert (LN : (length rs <= length (sp_buf p ++ x))%nat).
  { destruct rs; [cbn [length]; lia|]. destruct fin; [apply A2; [reflexivity | discriminate] | cbn [length] in *; lia]. }
  pose proof OK as OK'. rewrite Forall_forall in OK'.
  refine (conj _ (conj _ (conj _ (conj _ (conj _ (conj _ _)))))).
  - unfold zlen. lia.
  - unfold zlen. lia.
  - apply total_le. intros r I. destruct (OK' r I) as (_ & -> & FB & _). pose proof (crc_small _ FB) as C. destruct (crc_of (ro_buffer r)); lia.
  - apply total_le. intros r I. pose proof (tiled_le _ _ _ _ T I). unfold zlen. lia.
  - apply total_le. intros r I. pose proof (tiled_le _ _ _ _ T I) as L. destruct (OK' r I) as (NE & _).
    unfold report. destruct (ro_out r); cbn [fold_right rp_text]; try (unfold zlen; lia). rewrite hex_text_length by exact NE. unfold zlen. lia.
  - pose proof (tiled_concat _ _ _ T) as C. rewrite C in Fa. apply Forall_app in Fa. unfold byte_in. cbn [sp_buf set_buf]. tauto.
  - apply counters_skip.
Qed.

(** many calls, any mode *)
Lemma all_effort lib chunks : forall p, byte_in p -> Forall (Forall is_byte) chunks ->
  zlen (all_rounds lib p chunks) <= zlen (sp_buf p) + zlen (concat chunks) + zlen chunks
  /\ hashed (all_rounds lib p chunks) <= 255 * zlen (all_rounds lib p chunks).
Proof.
  induction chunks as [|x chunks IH]; intros p F Fc; [cbn; unfold zlen; lia|]. inversion Fc as [|? ? Fx Fc']; subst.
  cbn [all_rounds concat]. destruct (parse_rounds lib p x) as [q rs] eqn:E.
  destruct (call_effort lib p x q rs F Fx E) as (A & _ & B & _ & _ & FQ & _). destruct (IH q FQ Fc') as [I1 I2].
  unfold hashed in *. rewrite total_app. unfold zlen in *. rewrite !app_length in *. cbn [length]. lia.
Qed.
(** skip mode: the buffer stays small *)
Lemma skip_never_leaves lib p x q r : byte_in p -> Forall is_byte x -> sp_skip p = true -> sparse lib p x = (q, r) -> exists r', r = Ok r'.
Proof.
  intros F Fx S E. assert (Fb : Forall is_byte (sp_buf p ++ x)) by (apply Forall_app; auto).
  apply sparse_inv in E; try assumption. destruct E as (ms & es & cs & pd & cr & fin & R & _ & ->).
  destruct cr; [|eauto]. exfalso. rewrite S in R. clear S. revert Fb R. generalize (sp_buf p ++ x). intros buf Fb R.
  remember true as tr eqn:T in R at 1. remember true as cr eqn:C in R.
  induction R as [|buf o e N A H|buf o e N A H1 H2|buf o t m n ms es cs pd cr' fin N A R IH|buf o e ms es cs pd cr' fin N A H1 H2 R IH]; try discriminate C.
  - subst tr. pose proof (attempt_cases true buf Fb N) as K. rewrite A in K.
    inversion K as [b r' B Nb| | | | |c t h l payload rest Bc Bt Bh Bl P Fr Nc|c t payload rest Bc Bt P Fr]; subst; try discriminate H1; try discriminate H2.
    assert (Fpr : Forall is_byte (payload ++ rest)) by (apply Forall_app; split; [apply P | assumption]).
    pose proof (body_spec true t payload rest Fpr) as B.
    match goal with H : body_res _ _ _ _ = _ |- _ => rewrite H in B end.
    destruct B as (_ & _ & _ & B). destruct (B eq_refl) as (_ & _ & _ & ->). discriminate H1.
  - apply IH; [apply skipn_bytes; exact Fb | exact C].
  - apply IH; [apply skip_bad_bytes; exact Fb | exact C].
Qed.
Lemma skip_effort lib k chunks : forall p, byte_in p -> Forall (Forall is_byte) chunks -> sp_skip p = true -> zlen (sp_buf p) <= 261 ->
  Forall (fun x => zlen x <= k) chunks -> 0 <= k ->
  copied (all_rounds lib p chunks) <= (261 + k) * zlen (all_rounds lib p chunks)
  /\ characters (all_rounds lib p chunks) <= 3 * (261 + k) * zlen (all_rounds lib p chunks).
Proof.
  induction chunks as [|x chunks IH]; intros p F Fc S L K K0; [cbn; unfold zlen; cbn; lia|].
  inversion Fc as [|? ? Fx Fc']; subst. inversion K as [|? ? Kx K']; subst.
  cbn [all_rounds]. destruct (parse_rounds lib p x) as [q rs] eqn:E.
  destruct (call_effort lib p x q rs F Fx E) as (_ & _ & _ & A & B & FQ & SQ).
  pose proof (rounds_are_parse lib p x F Fx) as RP. rewrite E in RP. destruct RP as [Q _].
  destruct (sparse lib p x) as [q' res] eqn:SP. cbn [fst] in Q. subst q'.
  destruct (skip_never_leaves _ _ _ _ _ F Fx S SP) as (res' & ->).
  pose proof (retained_bound _ _ _ _ _ F Fx S SP) as L'.
  destruct (IH q FQ Fc' ltac:(congruence) L' K' K0) as [I1 I2].
  assert (M : zlen (sp_buf p ++ x) <= 261 + k) by (unfold zlen in *; rewrite app_length; lia).
  assert (P0 : 0 <= zlen rs) by (unfold zlen; lia).
  unfold copied, characters in *. rewrite !total_app. unfold zlen at 3 6. rewrite app_length, Nat2Z.inj_add.
  fold (zlen rs). fold (zlen (all_rounds lib q chunks)). split.
  - apply Z.le_trans with ((261 + k) * zlen rs + (261 + k) * zlen (all_rounds lib q chunks)); [|lia]. 
    apply Z.add_le_mono; [|exact I1]. eapply Z.le_trans; [exact A|]. apply Z.mul_le_mono_nonneg_r; assumption.
  - apply Z.le_trans with (3 * (261 + k) * zlen rs + 3 * (261 + k) * zlen (all_rounds lib q chunks)); [|lia]. 
    apply Z.add_le_mono; [|exact I2]. eapply Z.le_trans; [exact B|]. apply Z.mul_le_mono_nonneg_r; lia.
Qed.

(** a long chunk *)
Lemma c0_attempt skip n : attempt skip (192 :: 192 :: repeat 192 n) = (None, Err ParseError).
Proof. apply attempt_version; [unfold is_byte; lia | lia]. Qed.
Lemma c0_rounds lib n : forall f p, sp_buf p = repeat 192 n -> (n <= f)%nat ->
  2 * copied (snd (rounds f lib p)) = Z.of_nat n * (Z.of_nat n + 1)
  /\ ((0 < n)%nat -> 2 * characters (snd (rounds f lib p)) = 3 * Z.of_nat n * Z.of_nat n + Z.of_nat n - 4)
  /\ length (snd (rounds f lib p)) = n.
Proof.
  induction n as [|n IH]; intros f p B L.
  - cbn [repeat] in B. destruct f; cbn [rounds]; rewrite ?B; cbn; split; [reflexivity | split; [lia | reflexivity] | reflexivity | split; [lia | reflexivity]].
  - destruct f as [|f]; [lia|]. cbn [rounds]. destruct (sp_buf p) as [|b0 r0] eqn:Eb; [discriminate B|]. rewrite <- Eb in *.
    rewrite one_round_eq by (rewrite Eb; discriminate). rewrite B. destruct n as [|n].
    + cbn [repeat]. unfold attempt. rewrite header_one. cbv zeta iota. cbn [is_read_error ro_out goes_on snd]. repeat split.
    + cbn [repeat]. rewrite c0_attempt. cbv zeta iota. cbn [is_read_error no_args ro_out goes_on]. rewrite skip_bad_buf. cbn [drop_c0 Z.eqb Pos.eqb].
      set (p1 := set_buf _ _). assert (B1 : sp_buf p1 = repeat 192 (S n)) by reflexivity.
      specialize (IH f p1 B1 ltac:(lia)). destruct (rounds f lib p1) as [q rs]. cbn [snd] in IH |- *. destruct IH as (I1 & I2 & I3). specialize (I2 ltac:(lia)).
      unfold copied, characters in *. unfold total in *. cbn [fold_right ro_buffer report ro_out rp_text].
      rewrite hex_text_length by discriminate.
      assert (Z1 : zlen (192 :: 192 :: repeat 192 n) = Z.of_nat n + 2) by (unfold zlen; cbn [length]; rewrite repeat_length; lia).
      rewrite Z1. cbn [length]. rewrite I3. split; [nia|]. split; [nia | reflexivity].
Qed.

(** a message that waits *)
Lemma greedy_attempt c x : is_byte c -> Forall is_byte x -> zlen x < 1073741823 ->
  attempt false (frame c 1 greedy ++ x) = (Some c, Err ReadError).
Proof.
  intros Bc F L. assert (P : is_payload greedy).
  { split; [|unfold zlen; cbn; lia]. repeat apply Forall_cons; try apply Forall_nil; unfold is_byte; lia. }
  rewrite (attempt_frame false c 1 greedy x Bc ltac:(unfold is_byte; lia) P F (proj1 (calc_bytes greedy)) (proj2 (calc_bytes greedy))).
  rewrite body_alp by (lia || reflexivity). change (zlen greedy) with 7. rewrite greedy_alp by assumption. reflexivity.
Qed.
Lemma greedy_call lib p c x y : sp_skip p = false -> is_byte c -> sp_buf p ++ y = frame c 1 greedy ++ x -> Forall is_byte x -> zlen x < 1073741823 ->
  exists q r, parse_rounds lib p y = (q, [r]) /\ ro_out r = Waits /\ ro_buffer r = frame c 1 greedy ++ x /\ sp_buf q = frame c 1 greedy ++ x /\ sp_skip q = false.
Proof.
  intros S Bc E F L. pose proof (greedy_attempt c x Bc F L) as A.
  assert (N : frame c 1 greedy ++ x <> []) by (unfold frame; destruct (calculate_crc greedy); discriminate).
  unfold parse_rounds. cbv zeta. cbn [sp_buf set_buf]. rewrite E.
  set (p1 := set_buf p (frame c 1 greedy ++ x)). assert (B1 : sp_buf p1 = frame c 1 greedy ++ x) by reflexivity.
  destruct (length (frame c 1 greedy ++ x)) as [|n] eqn:LE; [destruct (frame c 1 greedy ++ x); [congruence | discriminate LE]|].
  cbn [rounds]. rewrite B1. destruct (frame c 1 greedy ++ x) as [|b0 r0] eqn:Eb; [congruence|]. rewrite <- Eb in *.
  rewrite one_round_eq by (rewrite B1; exact N). rewrite B1. change (sp_skip p1) with (sp_skip p). rewrite S, A. cbv zeta iota. cbn [is_read_error ro_out goes_on].
  do 2 eexists. split; [reflexivity|]. cbn [ro_buffer ro_out]. rewrite counters_buf, counters_skip. auto.
Qed.
Lemma greedy_rounds lib c ys : forall p x, sp_skip p = false -> is_byte c -> sp_buf p = frame c 1 greedy ++ x -> Forall is_byte (x ++ ys) -> zlen (x ++ ys) < 1073741823 ->
  2 * copied (all_rounds lib p (map (fun b => [b]) ys)) = zlen ys * (2 * (14 + zlen x) + zlen ys + 1)
  /\ messages (all_rounds lib p (map (fun b => [b]) ys)) = [] /\ errors (all_rounds lib p (map (fun b => [b]) ys)) = [].
Proof.
  induction ys as [|y ys IH]; intros p x S Bc B F L; [cbn; auto|].
  assert (X : x ++ y :: ys = (x ++ [y]) ++ ys) by (rewrite <- app_assoc; reflexivity). rewrite X in F, L.
  assert (Q : zlen (x ++ [y]) + zlen ys < 1073741823 /\ zlen (x ++ [y]) = zlen x + 1) by (unfold zlen in *; rewrite !app_length in *; cbn [length] in *; lia).
  assert (Fy : Forall is_byte (x ++ [y])) by (apply Forall_app in F; tauto).
  destruct (greedy_call lib p c (x ++ [y]) [y] S Bc ltac:(rewrite B, <- app_assoc; reflexivity) Fy ltac:(unfold zlen in *; lia)) as (q & r & E & RO & RB & QB & QS).
  cbn [map all_rounds]. rewrite E. destruct (IH q (x ++ [y]) QS Bc QB F L) as (I1 & I2 & I3).
  change ([r] ++ all_rounds lib q (map (fun b => [b]) ys)) with (r :: all_rounds lib q (map (fun b => [b]) ys)).
  unfold copied, total in *. cbn [fold_right]. rewrite RB.
  assert (Z1 : zlen (frame c 1 greedy ++ x ++ [y]) = 14 + zlen x + 1) by (unfold zlen; rewrite app_length, frame_length, app_length; cbn [length greedy]; lia).
  rewrite Z1. assert (Z2 : zlen (y :: ys) = zlen ys + 1) by (unfold zlen; cbn [length]; lia). rewrite Z2.
  split; [nia|]. unfold messages, errors, got, bad in *. cbn [flat_map]. rewrite RO, I2, I3. auto.
Qed.
Lemma long_chunk lib skip n : (0 < n)%nat ->
  exists res rs, snd (sparse lib (new_parser skip) (repeat 192 n)) = Ok res /\ snd (parse_rounds lib (new_parser skip) (repeat 192 n)) = rs
  /\ zlen rs = Z.of_nat n /\ 2 * copied rs = Z.of_nat n * (Z.of_nat n + 1)
  /\ 2 * fold_right (fun e a => zlen (rp_text e) + a) 0 (reports lib (new_parser skip) (repeat 192 n)) = 3 * Z.of_nat n * Z.of_nat n + Z.of_nat n - 4.
Proof.
  intros N. assert (F : Forall is_byte (repeat 192 n)) by (apply Forall_forall; intros y I; apply repeat_spec in I; subst; unfold is_byte; lia).
  assert (B : byte_in (new_parser skip)) by constructor.
  pose proof (rounds_are_parse lib (new_parser skip) (repeat 192 n) B F) as K.
  destruct (c0_rounds lib n n (set_buf (new_parser skip) (repeat 192 n)) eq_refl (Nat.le_refl _)) as (C1 & C2 & C3).
  assert (E : parse_rounds lib (new_parser skip) (repeat 192 n) = rounds n lib (set_buf (new_parser skip) (repeat 192 n))).
  { unfold parse_rounds. cbv zeta. cbn [sp_buf set_buf new_parser app]. rewrite repeat_length. reflexivity. }
  rewrite E in *. destruct (rounds n lib (set_buf (new_parser skip) (repeat 192 n))) as [q rs] eqn:R. cbn [snd] in *. destruct K as [_ K].
  destruct (snd (sparse lib (new_parser skip) (repeat 192 n))) as [res|e] eqn:SP.
  - exists res, rs. refine (conj eq_refl (conj eq_refl (conj _ (conj C1 _)))); [unfold zlen; lia|].
    rewrite <- (C2 N). f_equal. destruct (reports_returned lib _ _ _ B F SP) as [-> _]. rewrite E. cbn [snd].
    unfold characters, total. clear. induction rs as [|r rs IH]; [reflexivity|]. cbn [flat_map fold_right]. rewrite <- IH.
    generalize (report r). intros l. induction l as [|e l IHl]; [reflexivity|]. cbn [app fold_right]. rewrite IHl. lia.
  - exfalso. destruct K as (r & I & O).
    assert (NL : forall k f p, sp_buf p = repeat 192 k -> forall r, In r (snd (rounds f lib p)) -> forall e, ro_out r <> Leaves e).
    { clear. induction k as [|k IH]; intros f p Bp r I e.
      - destruct f; cbn [rounds] in I; [destruct I|]. cbn [repeat] in Bp. rewrite Bp in I. destruct I.
      - destruct f as [|f]; [destruct I|]. cbn [rounds] in I. destruct (sp_buf p) as [|b0 r0] eqn:Eb; [discriminate Bp|]. rewrite <- Eb in *.
        rewrite one_round_eq in I by (rewrite Eb; discriminate). rewrite Bp in I. destruct k as [|k].
        + cbn [repeat] in I. unfold attempt in I. rewrite header_one in I. cbv zeta iota in I. cbn [is_read_error ro_out goes_on snd] in I.
          destruct I as [<-|[]]. cbn [ro_out]. discriminate.
        + cbn [repeat] in I. rewrite c0_attempt in I. cbv zeta iota in I. cbn [is_read_error no_args ro_out goes_on] in I. rewrite skip_bad_buf in I. cbn [drop_c0 Z.eqb Pos.eqb] in I.
          set (p1 := set_buf _ _) in I. specialize (IH f p1 eq_refl). destruct (rounds f lib p1) as [q rs]. cbn [snd] in *.
          destruct I as [<-|I]; [cbn [ro_out]; discriminate | exact (IH _ I e)]. }
    refine (NL n n (set_buf (new_parser skip) (repeat 192 n)) eq_refl r _ e O). rewrite R. exact I.
Qed.
Lemma waiting_message lib c ys : is_byte c -> Forall is_byte ys -> zlen ys < 1073741823 ->
  let rs := all_rounds lib (new_parser false) (frame c 1 greedy :: map (fun b => [b]) ys) in
  2 * copied rs = 28 + zlen ys * (zlen ys + 29) /\ messages rs = [] /\ errors rs = [].
Proof.
  intros Bc F L. cbv zeta.
  destruct (greedy_call lib (new_parser false) c [] (frame c 1 greedy) eq_refl Bc ltac:(rewrite app_nil_r; reflexivity) (Forall_nil _) ltac:(unfold zlen; cbn; lia))
    as (q & r & E & RO & RB & QB & QS).
  cbn [all_rounds]. rewrite E. destruct (greedy_rounds lib c ys q [] QS Bc QB F L) as (I1 & I2 & I3).
  change ([r] ++ all_rounds lib q (map (fun b => [b]) ys)) with (r :: all_rounds lib q (map (fun b => [b]) ys)).
  unfold copied, total, messages, errors, got, bad in *. cbn [fold_right flat_map]. rewrite RO, RB, I2, I3, app_nil_r.
  assert (Z1 : zlen (frame c 1 greedy) = 14) by (unfold zlen; rewrite frame_length; reflexivity). rewrite Z1.
  assert (Z2 : @zlen Z [] = 0) by reflexivity. rewrite Z2 in I1. split; [lia | auto].
Qed.
Lemma one_call lib p x q rs : byte_in p -> Forall is_byte x -> parse_rounds lib p x = (q, rs) ->
  zlen rs <= zlen (sp_buf p ++ x) /\ hashed rs <= 255 * zlen rs
  /\ copied rs <= zlen (sp_buf p ++ x) * zlen rs /\ characters rs <= 3 * zlen (sp_buf p ++ x) * zlen rs.
Proof. intros F Fx E. pose proof (call_effort lib p x q rs F Fx E). tauto. Qed.
Lemma log_of_damaged lib skip c t h l payload :
  is_byte c -> is_byte t -> is_byte h -> is_byte l -> is_payload payload ->
  calculate_crc payload <> (h, l) -> ~ In 192 (c :: t :: zlen payload :: h :: l :: payload) ->
  let bytes := 192 :: 0 :: c :: t :: zlen payload :: h :: l :: payload in
  modem_log lib (new_parser skip) bytes = [mkReport ParseError (hex_text [last bytes 0]) (zlen bytes)].
Proof.
  intros Bc Bt Bh Bl P NC NI bytes. rewrite (log_of_bad_frame lib c t h l payload Bc Bt Bh Bl P NC NI bytes (new_parser skip)); [|reflexivity | discriminate].
  f_equal. f_equal. unfold bytes, zlen. cbn [length]. lia.
Qed.

(** a call that raises *)
Lemma reports_raised lib p x q e : sparse lib p x = (q, Err e) -> reports lib p x = [].
Proof. intros E. unfold reports. rewrite E. reflexivity. Qed.
Lemma log_raised lib p b r q e : sparse lib p [b] = (q, Err e) -> modem_log lib p (b :: r) = [].
Proof. intros E. cbn [modem_log]. unfold modem_reports. rewrite (reports_raised _ _ _ _ _ E), E. reflexivity. Qed.
Lemma raised_both : forall lib p q e, (forall x, sparse lib p x = (q, Err e) -> reports lib p x = [])
  /\ (forall b r, sparse lib p [b] = (q, Err e) -> modem_log lib p (b :: r) = []).
Proof. intros. split; intros; [eapply reports_raised | eapply log_raised]; eassumption. Qed.
