From Coq Require Import ZifyBool ZifyNat Ascii String.
From Verif Require Import LChannel STexts.
Open Scope list_scope.
Open Scope Z_scope.

Lemma is_space_blank c : is_space c = true <-> blank c.
Proof. unfold is_space, blank. cbn [In]. lia. Qed.
Lemma digit_val_some c d : digit_val c = Some d <-> decimal c /\ d = decimal_value c.
Proof.
  unfold decimal, decimal_value, digit_val. change (nat_of_ascii "0") with 48%nat.
  assert (H : (decimal c <-> 48 <= Z.of_N (N_of_ascii c) <= 57)).
  { split.
    - intro I. unfold decimal in I. cbn [In] in I. repeat destruct I as [<-|I]; try (cbn; lia).
    - intro R. rewrite <- (ascii_N_embedding c). unfold decimal. destruct (N_of_ascii c) as [|p]; [lia|].
      assert (P : (p = 48 \/ p = 49 \/ p = 50 \/ p = 51 \/ p = 52 \/ p = 53 \/ p = 54 \/ p = 55 \/ p = 56 \/ p = 57)%positive) by lia.
      repeat destruct P as [->|P]; try (cbn; tauto). subst p. cbn. tauto. }
  unfold decimal in H. unfold nat_of_ascii. rewrite H. destruct ((48 <=? Z.of_N (N_of_ascii c)) && (Z.of_N (N_of_ascii c) <=? 57)) eqn:E.
  - split; [intro X; injection X as <-; lia | intros [_ ->]; f_equal; lia].
  - split; [discriminate | lia].
Qed.
Lemma blank_not_decimal c : blank c -> digit_val c = None.
Proof.
  intro B. destruct (digit_val c) as [d|] eqn:E; [|reflexivity]. exfalso. unfold digit_val in E.
  unfold blank, nat_of_ascii in B. cbn [In] in B. destruct ((48 <=? _) && _) eqn:R; [lia | discriminate].
Qed.
Lemma all_space_blank s : all_space s = true <-> Forall blank (list_ascii_of_string s).
Proof.
  induction s as [|c s IH]; cbn [all_space list_ascii_of_string].
  - split; [constructor | reflexivity].
  - rewrite andb_true_iff, IH, is_space_blank. split; [intros [A B]; constructor; assumption | intro F; inversion F; auto].
Qed.
Definition step (v : Z) (c : ascii) : Z := 10 * v + decimal_value c.
Lemma int_digits_spec s : forall acc seen,
  match int_digits s acc seen with
  | Ok v => exists ds b, list_ascii_of_string s = ds ++ b /\ Forall decimal ds /\ Forall blank b /\ (seen = true \/ ds <> []) /\ v = fold_left step ds acc
  | Err e => e = ValueError /\ ~ exists ds b, list_ascii_of_string s = ds ++ b /\ Forall decimal ds /\ Forall blank b /\ (seen = true \/ ds <> [])
  end.
Proof.
  induction s as [|c s IH]; intros acc seen; cbn [int_digits list_ascii_of_string].
  - destruct seen.
    + exists [], []. repeat split; try constructor; auto.
    + split; [reflexivity|]. intros (ds & b & E & _ & _ & [X|X]); [discriminate|]. destruct ds; [congruence | discriminate].
  - destruct (digit_val c) as [d|] eqn:D.
    + pose proof (proj1 (digit_val_some c d) D) as [Dc ->]. specialize (IH (10 * acc + decimal_value c) true).
      destruct (int_digits s (10 * acc + decimal_value c) true) as [v|e].
      * destruct IH as (ds & b & E & F & B & _ & V). exists (c :: ds), b. cbn [app fold_left]. rewrite E.
        repeat split; auto; try (constructor; assumption). right. discriminate.
      * destruct IH as [-> N]. split; [reflexivity|]. intros (ds & b & E & F & B & S). destruct ds as [|x ds].
        -- cbn in E. subst b. inversion B as [|? ? Bc _]; subst. apply blank_not_decimal in Bc. congruence.
        -- injection E as <- E. apply N. exists ds, b. inversion F; subst. auto.
    + destruct (seen && all_space (String c s)) eqn:A.
      * apply andb_true_iff in A as [-> A]. apply all_space_blank in A. exists [], (list_ascii_of_string (String c s)).
        repeat split; auto.
      * split; [reflexivity|]. intros (ds & b & E & F & B & S). destruct ds as [|x ds].
        -- cbn [app] in E. destruct S as [->|S]; [|congruence]. cbn [andb] in A. subst b.
           assert (all_space (String c s) = true) by (apply all_space_blank; exact B). congruence.
        -- injection E as <- E. inversion F as [|? ? Fc _]; subst. assert (digit_val c = Some (decimal_value c)) by (apply digit_val_some; auto). congruence.
Qed.
Lemma strip_l_spec s : exists b, Forall blank b /\ list_ascii_of_string s = b ++ list_ascii_of_string (strip_l s)
  /\ match strip_l s with String c _ => ~ blank c | EmptyString => True end.
Proof.
  induction s as [|c s (b & F & E & N)]; cbn [strip_l].
  - exists []. repeat split; constructor.
  - destruct (is_space c) eqn:S.
    + exists (c :: b). split; [constructor; [apply is_space_blank, S | exact F]|]. split; [cbn; rewrite E; reflexivity | exact N].
    + exists []. split; [constructor|]. split; [reflexivity|]. intro B. apply is_space_blank in B. congruence.
Qed.
Lemma strip_unique (b1 b2 r1 r2 : list ascii) : b1 ++ r1 = b2 ++ r2 -> Forall blank b1 -> Forall blank b2 ->
  match r1 with c :: _ => ~ blank c | [] => True end -> match r2 with c :: _ => ~ blank c | [] => True end -> r1 = r2.
Proof.
  revert b2. induction b1 as [|x b1 IH]; intros [|y b2] E F1 F2 N1 N2; cbn in E.
  - exact E.
  - subst r1. inversion F2; contradiction.
  - subst r2. inversion F1; contradiction.
  - injection E as <- E. inversion F1; inversion F2; subst. eapply IH; eassumption.
Qed.
Lemma decimal_not_blank c : decimal c -> ~ blank c.
Proof. intros D B. apply blank_not_decimal in B. assert (digit_val c = Some (decimal_value c)) by (apply digit_val_some; auto). congruence. Qed.
Definition is_body (l : list ascii) (v : Z) : Prop := exists sg k ds b, l = sg ++ ds ++ b /\ is_sign sg k /\ Forall decimal ds /\ ds <> [] /\ Forall blank b /\ v = k * number_of ds.
Lemma body_head l v : is_body l v -> match l with c :: _ => ~ blank c | [] => False end.
Proof.
  intros (sg & k & ds & b & -> & S & F & N & _). destruct ds as [|d ds]; [congruence|].
  destruct S as [[-> _]|[[-> _]|[-> _]]]; cbn [app]; [inversion F; apply decimal_not_blank; assumption | |]; intro B; cbn in B; lia.
Qed.
Lemma reads_body s v : reads_integer s v <-> is_body (list_ascii_of_string (strip_l s)) v.
Proof.
  destruct (strip_l_spec s) as (b & F & E & N). unfold reads_integer. rewrite E. split.
  - intros (b1 & sg & k & ds & b2 & X & Fb & S & Fd & Nd & F2 & V).
    assert (B : is_body (sg ++ ds ++ b2) v) by (exists sg, k, ds, b2; auto 10). pose proof (body_head _ _ B) as H.
    assert (list_ascii_of_string (strip_l s) = sg ++ ds ++ b2) as ->; [|exact B].
    apply (strip_unique b b1); auto.
    + destruct (strip_l s); cbn; [exact I | exact N].
    + destruct (sg ++ ds ++ b2); [exact I | exact H].
  - intros (sg & k & ds & b2 & X & R). exists b, sg, k, ds, b2. rewrite X. tauto.
Qed.
Lemma fold_step ds : forall acc, fold_left step ds acc = fold_left (fun v c => 10 * v + decimal_value c) ds acc.
Proof. induction ds as [|d ds IH]; intro acc; [reflexivity|]. cbn [fold_left]. apply IH. Qed.
Lemma dec_minus : ~ decimal "-".
Proof. unfold decimal. cbn [In]. intuition discriminate. Qed.
Lemma dec_plus : ~ decimal "+".
Proof. unfold decimal. cbn [In]. intuition discriminate. Qed.
Lemma py_int_spec s : match py_int s with
  | Ok v => reads_integer s v
  | Err e => e = ValueError /\ forall v, ~ reads_integer s v
  end.
Proof.
  unfold py_int. pose proof (reads_body s) as RB. destruct (strip_l s) as [|c r].
  - split; [reflexivity|]. intros v R. apply RB in R. apply body_head in R. exact R.
  - cbn [list_ascii_of_string] in RB. destruct (Ascii.eqb_spec c "-") as [->|Nm]; [|destruct (Ascii.eqb_spec c "+") as [->|Np]].
    + pose proof (int_digits_spec r 0 false) as D. destruct (int_digits r 0 false) as [v|e]; cbn [rbind].
      * destruct D as (ds & b & E & F & B & [S|S] & V); [discriminate|]. apply RB. exists ["-"%char], (-1), ds, b.
        rewrite E. rewrite fold_step in V. unfold is_sign, number_of. repeat split; auto. lia.
      * destruct D as [-> D]. split; [reflexivity|]. intros v R. apply RB in R as (sg & k & ds & b & E & S & F & N & B & _).
        apply D. destruct S as [[-> _]|[[-> _]|[-> _]]]; cbn [app] in E.
        -- destruct ds as [|d ds]; [congruence|]. injection E as <- E. inversion F. exfalso. apply dec_minus. assumption.
        -- discriminate.
        -- injection E as E. exists ds, b. auto.
    + pose proof (int_digits_spec r 0 false) as D. destruct (int_digits r 0 false) as [v|e]; cbn [rbind].
      * destruct D as (ds & b & E & F & B & [S|S] & V); [discriminate|]. apply RB. exists ["+"%char], 1, ds, b.
        rewrite E. rewrite fold_step in V. unfold is_sign, number_of. repeat split; auto. lia.
      * destruct D as [-> D]. split; [reflexivity|]. intros v R. apply RB in R as (sg & k & ds & b & E & S & F & N & B & _).
        apply D. destruct S as [[-> _]|[[-> _]|[-> _]]]; cbn [app] in E.
        -- destruct ds as [|d ds]; [congruence|]. injection E as <- E. inversion F. exfalso. apply dec_plus. assumption.
        -- injection E as E. exists ds, b. auto.
        -- discriminate.
    + pose proof (int_digits_spec (String c r) 0 false) as D. destruct (int_digits (String c r) 0 false) as [v|e].
      * destruct D as (ds & b & E & F & B & [S|S] & V); [discriminate|]. apply RB. exists [], 1, ds, b.
        cbn [list_ascii_of_string] in E. rewrite E. rewrite fold_step in V. unfold is_sign, number_of. repeat split; auto. lia.
      * destruct D as [-> D]. split; [reflexivity|]. intros v R. apply RB in R as (sg & k & ds & b & E & S & F & N & B & _).
        apply D. cbn [list_ascii_of_string]. destruct S as [[-> _]|[[-> _]|[-> _]]]; cbn [app] in E.
        -- exists ds, b. auto.
        -- injection E as -> _. congruence.
        -- injection E as -> _. congruence.
Qed.
Lemma digits_unique (ds ds' b b' : list ascii) : ds ++ b = ds' ++ b' -> Forall decimal ds -> Forall decimal ds' -> Forall blank b -> Forall blank b' -> ds = ds'.
Proof.
  revert ds'. induction ds as [|x ds IH]; intros [|y ds'] E F F' B B'; cbn in E.
  - reflexivity.
  - subst b. inversion F'. inversion B. exfalso. eapply decimal_not_blank; eassumption.
  - subst b'. inversion F. inversion B'. exfalso. eapply decimal_not_blank; eassumption.
  - injection E as <- E. inversion F; inversion F'; subst. f_equal. eapply IH; eassumption.
Qed.
Lemma body_unique l v v' : is_body l v -> is_body l v' -> v = v'.
Proof.
  intros (sg & k & ds & b & -> & S & F & N & B & ->) (sg' & k' & ds' & b' & E & S' & F' & N' & B' & ->).
  destruct ds as [|d ds]; [congruence|]. destruct ds' as [|d' ds']; [congruence|].
  assert (Hd : decimal d) by (inversion F; assumption). assert (Hd' : decimal d') by (inversion F'; assumption).
  pose proof dec_minus. pose proof dec_plus.
  destruct S as [[-> ->]|[[-> ->]|[-> ->]]]; destruct S' as [[-> ->]|[[-> ->]|[-> ->]]]; cbn [app] in E; try (injection E as -> E; contradiction); try (injection E as <- E; contradiction); try discriminate.
  - change (d :: ds ++ b) with ((d :: ds) ++ b) in E. change (d' :: ds' ++ b') with ((d' :: ds') ++ b') in E.
    rewrite (digits_unique _ _ _ _ E) by assumption. reflexivity.
  - injection E as E. change (d :: ds ++ b = (d' :: ds') ++ b') with ((d :: ds) ++ b = (d' :: ds') ++ b') in E.
    assert (X : (d :: ds) ++ b = (d' :: ds') ++ b') by (cbn; congruence). rewrite (digits_unique _ _ _ _ X) by assumption. reflexivity.
  - assert (X : (d :: ds) ++ b = (d' :: ds') ++ b') by (cbn; congruence). rewrite (digits_unique _ _ _ _ X) by assumption. reflexivity.
Qed.
Lemma py_int_iff s v : py_int s = Ok v <-> reads_integer s v.
Proof.
  pose proof (py_int_spec s) as P. destruct (py_int s) as [v'|e].
  - split; [intro X; injection X as <-; exact P|]. intro R. f_equal. apply (body_unique (list_ascii_of_string (strip_l s))); apply reads_body; assumption.
  - split; [discriminate|]. intro R. destruct P as [_ P]. exfalso. exact (P v R).
Qed.

(** ** Channels *)
Lemma band_iff s b : band_from_string s = Ok b <-> b <> BAND_NOT_IMPL /\ s = band_text b.
Proof.
  unfold band_from_string. destruct (String.eqb_spec s "433") as [->|N1]; [|destruct (String.eqb_spec s "868") as [->|N2]; [|destruct (String.eqb_spec s "915") as [->|N3]]];
    destruct b; cbn [band_text]; split; try discriminate; try (intros [? ?]; congruence); intros; try split; congruence.
Qed.
Lemma class_iff c k : class_from_char c = Ok k <-> String c EmptyString = class_letter k.
Proof.
  unfold class_from_char. destruct (Ascii.eqb_spec c "L") as [->|N1]; [|destruct (Ascii.eqb_spec c "N") as [->|N2]; [|destruct (Ascii.eqb_spec c "H") as [->|N3]; [|destruct (Ascii.eqb_spec c "R") as [->|N4]]]];
    destruct k; cbn [class_letter]; split; try discriminate; try reflexivity; intro X; try (injection X as X); congruence.
Qed.
Lemma coding_iff c k : coding_from_char c = Ok k <-> k <> CodingRFU /\ String c EmptyString = coding_letter k.
Proof.
  unfold coding_from_char. destruct (Ascii.eqb_spec c "P") as [->|N1]; [|destruct (Ascii.eqb_spec c "F") as [->|N2]; [|destruct (Ascii.eqb_spec c "C") as [->|N3]]];
    destruct k; cbn [coding_letter]; split; try discriminate; try (intros [? X]; try (injection X as X); congruence); intros; try split; congruence.
Qed.
Lemma number_small ds : Forall decimal ds -> 0 <= number_of ds < 10 ^ Z.of_nat (length ds).
Proof.
  unfold number_of. assert (G : forall acc n, Forall decimal ds -> 0 <= acc < 10 ^ Z.of_nat n ->
    0 <= fold_left (fun v c => 10 * v + decimal_value c) ds acc < 10 ^ Z.of_nat (n + length ds)).
  { induction ds as [|d ds IH]; intros acc n F R; cbn [fold_left length].
    - rewrite Nat.add_0_r. exact R.
    - inversion F as [|? ? D F']; subst. replace (n + S (length ds))%nat with (S n + length ds)%nat by lia. apply IH; [exact F'|].
      assert (0 <= decimal_value d <= 9).
      { assert (X : digit_val d = Some (decimal_value d)) by (apply digit_val_some; auto). unfold digit_val in X.
        destruct ((48 <=? _) && _) eqn:E; [|discriminate]. injection X as X. rewrite <- X. lia. }
      rewrite Nat2Z.inj_succ, Z.pow_succ_r by lia. lia. }
  intro F. apply (G 0 0%nat F). cbn. lia.
Qed.
Lemma substring_length s n : (String.length (substring 0 n s) <= n)%nat.
Proof. revert n. induction s as [|c s IH]; intros [|n]; cbn; try lia. specialize (IH n). lia. Qed.
Lemma chars_length s : length (list_ascii_of_string s) = String.length s.
Proof. induction s; cbn; congruence. Qed.
Lemma index_small s i : py_int (substring 0 3 s) = Ok i -> i <= 65535.
Proof.
  intro P. apply py_int_iff in P as (b & sg & k & ds & a & E & _ & S & F & _ & _ & ->).
  pose proof (substring_length s 3) as L. rewrite <- chars_length, E in L. rewrite !app_length in L.
  pose proof (number_small ds F) as N. assert (X : 10 ^ Z.of_nat (length ds) <= 10 ^ 3) by (apply Z.pow_le_mono_r; lia).
  change (10 ^ 3) with 1000 in X. destruct S as [[_ ->]|[[_ ->]|[_ ->]]]; lia.
Qed.
Lemma char_text c t : String c t = (String c EmptyString ++ t)%string.
Proof. reflexivity. Qed.
Lemma substring_all t : substring 0 0 t = EmptyString.
Proof. destruct t; reflexivity. Qed.
Lemma channel_text_iff s c : cid_from_string s = Ok c <-> is_channel_text s c.
Proof.
  unfold cid_from_string, ch_from_string, is_channel_text. split.
  - intro H. destruct (band_from_string (substring 0 3 (substring 0 5 s))) as [b|] eqn:B; [|discriminate H]. cbn [rbind] in H.
    apply band_iff in B as [Nb B].
    destruct s as [|c0 [|c1 [|c2 s]]]; try (destruct b; cbn in B; congruence).
    assert (B' : band_text b = String c0 (String c1 (String c2 EmptyString))).
    { rewrite <- B. cbn [substring]. rewrite substring_all. reflexivity. } clear B.
    destruct s as [|c3 s]; [discriminate H|]. destruct s as [|c4 s].
    + cbn in H. destruct (class_from_char c3); discriminate H.
    + cbn [substring char_at String.get rbind] in H. unfold char_at in H. cbn [String.get rbind] in H.
      destruct (class_from_char c3) as [k|] eqn:K; [|discriminate H]. cbn [rbind] in H. apply class_iff in K.
      destruct (coding_from_char c4) as [g|] eqn:G; [|discriminate H]. cbn [rbind] in H. apply coding_iff in G as [Ng G].
      destruct (py_int (substring 0 3 s)) as [i|] eqn:P; [|discriminate H]. cbn [rbind] in H.
      unfold mk_channel_id in H. apply validated_inv in H as [R <-]. cbn [cid_header cid_index ch_band ch_class ch_coding].
      refine (conj Nb (conj Ng _)). exists s. rewrite B', <- K, <- G. split; [reflexivity|]. split; [apply py_int_iff, P|].
      unfold in_range in R. lia.
  - intros (Nb & Ng & rest & -> & R & P). destruct c as [[g k b] i]. cbn [cid_header cid_index ch_band ch_class ch_coding] in *.
    apply py_int_iff in R.
    assert (I : i <= 65535) by (apply (index_small _ _ R)).
    assert (V : mk_channel_id (mkCH g k b) i = Ok (mkChannelID (mkCH g k b) i)).
    { unfold mk_channel_id. apply validated_ok. unfold in_range. lia. }
    destruct b, k, g; try congruence; cbn [band_text class_letter coding_letter append substring]; cbn; rewrite R; cbn [rbind]; exact V.
Qed.
Lemma channel_text_refused s e : cid_from_string s = Err e ->
  (forall c, ~ is_channel_text s c)
  /\ ((e = ValueError /\ exists b k g rest, b <> BAND_NOT_IMPL /\ g <> CodingRFU /\ s = (band_text b ++ class_letter k ++ coding_letter g ++ rest)%string)
      \/ (e = IndexError /\ exists b, b <> BAND_NOT_IMPL /\ (s = band_text b \/ exists k, s = (band_text b ++ class_letter k)%string))
      \/ (e = NotImplementedError /\ ~ exists b k g rest, b <> BAND_NOT_IMPL /\ g <> CodingRFU /\ s = (band_text b ++ class_letter k ++ coding_letter g ++ rest)%string)).
Proof.
  intro H. split; [intros c X; apply channel_text_iff in X; congruence|].
  unfold cid_from_string, ch_from_string in H.
  destruct (band_from_string (substring 0 3 (substring 0 5 s))) as [b|e'] eqn:B; cbn [rbind] in H.
  - apply band_iff in B as [Nb B].
    destruct s as [|c0 [|c1 [|c2 s]]]; try (destruct b; cbn in B; congruence).
    assert (B' : band_text b = String c0 (String c1 (String c2 EmptyString))).
    { rewrite <- B. cbn [substring]. rewrite substring_all. reflexivity. } clear B.
    destruct s as [|c3 s]; [injection H as <-; right; left; split; [reflexivity|]; exists b; auto|].
    assert (Pre : forall b' k g rest, b' <> BAND_NOT_IMPL -> g <> CodingRFU -> String c0 (String c1 (String c2 (String c3 s))) = (band_text b' ++ class_letter k ++ coding_letter g ++ rest)%string ->
      String c3 EmptyString = class_letter k /\ s = (coding_letter g ++ rest)%string).
    { intros b' k g rest N1 N2 E. destruct b', k, g; try congruence; cbn in E; injection E as -> -> -> -> ->; split; reflexivity. }
    destruct s as [|c4 s].
    + cbn in H. destruct (class_from_char c3) as [k|x] eqn:K; cbn in H.
      * injection H as <-. right. left. split; [reflexivity|]. exists b. split; [exact Nb|]. right. exists k. apply class_iff in K. rewrite <- K, B'. reflexivity.
      * assert (x = NotImplementedError) as -> by (revert K; unfold class_from_char; repeat destruct (Ascii.eqb _ _); congruence).
        injection H as <-. right. right. split; [reflexivity|]. intros (b' & k & g & rest & N1 & N2 & E).
        destruct (Pre b' k g rest N1 N2 E) as [X _]. apply class_iff in X. congruence.
    + cbn [substring char_at String.get rbind] in H. unfold char_at in H. cbn [String.get rbind] in H.
      destruct (class_from_char c3) as [k|x] eqn:K; cbn [rbind] in H.
      2:{ assert (x = NotImplementedError) as -> by (revert K; unfold class_from_char; repeat destruct (Ascii.eqb _ _); congruence).
          injection H as <-. right. right. split; [reflexivity|]. intros (b' & k & g & rest & N1 & N2 & E).
          destruct (Pre b' k g rest N1 N2 E) as [X _]. apply class_iff in X. congruence. }
      destruct (coding_from_char c4) as [g|x] eqn:G; cbn [rbind] in H.
      2:{ assert (x = NotImplementedError) as -> by (revert G; unfold coding_from_char; repeat destruct (Ascii.eqb _ _); congruence).
          injection H as <-. right. right. split; [reflexivity|]. intros (b' & k' & g & rest & N1 & N2 & E).
          destruct (Pre b' k' g rest N1 N2 E) as [_ X]. assert (Y : String c4 EmptyString = coding_letter g).
          { destruct g; try congruence; cbn in X; injection X as -> _; reflexivity. }
          assert (Z' : coding_from_char c4 = Ok g) by (apply coding_iff; auto). congruence. }
      left. apply class_iff in K. apply coding_iff in G as [Ng G].
      split.
      * pose proof (py_int_spec (substring 0 3 s)) as P. destruct (py_int (substring 0 3 s)) as [i|x]; cbn [rbind] in H.
        -- unfold mk_channel_id, validated in H. destruct (in_range 0 65535 i); congruence.
        -- destruct P as [-> _]. congruence.
      * exists b, k, g, s. refine (conj Nb (conj Ng _)). rewrite B', <- K, <- G. reflexivity.
  - assert (e' = NotImplementedError) as -> by (revert B; unfold band_from_string; repeat destruct (String.eqb _ _); congruence).
    injection H as <-. right. right. split; [reflexivity|]. intros (b' & k & g & rest & N1 & N2 & E). subst s.
    destruct b', k, g; try congruence; cbn in B; discriminate B.
Qed.
